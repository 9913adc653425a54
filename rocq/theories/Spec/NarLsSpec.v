(** What a valid listing is, for C40. *)
From Coq Require Import Permutation.
From Verif Require Import Base.Bytes Model.NarLs.

(** A name without '/' and NUL. *)
Definition clean_name (k : bytes) : Prop := ~ In "/"%byte k /\ ~ In x00 k.
(** The fields of a node fit its type. *)
Definition fields_fit (n : lnode) : Prop :=
  (ltype n = bs "regular" -> ltarget n = []) /\
  (ltype n = bs "directory" -> ltarget n = [] /\ lsize n = 0%Z /\ lexec n = false) /\
  (ltype n = bs "symlink" -> ltarget n <> [] /\ lsize n = 0%Z /\ lexec n = false).
(** [below n m]: m is n or a node under it; [None] is a missing node (JSON null). *)
Inductive below (n : lnode) : option lnode -> Prop :=
| below_self : below n (Some n)
| below_child m k c : below n (Some m) -> In (k, c) (lentries m) -> below n c.
(** The same listing with the entries of any map in another order. *)
Inductive reordered : option lnode -> option lnode -> Prop :=
| ro_nil : reordered None None
| ro_node ty es es1 es2 size target exec off :
    Permutation es es1 ->
    Forall2 (fun a b => fst a = fst b /\ reordered (snd a) (snd b)) es1 es2 ->
    reordered (Some (LNode ty es size target exec off)) (Some (LNode ty es2 size target exec off)).
(** ParseLS can meet a missing node: there is one, and nothing on the way down to it is wrong. *)
Inductive meets_null (n : lnode) : Prop :=
| null_here k : fields_fit n -> clean_name k -> In (k, None) (lentries n) -> meets_null n
| null_below k m : fields_fit n -> clean_name k -> In (k, Some m) (lentries n) -> meets_null m -> meets_null n.
(** ParseLS can meet something wrong: a node with entries whose fields do not fit, or an unclean name. *)
Inductive meets_fault (n : lnode) : Prop :=
| fault_fields : lentries n <> [] -> ~ fields_fit n -> meets_fault n
| fault_name k c : In (k, c) (lentries n) -> ~ clean_name k -> meets_fault n
| fault_below k m : In (k, Some m) (lentries n) -> meets_fault m -> meets_fault n.
