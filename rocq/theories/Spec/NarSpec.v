(** What a NAR is: trees, their canonical serialisation, and the headers a
    reader should report (C25-C40). *)
From Verif Require Import Base.Bytes Model.Nar Spec.WireSpec.

(** * Component-wise order on paths *)
Fixpoint ccmp (a b : list bytes) : comparison :=
  match a, b with
  | [], [] => Eq
  | [], _ :: _ => Lt
  | _ :: _, [] => Gt
  | x :: a', y :: b' => match bcmp x y with Eq => ccmp a' b' | c => c end
  end.
(** The order of the paths split at '/'. *)
Definition component_le (a b : bytes) : Prop :=
  ccmp (split_byte a "/"%byte) (split_byte b "/"%byte) <> Gt.

(** * Trees *)
Inductive node :=
| Reg (exec : bool) (content : bytes)
| Sym (target : bytes)
| Dir (entries : list (bytes * node)).

(** * The canonical serialisation (NAR format, Dolstra's thesis fig. 5.2) *)
Definition str (s : string) : bytes := field (bs s).
Definition entry_open (name : bytes) : bytes :=
  str "entry" ++ str "(" ++ str "name" ++ field name ++ str "node".
Fixpoint ser (t : node) : bytes :=
  str "(" ++ str "type" ++
  match t with
  | Reg exec c =>
      str "regular" ++ (if exec then str "executable" ++ str "" else []) ++ str "contents" ++ field c
  | Sym target => str "symlink" ++ str "target" ++ field target
  | Dir es =>
      str "directory" ++
      concat (map (fun e => entry_open (fst e) ++ ser (snd e) ++ str ")") es)
  end ++ str ")".
Definition nar (t : node) : bytes := str "nix-archive-1" ++ ser t.

(** * Headers in depth-first order, with the content of each node *)
(** The path made of components, e.g. "/" for none and "/a/b" for a, b. *)
Definition path_of (cs : list bytes) : bytes := "/"%byte :: join_byte cs "/"%byte.
Definition hdr_of (cs : list bytes) (t : node) : header :=
  match t with
  | Reg exec c => Header (path_of cs) (bs "regular") [] (Z.of_nat (length c)) exec
  | Sym target => Header (path_of cs) (bs "symlink") target 0 false
  | Dir _ => Header (path_of cs) (bs "directory") [] 0 false
  end.
Definition content_of (t : node) : bytes := match t with Reg _ c => c | _ => [] end.
Fixpoint items (cs : list bytes) (t : node) : list (header * bytes) :=
  (hdr_of cs t, content_of t) ::
  match t with
  | Dir es => concat (map (fun e => items (cs ++ [fst e]) (snd e)) es)
  | _ => []
  end.
Fixpoint nodes (t : node) : nat :=
  S (match t with Dir es => list_sum (map (fun e => nodes (snd e)) es) | _ => 0 end).

(** * Well-formed trees *)
(** A name the format allows. *)
Definition entry_name (n : bytes) : Prop :=
  n <> [] /\ n <> bs "." /\ n <> bs ".." /\ ~ In "/"%byte n /\ ~ In x00 n.
Definition name_ok (n : bytes) : Prop :=
  n <> [] /\ n <> bs "." /\ n <> bs ".." /\ ~ In "/"%byte n /\ ~ In x00 n /\ length n <= 255.
Fixpoint names_sorted (l : list bytes) : Prop :=
  match l with
  | x :: (y :: _) as l' => blt x y = true /\ names_sorted l'
  | _ => True
  end.
(** [wf_tree extra t]: sizes in range, non-empty link targets, valid names in
    strictly increasing order, and every name satisfies [extra]. *)
Inductive wf_tree (extra : bytes -> Prop) : node -> Prop :=
| wf_reg exec c : (lenN c < 2 ^ 63)%N -> wf_tree extra (Reg exec c)
| wf_sym target : target <> [] -> (lenN target <= 4095)%N -> wf_tree extra (Sym target)
| wf_dir es :
    Forall (fun e => name_ok (fst e) /\ extra (fst e)) es -> names_sorted (map fst es) ->
    Forall (fun e => wf_tree extra (snd e)) es -> wf_tree extra (Dir es).
Definition any_name (n : bytes) : Prop := True.
(** Names go-nix's Reader can handle: the entry name ")" confuses it. *)
Definition reader_name (n : bytes) : Prop := n <> bs ")".
(** Names go-nix's Writer can handle: names that begin with ".." confuse it. *)
Definition writer_name (n : bytes) : Prop := firstn 2 n <> bs "..".
