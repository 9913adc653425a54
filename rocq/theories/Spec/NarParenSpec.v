(** The trees all of whose nodes the nar Reader reports (C28). *)
From Verif Require Import Base.Bytes Model.Nar Spec.NarSpec.

(** [paren_last t k]: an entry called ")" is the last one of its directory, and so are the directories it is in, all
    the way up; there are [k] such entries, one inside the other.  So no node comes after such an entry and what is in it. *)
Inductive paren_last : node -> nat -> Prop :=
| pl_reg x c : paren_last (Reg x c) 0
| pl_sym tg : paren_last (Sym tg) 0
| pl_empty : paren_last (Dir []) 0
| pl_paren es t k : Forall (fun e => reader_name (fst e) /\ wf_tree reader_name (snd e)) es ->
    paren_last t k -> paren_last (Dir (es ++ [(bs ")", t)])) (S k)
| pl_other es n t k : Forall (fun e => reader_name (fst e) /\ wf_tree reader_name (snd e)) es ->
    n <> bs ")" -> paren_last t k -> paren_last (Dir (es ++ [(n, t)])) k.
(** The trees, within the format's and the Reader's limits, whose nodes are all reported (C28_listed_exact). *)
Definition listable (t : node) : Prop := wf_tree any_name t /\ exists k, paren_last t k.
(** The bytes of [k] closing tokens. *)
Definition closers (k : nat) : bytes := concat (repeat (str ")") k).

(** The same said of the paths of the headers, in their order: those after a path that ends with "/)" are below it. *)
Definition nothing_after_paren (hs : list header) : Prop :=
  forall l1 h l2, hs = l1 ++ h :: l2 -> (exists q, hd_path h = q ++ bs "/)") ->
    Forall (fun g => exists z, hd_path g = hd_path h ++ bs "/" ++ z) l2.
