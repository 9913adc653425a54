(** What a caller that recreates the reported nodes below a directory of its
    own relies on (C109). *)
From Verif Require Import Base.Bytes Model.GoIO Model.GoStd Model.Nar Spec.NarSpec Spec.BackendSpec.

(** [q] is the directory [dest] itself or a path below it, without any ".." that
    would lead out of it again. *)
Definition within (dest q : bytes) : Prop :=
  exists cs, Forall NarSpec.entry_name cs /\ q = fold_left child cs (Clean dest).
(** Path [q] lies strictly below path [p]. *)
Definition strictly_below (q p : bytes) : Prop :=
  exists cs ds, Forall NarSpec.entry_name (cs ++ ds) /\ ds <> [] /\ p = path_of cs /\ q = path_of (cs ++ ds).
(** [before a b hs]: [a] occurs in [hs], and [b] occurs later. *)
Definition before {A} (a b : A) (hs : list A) : Prop := exists l1 l2 l3, hs = l1 ++ a :: l2 ++ b :: l3.
(** No header has the path of the one just before it. *)
Definition no_repeats (hs : list header) : Prop :=
  forall l1 h1 h2 l2, hs = l1 ++ h1 :: h2 :: l2 -> hd_path h1 <> hd_path h2.
(** Path [q] is path [p] or lies below it. *)
Definition at_or_below (q p : bytes) : Prop := q = p \/ strictly_below q p.
