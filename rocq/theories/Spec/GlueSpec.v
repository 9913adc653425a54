(** References glued together (C86). *)
From Verif Require Import Base.Bytes.

(** One reference out of several: the second and later ones with the store directory
    in front, separated by commas, the way a fingerprint lists them. *)
Fixpoint glue (group : list bytes) : bytes :=
  match group with
  | [] => []
  | [r] => r
  | r :: group' => r ++ bs ",/nix/store/" ++ glue group'
  end.
(** [refs] are those of [proper], in this order, some neighbours glued together. *)
Definition glued (proper refs : list bytes) : Prop :=
  exists groups, ~ In [] groups /\ concat groups = proper /\ map glue groups = refs.
