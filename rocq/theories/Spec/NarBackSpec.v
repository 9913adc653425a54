(** The limits the Reader puts on an archive, as limits on headers (C113). *)
From Verif Require Import Base.Bytes Model.Nar.

(** Every component of the path has at most 255 bytes and is not ")"; the target of a symlink has at
    most 4095 bytes. *)
Definition within_limits (h : header) : Prop :=
  Forall (fun c => length c <= 255 /\ c <> bs ")") (split_byte (hd_path h) "/"%byte) /\
  (lenN (hd_target h) <= 4095)%N.
(** The same, without a word about ")". *)
Definition within_sizes (h : header) : Prop :=
  Forall (fun c => length c <= 255) (split_byte (hd_path h) "/"%byte) /\ (lenN (hd_target h) <= 4095)%N.
