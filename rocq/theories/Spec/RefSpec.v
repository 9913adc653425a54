(** Specification vocabulary for the reference scanner (C22-C24). *)
From Verif Require Import Base.Bytes Spec.StorePathSpec.

(** The 32 characters after "/nix/store/". *)
Definition hash_of (p : bytes) : bytes := firstn 32 (skipn 11 p).
Definition occurs (h d : bytes) : Prop := exists pre post, d = pre ++ h ++ post.
Definition is_b32 (c : byte) : Prop := In c hash_alphabet.

(** [pre] ends in a run of nixbase32 characters whose length is a multiple of 32
    (zero, for instance, if pre is empty or ends in '/'). *)
Definition aligned (pre : bytes) : Prop :=
  exists a run k, pre = a ++ run /\ Forall is_b32 run /\ length run = 32 * k /\
    (a = [] \/ exists a' c, a = a' ++ [c] /\ ~ is_b32 c).
(** [h] occurs in [d] at such a place. *)
Definition aligned_occurrence (h d : bytes) : Prop :=
  hash_part h /\ exists pre post, d = pre ++ h ++ post /\ aligned pre.

(** The last of the candidates with hash part [h]. *)
Definition candidate_for (cands : list bytes) (h p : bytes) : Prop :=
  exists l1 l2, cands = l1 ++ p :: l2 /\ hash_of p = h /\ Forall (fun q => hash_of q <> h) l2.
