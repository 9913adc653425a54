(** Properties C22-C24: the reference scanner. *)
From Coq Require Import Sorted.
From Verif Require Import Base.Bytes Base.BytesFacts Model.References Spec.StorePathSpec Spec.RefSpec Proof.RefProps.

(** C22: [ws] are the arguments of successive Write calls. *)
Theorem C22_chunking : forall r ws,
  References (fold_left (fun r w => fst (rs_Write r w)) ws r) = References (fst (rs_Write r (concat ws))).
Proof. exact (fun r ws => f_equal References (run_writes_concat ws r)). Qed.
Print Assumptions C22_chunking.
Theorem C22_write_consumes_all : forall r w, snd (rs_Write r w) = length w.
Proof. exact (fun r w => eq_refl). Qed.
Print Assumptions C22_write_consumes_all.

Definition p1 : bytes := bs "/nix/store/00bgd045z0d4icpbc2yyz4gx48ak44la-foo".
Definition p2 : bytes := bs "/nix/store/11bgd045z0d4icpbc2yyz4gx48ak44la-bar".
Definition run1 (d : bytes) : option (list bytes) :=
  match NewReferenceScanner [p2; p1] with
  | Ok r => Some (References (fst (rs_Write r d))) | _ => None
  end.
Example C22_nonvacuous :
  run1 (bs "x /nix/store/00bgd045z0d4icpbc2yyz4gx48ak44la-foo") = Some [p1].
Proof. vm_compute. reflexivity. Qed.

(** C23 *)
Theorem C23_reported_are_real : forall cands r0 d p,
  NewReferenceScanner cands = Ok r0 ->
  In p (References (fst (rs_Write r0 d))) -> In p cands /\ occurs (hash_of p) d.
Proof.
  intros cands r0 d p H Hp. apply (references_exact cands r0 d H) in Hp. destruct Hp as [H1 H2].
  split; [eapply candidate_in; eauto|apply aligned_occ_occurs; exact H1].
Qed.
Print Assumptions C23_reported_are_real.
Theorem C23_sorted_no_duplicate_hash : forall cands r0 d,
  NewReferenceScanner cands = Ok r0 ->
  StronglySorted (fun a b => ble a b = true) (References (fst (rs_Write r0 d))) /\
  NoDup (map hash_of (References (fst (rs_Write r0 d)))).
Proof. exact (fun cands r0 d H => proj2 (references_exact cands r0 d H)). Qed.
Print Assumptions C23_sorted_no_duplicate_hash.
Theorem C23_monotone : forall cands r0 d e p,
  NewReferenceScanner cands = Ok r0 ->
  In p (References (fst (rs_Write r0 d))) -> In p (References (fst (rs_Write (fst (rs_Write r0 d)) e))).
Proof.
  intros cands r0 d e p H Hp.
  replace (fst (rs_Write (fst (rs_Write r0 d)) e)) with (fst (rs_Write r0 (d ++ e)))
    by (unfold rs_Write; cbn [fst]; apply fold_left_app).
  apply (references_exact cands r0 _ H). apply (references_exact cands r0 d H) in Hp.
  destruct Hp as [H1 H2]. split; [apply aligned_occ_mono; exact H1|exact H2].
Qed.
Print Assumptions C23_monotone.
Example C23_nonvacuous :
  run1 (bs "11bgd045z0d4icpbc2yyz4gx48ak44la/00bgd045z0d4icpbc2yyz4gx48ak44la") = Some [p1; p2].
Proof. vm_compute. reflexivity. Qed.

(** C24 is false: a hash that follows other base32 characters is missed. *)
Theorem C24_refuted : exists cands r0 d p,
  NewReferenceScanner cands = Ok r0 /\ In p cands /\ hash_part (hash_of p) /\ occurs (hash_of p) d /\
  References (fst (rs_Write r0 d)) = [].
Proof.
  exists [p1]. eexists. exists (bs "0" ++ hash_of p1), p1. split; [vm_compute; reflexivity|].
  split; [left; reflexivity|]. split; [|split].
  - split; [reflexivity|]. apply Forall_forall. intros c Hc.
    assert (H : forallb (fun c => existsb (byte_eqb c) hash_alphabet) (hash_of p1) = true) by (vm_compute; reflexivity).
    rewrite forallb_forall in H. apply H in Hc. apply contains_byte_iff. exact Hc.
  - exists (bs "0"), []. rewrite app_nil_r. reflexivity.
  - vm_compute. reflexivity.
Qed.
Print Assumptions C24_refuted.
(** Exactly which candidates are reported. *)
Theorem C24_reported_exactly_partial : forall cands r0 d p,
  NewReferenceScanner cands = Ok r0 ->
  (In p (References (fst (rs_Write r0 d))) <->
   aligned_occurrence (hash_of p) d /\ candidate_for cands (hash_of p) p).
Proof. exact (fun cands r0 d p H => proj1 (references_exact cands r0 d H) p). Qed.
Print Assumptions C24_reported_exactly_partial.
(** In particular a hash at the start of the data or after a character that is
    not a base32 digit, such as the '/' of a store path, is always found. *)
Theorem C24_not_missed_after_separator_partial : forall cands r0 d p a post,
  NewReferenceScanner cands = Ok r0 -> In p cands -> hash_part (hash_of p) ->
  d = a ++ hash_of p ++ post ->
  (a = [] \/ exists a' c, a = a' ++ [c] /\ ~ is_b32 c) ->
  exists q, In q (References (fst (rs_Write r0 d))) /\ hash_of q = hash_of p.
Proof. exact not_missed. Qed.
Print Assumptions C24_not_missed_after_separator_partial.
Example C24_nonvacuous :
  run1 (bs "/nix/store/11bgd045z0d4icpbc2yyz4gx48ak44la") = Some [p2] /\ ~ is_b32 "/"%byte.
Proof. split; [vm_compute; reflexivity|]. apply contains_byte_false. reflexivity. Qed.
