(** C103: scanning a dumped tree for references. *)
From Verif Require Import Base.Bytes Base.BytesFacts Model.GoIO Model.References Model.NarWriter Model.NarDump Spec.NarSpec Spec.NarWHist Spec.NarDumpSpec Spec.StorePathSpec Spec.RefSpec Spec.ScanSpec
  Proof.RefProps Proof.ScanProps Proof.NarDumpProps.
Ltac Zify.zify_post_hook ::= idtac.

(** What a fresh scanner reports after the writes [ws]. *)
Definition scan (r0 : scanner) (ws : list bytes) : list bytes := References (fold_left (fun r x => fst (rs_Write r x)) ws r0).

(** Scanning the dump of a tree, in whatever pieces it is written, reports exactly the candidates that scanning the
    contents of its files, the targets of its links and the names of its entries one by one reports. *)
Theorem C103_scan_dump : forall cands r0 filter root o f w,
  NewReferenceScanner cands = Ok r0 -> fs_ok f -> DumpPathFilter filter root (Sink [] o) f = (WOk, w) ->
  exists t, tree_of (keep_of filter) root [] f = Some t /\
    (below_64PiB t -> forall ws p, concat ws = out w -> (In p (scan r0 ws) <-> exists x, In x (texts t) /\ In p (scan r0 [x]))).
Proof.
  intros cands r0 filter root o f w HN HF HD. destruct (dump_success _ _ _ _ _ HF HD) as (_ & t & T1 & T2). exists t. split; [exact T1|]. intros HB ws p HW.
  change (out (Sink [] o)) with (@nil byte) in T2. cbn [app] in T2. unfold scan. change (fold_left (fun r x => fst (rs_Write r x)) ws r0) with (run_writes r0 ws). rewrite run_writes_concat, HW, T2.
  rewrite (proj1 (references_exact cands r0 (nar t) HN) p), (nar_occ _ t HB). split.
  - intros [(x & X & Y) C]. exists x. split; [exact X|]. cbn [fold_left]. apply (references_exact cands r0 x HN). auto.
  - intros (x & X & Y). cbn [fold_left] in Y. apply (references_exact cands r0 x HN) in Y. destruct Y as [Y C]. eauto.
Qed.
Print Assumptions C103_scan_dump.
(** What is reported occurs in one of the texts, and a hash at the beginning of a text, or behind a character that is not
    a base32 digit, is reported. *)
Theorem C103_dump_references : forall cands r0 filter root o f w t ws,
  NewReferenceScanner cands = Ok r0 -> fs_ok f -> DumpPathFilter filter root (Sink [] o) f = (WOk, w) ->
  tree_of (keep_of filter) root [] f = Some t -> below_64PiB t -> concat ws = out w ->
  (forall p, In p (scan r0 ws) -> In p cands /\ exists x, In x (texts t) /\ occurs (hash_of p) x) /\
  (forall p x a post, In p cands -> hash_part (hash_of p) -> In x (texts t) -> x = a ++ hash_of p ++ post ->
     (a = [] \/ exists a' c, a = a' ++ [c] /\ ~ is_b32 c) ->
     exists q, In q (scan r0 ws) /\ hash_of q = hash_of p).
Proof.
  intros cands r0 filter root o f w t ws HN HF HD HT HB HW. destruct (C103_scan_dump _ _ _ _ _ _ _ HN HF HD) as (t' & T & S). assert (t' = t) by congruence. subst t'. specialize (S HB). split.
  - intros p HP. apply (S ws p HW) in HP. destruct HP as (x & X & Y). unfold scan in Y. cbn [fold_left] in Y. apply (references_exact cands r0 x HN) in Y. destruct Y as [Y C].
    split; [eapply candidate_in; eauto|]. exists x. split; [exact X|apply aligned_occ_occurs; exact Y].
  - intros p x a post HC HH HX HE HA. destruct (not_missed cands r0 x p a post HN HC HH HE HA) as (q & Q1 & Q2). exists q. split; [|exact Q2]. apply (S ws q HW). exists x. auto.
Qed.
Print Assumptions C103_dump_references.

Definition scan_path : bytes := bs "/nix/store/00bgd045z0d4icpbc2yyz4gx48ak44la-foo".
(** The length of the first file is the code of the digit "8": it is not taken for a part of what is around it. *)
Definition scan_fs : fs :=
  FDir [ (bs "a", FReg 420 56 (Src [bs "/nix/store/00bgd045z0"; bs "d4icpbc2yyz4gx48ak44la-foo/bin/sh12"] EEOF false)); (bs "b", FSym (bs "a")) ].
Example C103_nonvacuous : exists r0 w t,
  NewReferenceScanner [scan_path] = Ok r0 /\ fs_ok scan_fs /\ DumpPathFilter None (bs "/tmp/d") (Sink [] []) scan_fs = (WOk, w) /\
  tree_of (keep_of None) (bs "/tmp/d") [] scan_fs = Some t /\ below_64PiB t /\ length (texts t) = 4 /\ scan r0 [out w] = [scan_path].
Proof.
  eexists. eexists. eexists. split; [vm_compute; reflexivity|]. split.
  { constructor; [|repeat constructor|repeat constructor; try discriminate; vm_compute; reflexivity].
    repeat constructor; try discriminate; cbn [fst]; intros H; repeat destruct H as [H|H]; try discriminate H; destruct H. }
  split; [vm_compute; reflexivity|]. split; [vm_compute; reflexivity|]. split; [repeat (constructor; [vm_compute; reflexivity|]); constructor|]. split; vm_compute; reflexivity.
Qed.
