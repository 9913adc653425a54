(** Property C113: exactly which histories are given back. *)
From Verif Require Import Base.Bytes Base.BytesFacts Model.GoIO Model.GoStd Model.Wire Model.Nar
  Model.NarReader Model.NarWriter Spec.WireSpec Spec.NarSpec Spec.NarHist Spec.NarWHist Spec.NarBackSpec Spec.NarParenSpec
  Proof.NarReaderFacts Proof.NarSession Proof.NarBack Proof.NarParenLast Proof.NarParenPath Proof.NarWriterComplete
  Spec.PipelineSpec Spec.CopySpec Proof.NarReaderAny Proof.NarWriterTree Proof.NarCopy Props.NarReaderP Props.NarWriterP Props.NarListedP Props.BackP Props.CopyP Props.CopyListedP.
Ltac Zify.zify_post_hook ::= idtac.

Lemma log_headers hist : forall r0 res r1, wsession hist r0 = (res, r1) -> map fst (log_of hist res) = map fst hist.
Proof.
  induction hist as [|[h ps] hist IH]; intros r0 res r1 H2; cbn [wsession] in H2; [reflexivity|].
  destruct (WriteHeader h r0) as [x ra]. destruct (wr_writes ps ra) as [l rb]. destruct (wsession hist rb) as [o rc] eqn:Eo.
  injection H2 as <- <-. cbn [log_of map fst]. f_equal. eapply IH. exact Eo.
Qed.
(** Of the successful histories within the Reader's sizes exactly those in which nothing but its contents follows a path
    ending in "/)" are given back from every stream that begins with the bytes written. *)
Theorem C113_exact : forall w0 r0 w hist res r1 r2,
  NewWriter w0 = (Ok r0, w) -> wsession hist r0 = (res, r1) -> Forall (fun x => fst x = WOk) res ->
  wr_Close r1 = (WOk, r2) ->
  Forall (fun x => careful (fst x) /\ Forall (fun p => lenN p < 2 ^ 63)%N (snd x)) hist ->
  no_repeat (map (fun x => hd_path (fst x)) hist) ->
  Forall (fun x => within_sizes (fst x)) hist ->
  (nothing_after_paren (map fst hist) <->
   forall s rest e plans, out w0 ++ fst (flat s) = out (wr_sink r2) ++ rest -> snd (flat s) = e ->
   exists rd0 s1 o rd1, NewReader s = (Ok rd0, s1) /\ session plans rd0 = (o, rd1) /\ session_of (log_of hist res) plans o).
Proof.
  intros w0 r0 w hist res r1 r2 H1 H2 H3 H4 H5 H6 H7. split.
  - intros HP s rest e plans H8 H9.
    destruct (C113_read_back_partial w0 r0 w hist res r1 r2 s rest e plans H1 H2 H3 H4 H5 H6 H7 HP H8 H9) as (rd0 & s1 & o & rd1 & k & A & B & C & _).
    exists rd0, s1, o, rd1. auto.
  - intros H. destruct (C36_closed_is_valid_partial w0 r0 w hist res r1 r2 H1 H2 H3 H4 H5 H6) as (t & V & E & L).
    assert (G : Forall (fun it => within_sizes (fst it) /\ (hd_size (fst it) < 2 ^ 63)%Z) (log_of hist res)).
    { clear -H5 H7. revert res. induction hist as [|[h ps] hist IH]; intros [|[x l] res]; cbn [log_of]; try constructor.
      - inversion H5 as [|? ? [(_ & _ & _ & A) _] _]; inversion H7; subst. cbn [fst]. auto.
      - inversion H5; inversion H7; subst. auto. }
    rewrite <- L in G. pose proof (sized_tree t (writable_valid t V) [] (Forall_nil _) G) as W.
    rewrite <- (log_headers _ _ _ _ H2), <- L. apply (listable_paths t W). split; [exact W|]. apply (C28_listed_exact t W).
    intros s rest e plans F. rewrite L. apply (H s rest e plans); rewrite F; [|reflexivity]. cbn [fst]. rewrite E, app_assoc. reflexivity.
Qed.
Print Assumptions C113_exact.
(** It is the condition on paths that decides here: both meet the others. *)
Example C113_exact_nonvacuous : nothing_after_paren (map fst back_case) /\ ~ nothing_after_paren paren_case /\ Forall within_sizes paren_case.
Proof.
  split; [apply C113_nonvacuous|]. split.
  - intros H. specialize (H [root_hdr] (Header (bs "/)") (bs "symlink") (bs "x") 0 false) [Header (bs "/a") (bs "symlink") (bs "y") 0 false] eq_refl (ex_intro _ [] eq_refl)).
    inversion H as [|? ? (z & Hz) _]; subst. cbn [hd_path] in Hz. apply (f_equal (fun p => nth 1 p x00)) in Hz. vm_compute in Hz. discriminate Hz.
  - assert (K : forall h l, split_byte (hd_path h) "/"%byte = l -> forallb (fun c => length c <=? 255) l = true ->
      (lenN (hd_target h) <=? 4095)%N = true -> within_sizes h).
    { intros h l <- H1 H2. split; [|apply N.leb_le; exact H2]. apply Forall_forall. intros c Hc. rewrite forallb_forall in H1. apply H1 in Hc.
      apply Nat.leb_le in Hc. exact Hc. }
    repeat (constructor; [eapply K; [reflexivity|vm_compute; reflexivity|vm_compute; reflexivity]|]). constructor.
Qed.

(** C116: so a copy gives again what was reported, on every stream, exactly if nothing but its contents was reported after a
    path ending in "/)". *)
Theorem C116_read_again_exact : forall s r s1 plans o r' w0 r0 w res r1 r2,
  NewReader s = (Ok r, s1) -> session plans r = (o, r') -> buffers_ok plans ->
  NewWriter w0 = (Ok r0, w) -> wsession (rewritten o) r0 = (res, r1) -> all_ok (rewritten o) res -> wr_Close r1 = (WOk, r2) ->
  no_repeat (map (fun x => hd_path (fst x)) (rewritten o)) ->
  (nothing_after_paren (map fst (rewritten o)) <->
   forall s2 rest e plans2, out w0 ++ fst (flat s2) = out (wr_sink r2) ++ rest -> snd (flat s2) = e ->
   exists rd0 s3 o2 rd1, NewReader s2 = (Ok rd0, s3) /\ session plans2 rd0 = (o2, rd1) /\ session_of (contents (rewritten o)) plans2 o2).
Proof.
  intros s r s1 plans o r' w0 r0 w res r1 r2 A B C D E F G N.
  pose proof (reader_headers _ _ _ _ _ _ A B) as RH. pose proof (chunks_small _ _ _ _ C B) as CS.
  rewrite <- (log_all _ _ _ (history_contents _ CS) F).
  apply (C113_exact w0 r0 w (rewritten o) res r1 r2 D E (all_ok_WOk _ _ F) G); [|exact N|].
  - rewrite Forall_forall in *. intros x I. destruct (reader_careful _ (RH x I)). auto.
  - eapply Forall_impl; [|exact (reported_sizes _ _ _ _ _ _ A B)]. intros x [H _]. exact H.
Qed.
Print Assumptions C116_read_again_exact.
(** A report that does not meet it: "/z" comes after "/q/)". *)
Example C116_read_again_exact_nonvacuous : exists r s1 o r' r0 w res r1 r2,
  NewReader (Src [nar shifted] EEOF false) = (Ok r, s1) /\ session (repeat [1%N] 6) r = (o, r') /\ buffers_ok (repeat [1%N] 6) /\
  NewWriter (Sink [] []) = (Ok r0, w) /\ wsession (rewritten o) r0 = (res, r1) /\ all_ok (rewritten o) res /\ wr_Close r1 = (WOk, r2) /\
  no_repeat (map (fun x => hd_path (fst x)) (rewritten o)) /\ ~ nothing_after_paren (map fst (rewritten o)).
Proof.
  eexists _, _, _, _, _, _, _, _, _. split; [vm_compute; reflexivity|]. split; [vm_compute; reflexivity|]. split; [repeat constructor|].
  split; [vm_compute; reflexivity|]. split; [vm_compute; reflexivity|]. split; [repeat constructor|]. split; [vm_compute; reflexivity|].
  unfold rewritten. cbn [map concat fst snd app hd_path]. split; [cbn [no_repeat]; repeat split; discriminate|].
  intros H. specialize (H [_; _] _ [_; _] eq_refl (ex_intro _ (bs "/q") eq_refl)).
  inversion H as [|? ? _ H']; subst. inversion H' as [|? ? (z & Hz) _]; subst. cbn [hd_path] in Hz. apply (f_equal (fun p => nth 1 p x00)) in Hz. vm_compute in Hz. discriminate Hz.
Qed.
