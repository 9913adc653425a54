(** Exactly which trees the nar Reader reads (C28), and exactly which survive the round trip (C29). *)
From Verif Require Import Base.Bytes Base.BytesFacts Model.GoIO Model.GoStd Model.Wire Model.Nar
  Model.NarReader Model.NarWriter Spec.WireSpec Spec.WireHist Spec.NarSpec Spec.NarHist Spec.NarWHist Spec.NarAccept Spec.PipelineSpec
  Proof.WireFacts Proof.NarPath Proof.NarReaderFacts Proof.NarSession Proof.NarTrunc Proof.NarWriterComplete Proof.NarAcceptP
  Proof.NarReaderBad Props.NarReaderP Props.NarWriterP Props.AcceptP.
Ltac Zify.zify_post_hook ::= idtac.

(** If a Reader says io.EOF having read exactly the archive of a tree, then the tree has no entry called ")".
    (Where the stream itself ends with io.EOF right behind the archive nothing is claimed.) *)
Theorem C28_only_these : forall t s rest e plans r s1 o r', wf_tree any_name t -> flat s = (nar t ++ rest, e) ->
  rest <> [] \/ e <> EEOF -> NewReader s = (Ok r, s1) -> session plans r = (o, r') -> In (Err EEOF) (map fst o) ->
  flat (rd_src r') = (rest, e) -> wf_tree reader_name t.
Proof.
  intros t s rest e plans r s1 o r' Ht Hs Hr HN HS Hin Hf. destruct (flat_data _ _ _ Hs) as [Hd He]. destruct (flat_data _ _ _ Hf) as [Hd' He'].
  destruct (C110_accepts_partial s r s1 plans o r' HN HS Hin) as [(its & (d1 & T & HR) & _)|[G1 G2]]; [|destruct Hr; congruence].
  rewrite Hd in T. unfold nar, str in T. rewrite <- app_assoc in T. apply NarReaderBad.takes_field in T; [|reflexivity..]. destruct T as [_ ->].
  destruct (bad t) eqn:B; [|apply not_bad; assumption]. exfalso.
  pose proof (bad_reads _ _ _ _ _ Ht B HR) as L. rewrite Hd' in L. lia.
Qed.
Print Assumptions C28_only_these.
Lemma session_eof its : forall plans o, session_of its plans o -> length its < length plans -> In (Err EEOF) (map fst o).
Proof.
  induction 1; cbn [length map fst In]; intros L; [lia| |auto]. right. apply IHsession_of. lia.
Qed.
(** So, of the trees within the format's and the Reader's limits, a Reader reads exactly those without an entry
    called ")" back from every stream. *)
Theorem C28_exact : forall t, wf_tree any_name t ->
  (wf_tree reader_name t <->
   forall s rest e plans, flat s = (nar t ++ rest, e) ->
   exists r s1 o r', NewReader s = (Ok r, s1) /\ session plans r = (o, r') /\ session_of (items [] t) plans o /\
     (nodes t < length plans -> flat (rd_src r') = (rest, e))).
Proof.
  intros t Ht. split; [intros Hr s rest e plans Hs; apply (C28_reads_the_tree_partial t s rest e plans Hr Hs)|].
  intros H. destruct (H (Src [nar t] (EIo 1) false) [] (EIo 1) (repeat [] (S (nodes t)))) as (r & s1 & o & r' & H1 & H2 & H3 & H4).
  - unfold flat, src_data. cbn. rewrite !app_nil_r. reflexivity.
  - rewrite repeat_length in H4. assert (L : length (items [] t) < length (repeat (@nil N) (S (nodes t)))) by (rewrite repeat_length, items_length; lia).
    eapply C28_only_these with (rest := []) (e := EIo 1); [exact Ht| |right; discriminate|exact H1|exact H2| |apply H4; lia].
    + unfold flat, src_data. cbn. rewrite !app_nil_r. reflexivity.
    + eapply session_eof; eassumption.
Qed.
Print Assumptions C28_exact.
Example C28_exact_nonvacuous : wf_tree any_name ex_tree /\ wf_tree reader_name ex_tree /\
  wf_tree any_name (Dir [(bs ")", Sym (bs "x"))]) /\ ~ wf_tree reader_name (Dir [(bs ")", Sym (bs "x"))]).
Proof.
  assert (W : wf_tree reader_name ex_tree) by (apply wf_weaken; [exact C29_nonvacuous|intros n [A _]; exact A]).
  split; [apply wf_weaken; [exact C29_nonvacuous|intros; exact I]|]. split; [exact W|]. split.
  - constructor; [|exact I|]; repeat constructor; try discriminate; cbn [fst]; try (cbn; lia); intros H; repeat destruct H as [H|H]; try discriminate H; destruct H.
  - intros H. inversion H as [| |? A _ _]; subst. inversion A as [|? ? [_ B] _]; subst. apply B. reflexivity.
Qed.

(** C29: the trees that can be written, and are read back from every stream with the bytes written, are exactly
    those whose names neither begin with ".." nor are ")". *)
Lemma any_valid t : wf_tree any_name t -> valid_tree t /\ go_sized t.
Proof.
  induction t as [e c|tg|es IH] using node_ind2; intros H; inversion H as [| |? W1 W2 W3]; subst;
    [split; constructor; lia..|split; constructor; (constructor || lia || auto)|].
  assert (A : Forall (fun e => valid_tree (snd e) /\ go_sized (snd e)) es).
  { clear -IH W3. induction IH; [constructor|]. inversion W3; subst. constructor; auto. }
  assert (B : Forall (fun e => entry_name (fst e) /\ (lenN (fst e) < 2 ^ 63)%N) es).
  { eapply Forall_impl; [|exact W1]. intros a [(N1 & N2 & N3 & N4 & N5 & N6) _]. unfold lenN. repeat split; try assumption. lia. }
  split; constructor; auto; first [solve [eapply Forall_impl; [|exact A]; intros a Q; apply Q]|eapply Forall_impl; [|exact B]; intros a Q; apply Q].
Qed.
Lemma both_of t : wf_tree reader_name t -> writable t -> wf_tree both_names t.
Proof.
  induction t as [e c|tg|es IH] using node_ind2; intros H Hw; inversion H as [| |? W1 W2 W3]; subst; constructor; auto;
    inversion Hw as [| |? V1 V2 V3]; subst.
  - clear -W1 V1. induction es; [constructor|]. inversion W1; subst. inversion V1; subst. constructor; [|auto]. unfold both_names. tauto.
  - clear -IH W3 V3. induction IH; [constructor|]. inversion W3; subst. inversion V3; subst. constructor; auto.
Qed.
Lemma all_history t : go_sized t -> history_of (items [] t) (map (fun it => (fst it, [snd it])) (items [] t)).
Proof.
  intros Hg. unfold history_of. assert (L : Forall (fun it => lenN (snd it) < 2 ^ 63)%N (items [] t)).
  { generalize (@nil bytes). induction t as [e c|tg|es IH] using node_ind2; intros cs; cbn [items content_of];
      inversion Hg as [| |? G1 G2]; subst; (constructor; [cbn [snd]; first [assumption|reflexivity]|try apply Forall_nil]).
    clear -IH G2. induction es as [|[n x] es IHes]; [constructor|]. inversion IH; subst. inversion G2; subst.
    cbn [map concat fst snd]. apply Forall_app. split; [auto|]. apply IHes; assumption. }
  revert L. generalize (items [] t). intros l. induction l as [|it l IHl]; intros L; cbn [map]; [constructor|]. inversion L; subst.
  constructor; [|auto]. cbn [fst snd]. split; [reflexivity|]. split; [cbn; apply app_nil_r|]. constructor; [assumption|constructor].
Qed.
Theorem C29_exact : forall t, wf_tree any_name t ->
  (wf_tree both_names t <->
   forall hist, history_of (items [] t) hist ->
   exists r0 w res r1 r2, NewWriter (Sink [] []) = (Ok r0, w) /\ wsession hist r0 = (res, r1) /\ all_ok hist res /\
     wr_Close r1 = (WOk, r2) /\
     forall s rest e plans, flat s = (out (wr_sink r2) ++ rest, e) ->
     exists rd0 s1 o rd1, NewReader s = (Ok rd0, s1) /\ session plans rd0 = (o, rd1) /\
       session_of (items [] t) plans o /\ (nodes t < length plans -> flat (rd_src rd1) = (rest, e))).
Proof.
  intros t Ht. destruct (any_valid t Ht) as [Hv Hg]. split.
  - intros HB hist Hh. destruct (writer_session [] t hist (wf_writable t HB) Hh) as (r0 & w & res & r1 & r2 & E1 & E2 & E3 & E4 & E5).
    exists r0, w, res, r1, r2. repeat (split; [assumption|]). rewrite E5. cbn [app]. intros s rest e plans F.
    apply (C28_reads_the_tree_partial t s rest e plans); [|exact F]. apply wf_weaken; [exact HB|]. intros n [A _]. exact A.
  - intros H. destruct (H (map (fun it => (fst it, [snd it])) (items [] t))) as (r0 & w & res & r1 & r2 & E1 & E2 & E3 & E4 & E5).
    + apply all_history; exact Hg.
    + set (hist := map (fun it => (fst it, [snd it])) (items [] t)) in *.
      assert (HH : history_of (items [] t) hist) by (apply all_history; exact Hg).
      assert (W : writable t) by (eapply only_writable; eassumption).
      apply both_of; [|exact W]. apply C28_exact; [exact Ht|].
      destruct (writer_session [] t hist W HH) as (r0' & w' & res' & r1' & r2' & F1 & F2 & F3 & F4 & F5).
      rewrite E1 in F1. injection F1 as <- <-. rewrite E2 in F2. injection F2 as <- <-. rewrite E4 in F4. injection F4 as <-.
      rewrite F5 in E5. exact E5.
Qed.
Print Assumptions C29_exact.
