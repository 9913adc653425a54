(** Exactly which trees are reported as they are by the nar Reader (C28): an entry called ")" does no harm to what
    is reported where nothing comes after it. *)
From Verif Require Import Base.Bytes Base.BytesFacts Model.GoIO Model.GoStd Model.Wire Model.Nar
  Model.NarReader Model.NarWriter Spec.WireSpec Spec.WireHist Spec.NarSpec Spec.NarHist Spec.NarWHist Spec.NarAccept Spec.NarParenSpec
  Proof.WireFacts Proof.NarPath Proof.NarReaderFacts Proof.NarSession Proof.NarTrunc Proof.NarAcceptP
  Proof.NarWriterComplete Proof.NarReaderBad Proof.NarParenLast Proof.NarParenPath Props.NarReaderP Props.NarWriterP Props.AcceptP Props.NarExactP.
Ltac Zify.zify_post_hook ::= idtac.

Lemma wf_reader_last t k : paren_last t k -> wf_tree any_name t -> k = 0 -> wf_tree reader_name t.
Proof.
  induction 1 as [x c|tg| |es t k He Ht IH|es n t k He Hn Ht IH]; intros Hwf E0; try discriminate E0;
    inversion Hwf as [| |? W1 W2 W3]; subst; constructor; auto.
  - apply Forall_app in W1. destruct W1 as [W1 W1']. apply Forall_app. split.
    + apply Forall_forall. intros e Hin. rewrite Forall_forall in W1, He. split; [apply (W1 e Hin)|apply (He e Hin)].
    + inversion W1' as [|? ? [A _] _]; subst. constructor; [split; [exact A|exact Hn]|constructor].
  - apply Forall_app in W3. destruct W3 as [W3 W3']. apply Forall_app. split.
    + eapply Forall_impl; [|exact He]. cbn. tauto.
    + inversion W3'; subst. cbn [snd] in *. constructor; [cbn [snd]; auto|constructor].
Qed.
(** Such a tree is reported as it is, from every stream; with [k] entries called ")" the Reader stops [k] closing
    tokens before the end of the archive. *)
Theorem C28_listed : forall t k s rest e plans, wf_tree any_name t -> paren_last t k -> flat s = (nar t ++ rest, e) ->
  exists r s1 o r', NewReader s = (Ok r, s1) /\ session plans r = (o, r') /\ session_of (items [] t) plans o /\
    (nodes t < length plans -> flat (rd_src r') = (closers k ++ rest, e)).
Proof.
  intros t k s rest e plans Ht Hk Hs. destruct (flat_data _ _ _ Hs) as [Hd He].
  assert (A : archive_read (items [] t) (src_data s) (closers k ++ rest)).
  { rewrite Hd. exists (ser t ++ rest). split; [unfold nar, str; rewrite <- app_assoc; apply takes_self|].
    apply (last_read t k Hk Ht []). constructor. }
  destruct (C110_accepts_all s _ _ plans A) as (r & s1 & o & r' & H1 & H2 & H3 & H4).
  - eapply chained_in_order. eapply chained_items. exact Ht.
  - exists r, s1, o, r'. repeat (split; [assumption|]). intros L. rewrite items_length in H4. destruct (H4 L) as [H5 H6].
    unfold flat. rewrite H5, H6, He. reflexivity.
Qed.
Print Assumptions C28_listed.

Lemma same_headers a plans o : session_of a plans o -> length a < length plans -> forall b, session_of b plans o -> map fst a = map fst b.
Proof.
  induction 1; cbn [length]; intros L b0 Hb; [lia| |].
  - inversion Hb; subst. cbn [map fst]. f_equal. apply IHsession_of; [lia|assumption].
  - inversion Hb; subst. reflexivity.
Qed.
(** And these are all: of the trees within the format's and the Reader's limits, exactly these are reported as they
    are from every stream. *)
Theorem C28_listed_exact : forall t, wf_tree any_name t ->
  ((exists k, paren_last t k) <->
   forall s rest e plans, flat s = (nar t ++ rest, e) ->
   exists r s1 o r', NewReader s = (Ok r, s1) /\ session plans r = (o, r') /\ session_of (items [] t) plans o).
Proof.
  intros t Ht. split.
  - intros (k & Hk) s rest e plans Hs. destruct (C28_listed t k s rest e plans Ht Hk Hs) as (r & s1 & o & r' & H1 & H2 & H3 & _). eauto 8.
  - intros H. set (s := Src [nar t] (EIo 1) false). set (plans := repeat (@nil N) (S (nodes t))).
    assert (F : flat s = (nar t ++ [], EIo 1)) by (unfold s, flat, src_data; cbn; rewrite !app_nil_r; reflexivity).
    destruct (H s [] (EIo 1) plans F) as (r & s1 & o & r' & H1 & H2 & H3).
    assert (L : length (items [] t) < length plans) by (unfold plans; rewrite repeat_length, items_length; lia).
    destruct (C110_accepts_partial s r s1 plans o r' H1 H2 (session_eof _ _ _ H3 L)) as [(its & (d1 & T & HR) & _ & Ho)|[G _]]; [|discriminate].
    destruct (flat_data _ _ _ F) as [Hd _]. rewrite Hd in T. unfold nar, str in T. rewrite <- app_assoc in T.
    apply NarReaderBad.takes_field in T; [|reflexivity..]. destruct T as [_ ->].
    eapply listed_last; [exact Ht|exact HR|]. symmetry. eapply same_headers; eassumption.
Qed.
Print Assumptions C28_listed_exact.
(** With the count 0 this is C28_exact's condition. *)
Theorem C28_listed_none : forall t, wf_tree any_name t -> (paren_last t 0 <-> wf_tree reader_name t).
Proof. intros t Ht. split; [intros H; eapply wf_reader_last; eauto|apply reader_last]. Qed.
Print Assumptions C28_listed_none.

(** The same condition in terms of the paths alone: what comes after a path that ends with "/)" is below it. *)
Theorem C28_listed_paths : forall t, wf_tree any_name t -> (listable t <-> nothing_after_paren (map fst (items [] t))).
Proof. exact listable_paths. Qed.
Print Assumptions C28_listed_paths.

(** C29: the trees that can be written, and whose headers and contents are then read back from every stream that
    begins with the bytes written, are exactly the writable ones in which nothing comes after an entry called ")". *)
Theorem C29_listed_exact : forall t, wf_tree any_name t ->
  (writable t /\ listable t <->
   forall hist, history_of (items [] t) hist ->
   exists r0 w res r1 r2, NewWriter (Sink [] []) = (Ok r0, w) /\ wsession hist r0 = (res, r1) /\ all_ok hist res /\
     wr_Close r1 = (WOk, r2) /\
     forall s rest e plans, flat s = (out (wr_sink r2) ++ rest, e) ->
     exists rd0 s1 o rd1, NewReader s = (Ok rd0, s1) /\ session plans rd0 = (o, rd1) /\ session_of (items [] t) plans o).
Proof.
  intros t Ht. destruct (any_valid t Ht) as [Hv Hg]. split.
  - intros (W & _ & Hk) hist Hh. destruct (writer_session [] t hist W Hh) as (r0 & w & res & r1 & r2 & E1 & E2 & E3 & E4 & E5).
    exists r0, w, res, r1, r2. repeat (split; [assumption|]). rewrite E5. cbn [app]. intros s rest e plans F.
    apply (proj1 (C28_listed_exact t Ht) Hk s rest e plans F).
  - intros H. set (hist := map (fun it => (fst it, [snd it])) (items [] t)).
    assert (HH : history_of (items [] t) hist) by (apply all_history; exact Hg).
    destruct (H hist HH) as (r0 & w & res & r1 & r2 & E1 & E2 & E3 & E4 & E5).
    assert (W : writable t) by (eapply only_writable; eassumption).
    split; [exact W|]. split; [exact Ht|]. apply (C28_listed_exact t Ht).
    destruct (writer_session [] t hist W HH) as (r0' & w' & res' & r1' & r2' & F1 & F2 & F3 & F4 & F5).
    rewrite E1 in F1. injection F1 as <- <-. rewrite E2 in F2. injection F2 as <- <-. rewrite E4 in F4. injection F4 as <-.
    rewrite F5 in E5. exact E5.
Qed.
Print Assumptions C29_listed_exact.

(** Where something does come after it, the Reader need not stop early: it may report a node at the path of another.
    The tree has a link /q/z, and it is reported as /z. *)
Definition shifted : node := Dir [(bs "q", Dir [(bs ")", Dir [(bs ")", Sym (bs "x"))]); (bs "z", Sym (bs "y"))])].
Theorem C28_misplaced_refuted :
  wf_tree any_name shifted /\ map (fun it => hd_path (fst it)) (items [] shifted) = [bs "/"; bs "/q"; bs "/q/)"; bs "/q/)/)"; bs "/q/z"] /\
  exists r s1 r', NewReader (Src [nar shifted] EEOF false) = (Ok r, s1) /\
    map (fun c => match fst c with Ok h => Some (hd_path h) | _ => None end) (fst (session (repeat [] 6) r)) =
      [Some (bs "/"); Some (bs "/q"); Some (bs "/q/)"); Some (bs "/q/)/)"); Some (bs "/z"); None] /\
    session (repeat [] 6) r = (fst (session (repeat [] 6) r), r') /\
    last (map fst (fst (session (repeat [] 6) r))) (Err EUnexpectedEOF) = Err EEOF.
Proof.
  split; [|split; [vm_compute; reflexivity|]].
  - assert (N : forall n, In n [bs "q"; bs ")"; bs "z"] -> name_ok n /\ any_name n).
    { intros n Hn. split; [|exact I]. cbn [In] in Hn. repeat destruct Hn as [<-|Hn]; try destruct Hn;
        (repeat split; try discriminate; try (cbn; lia); intros Hs; repeat destruct Hs as [Hs|Hs]; try discriminate Hs; destruct Hs). }
    unfold shifted. repeat (constructor; cbn [fst snd map names_sorted]); try (apply N; cbn; tauto); try discriminate; try reflexivity.
  - eexists _, _, _. split; [vm_compute; reflexivity|]. split; [vm_compute; reflexivity|]. split; [vm_compute; reflexivity|]. vm_compute. reflexivity.
Qed.
Print Assumptions C28_misplaced_refuted.

(** An instance with an entry called ")" inside another. *)
Definition tailed : node := Dir [(bs "!", Reg true (bs "hi")); (bs ")", Dir [(bs ")", Sym (bs "x"))])].
Example C28_listed_nonvacuous : wf_tree any_name tailed /\ paren_last tailed 2 /\ ~ wf_tree reader_name tailed /\
  wf_tree any_name shifted /\ ~ (exists k, paren_last shifted k).
Proof.
  assert (P : paren_last tailed 2).
  { apply (pl_paren [(bs "!", Reg true (bs "hi"))] (Dir [(bs ")", Sym (bs "x"))]) 1).
    - constructor; [|constructor]. split; [discriminate|]. constructor. reflexivity.
    - apply (pl_paren [] (Sym (bs "x")) 0); constructor. }
  split; [|split; [exact P|split; [|split; [apply C28_misplaced_refuted|]]]].
  - assert (N : forall n, In n [bs "!"; bs ")"] -> name_ok n /\ any_name n).
    { intros n Hn. split; [|exact I]. cbn [In] in Hn. repeat destruct Hn as [<-|Hn]; try destruct Hn;
        (repeat split; try discriminate; try (cbn; lia); intros Hs; repeat destruct Hs as [Hs|Hs]; try discriminate Hs; destruct Hs). }
    unfold tailed. repeat (constructor; cbn [fst snd map names_sorted]); try (apply N; cbn; tauto); try discriminate; try reflexivity.
  - intros H. inversion H as [| |? A _ _]; subst. inversion A as [|? ? _ A']; subst. inversion A' as [|? ? [_ B] _]; subst. apply B. reflexivity.
  - intros Hk. assert (W : wf_tree any_name shifted) by apply C28_misplaced_refuted.
    destruct (proj1 (C28_listed_exact _ W) Hk (Src [nar shifted] EEOF false) [] EEOF (repeat [] 6)) as (r & s1 & o & r' & H1 & H2 & H3).
    + unfold flat, src_data. cbn [chunks fin]. cbn [concat]. rewrite !app_nil_r. reflexivity.
    + destruct C28_misplaced_refuted as (_ & _ & r0 & s0 & r1 & K1 & K2 & _). rewrite H1 in K1. injection K1 as <- _.
      rewrite H2 in K2. cbn [fst] in K2. clear -H3 K2.
      assert (E : forall its plans o, session_of its plans o -> length plans = S (length its) ->
        map (fun c : res header * list (bytes * option error) => match fst c with Ok h => Some (hd_path h) | _ => None end) o =
        map (fun it => Some (hd_path (fst it))) its ++ [None]).
      { induction 1; cbn [length]; intros L; [lia| |].
        - cbn [map fst app]. f_equal. apply IHsession_of. lia.
        - destruct plans; [|cbn in L; lia]. inversion H0; subst. reflexivity. }
      rewrite (E _ _ _ H3 ltac:(reflexivity)) in K2. vm_compute in K2. discriminate K2.
Qed.
Example C29_listed_nonvacuous : writable tailed /\ listable tailed /\ ~ wf_tree both_names tailed /\ nothing_after_paren (map fst (items [] tailed)).
Proof.
  destruct C28_listed_nonvacuous as (W & P & N & _). assert (L : listable tailed) by (split; [exact W|eauto]).
  split; [|split; [exact L|split; [|apply C28_listed_paths; assumption]]].
  - assert (K : forall n, In n [bs "!"; bs ")"] -> entry_name n /\ writer_name n).
    { intros n Hn. cbn [In] in Hn. repeat destruct Hn as [<-|Hn]; try destruct Hn;
        (repeat split; try discriminate; intros Hs; repeat destruct Hs as [Hs|Hs]; try discriminate Hs; destruct Hs). }
    unfold tailed. repeat (constructor; cbn [fst snd map names_sorted]); try (apply K; cbn; tauto); try discriminate; try reflexivity.
  - intros H. apply N. apply (wf_mono _ _ _ H). intros n [A _]. exact A.
Qed.
