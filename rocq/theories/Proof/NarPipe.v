(** Reading an archive while it is being written (C117). *)
From Verif Require Import Base.Bytes Base.BytesFacts Model.GoIO Model.GoStd Model.Wire Model.Nar
  Model.NarReader Model.NarWriter Spec.WireSpec Spec.WireHist Spec.NarSpec Spec.NarHist Spec.NarWHist Spec.NarBackSpec
  Proof.WireFacts Proof.WireProps Proof.PathFacts Proof.NarUtilProps Proof.NarPath Proof.NarReaderFacts Proof.NarSession
  Proof.EntryPath Proof.NarWriterSound Proof.NarWriterComplete Proof.NarBack.
Ltac Zify.zify_post_hook ::= idtac.

(** * The tree being written, completed *)
Fixpoint plug (z : zipper) (t : node) : node :=
  match z with [] => t | (es, n) :: z' => plug z' (Dir (es ++ [(n, t)])) end.
Lemma plug_items z : forall t, items [] (plug z t) = zlog z ++ items (zcs z) t.
Proof.
  induction z as [|[es n] z IH]; intros t; cbn [plug zlog]; [reflexivity|].
  rewrite IH, items_snoc, app_assoc. reflexivity.
Qed.
Lemma plug_writable z : forall t, zok z -> writable t -> writable (plug z t).
Proof.
  induction z as [|[es n] z IH]; intros t Hz Ht; cbn [plug]; [exact Ht|].
  inversion Hz as [|? ? Hf Hz']; subst. destruct Hf as (F1 & F2 & F3 & F4). cbn [fst snd] in *. apply IH; [exact Hz'|].
  constructor; [apply Forall_app; auto|rewrite map_app; exact F4|apply Forall_app; auto].
Qed.
Definition rframe (f : list (bytes * node) * bytes) : Prop :=
  Forall (fun e => (name_ok (fst e) /\ reader_name (fst e)) /\ wf_tree reader_name (snd e)) (fst f) /\
  (name_ok (snd f) /\ reader_name (snd f)).
Lemma plug_inv z : forall t, wf_tree reader_name (plug z t) -> Forall rframe z /\ wf_tree reader_name t.
Proof.
  induction z as [|[es n] z IH]; intros t H; cbn [plug] in H; [split; [constructor|exact H]|].
  destruct (IH _ H) as [A B]. inversion B as [| |? B1 B2 B3]; subst.
  apply Forall_app in B1, B3. destruct B1 as [B1 C1], B3 as [B3 C3]. inversion C1; inversion C3; subst. cbn [fst snd] in *.
  split; [|assumption]. constructor; [|exact A]. split; cbn [fst snd]; [|assumption].
  clear -B1 B3. induction es as [|e es IHes]; [constructor|]. inversion B1; inversion B3; subst. constructor; auto.
Qed.

(** * The Reader on an archive that is not complete *)
Fixpoint zbody (z : zipper) : bytes :=
  match z with
  | [] => []
  | (es, n) :: z' => zbody z' ++ head_of (Dir es) ++ body_of (Dir es) ++ entry_open n
  end.
Lemma zpre_body o z : zpre o z = o ++ str "nix-archive-1" ++ zbody z.
Proof.
  induction z as [|[es n] z IH]; cbn [zpre zbody]; [rewrite app_nil_r; reflexivity|]. rewrite IH, <- !app_assoc. reflexivity.
Qed.
Fixpoint rst (z : zipper) : list frame :=
  match z with [] => [] | (es, n) :: z' => Frame (path_of (zcs z')) n :: rst z' end.
Definition enters (cs : list bytes) (st : list frame) (X : bytes) (e : error) (p : pstep) : Prop :=
  exists s', flat s' = (X, e) /\ p = run_all (CNode (path_of cs)) st s'.

Lemma loop_opens es n : Forall (fun e => (name_ok (fst e) /\ reader_name (fst e)) /\ wf_tree reader_name (snd e)) es ->
  name_ok n -> forall cs st s X e, comps_ok cs ->
  flat s = (body_of (Dir es) ++ entry_open n ++ X, e) ->
  serves (concat (map (fun x => items (cs ++ [fst x]) (snd x)) es)) (enters (cs ++ [n]) (Frame (path_of cs) n :: st) X e)
    (run_all (CLoop (path_of cs)) st s).
Proof.
  intros Hes Hn cs st s X e Hcs. revert s.
  assert (Hlen : forall m, name_ok m -> (lenN m <= nameLenMax)%N).
  { intros m (_ & _ & _ & _ & _ & Hl). unfold lenN, nameLenMax. lia. }
  induction es as [|[m t] es IHes]; intros s Hs; rewrite run_all_step; cbn [pstep1].
  - cbn [body_of map concat app serves] in *. unfold entry_open in Hs. rewrite <- !app_assoc in Hs.
    tok_step. rewrite beq_refl. expect_step. expect_step.
    destruct (tok_ok n _ _ s nameLenMax Hs (Hlen n Hn) ltac:(reflexivity)) as (s6 & R & F3).
    rewrite R. clear R Hs. rewrite (name_ok_valid n Hn). cbn [negb]. expect_step.
    rewrite Join_path_of by assumption. exists s6. auto.
  - inversion Hes as [|? ? [[Hm Hr] Ht] Hes']; subst. cbn [body_of fst snd map concat] in *.
    unfold entry_open at 1 in Hs. rewrite <- !app_assoc in Hs.
    tok_step. rewrite beq_refl. expect_step. expect_step.
    destruct (tok_ok m _ _ s nameLenMax Hs (Hlen m Hm) ltac:(reflexivity)) as (s6 & R & F3).
    rewrite R. clear R Hs. rewrite (name_ok_valid m Hm). cbn [negb]. expect_step.
    rewrite Join_path_of by assumption.
    eapply serves_app.
    { apply node_serves; [exact Ht|apply Forall_app; split; [exact Hcs|constructor; [exact Hm|constructor]]|].
      exact F3. }
    intros p' (s8 & F8 & ->). rewrite run_all_step. cbn [pstep1].
    expect_step. rewrite (proj2 (beq_neq m (bs ")")) Hr).
    apply IHes; auto.
Qed.
Lemma dir_opens es n : Forall (fun e => (name_ok (fst e) /\ reader_name (fst e)) /\ wf_tree reader_name (snd e)) es ->
  name_ok n -> forall cs st s X e, comps_ok cs ->
  flat s = (head_of (Dir es) ++ body_of (Dir es) ++ entry_open n ++ X, e) ->
  serves (items cs (Dir es)) (enters (cs ++ [n]) (Frame (path_of cs) n :: st) X e) (run_all (CNode (path_of cs)) st s).
Proof.
  intros Hes Hn cs st s X e Hcs Hs. rewrite run_all_step; cbn [pstep1]. unfold parse_head, head_of in *. rewrite <- !app_assoc in Hs.
  expect_step. expect_step. tok_step.
  change (beq (bs "directory") (bs "regular")) with false.
  change (beq (bs "directory") (bs "symlink")) with false. rewrite beq_refl.
  cbn [items serves hdr_of content_of]. exists (WDir (path_of cs)), st, None, s. split; [reflexivity|]. left.
  split; [reflexivity|]. split; [reflexivity|]. split; [|reflexivity]. cbn [resume fst].
  apply loop_opens; assumption.
Qed.
Lemma rframes_comps z : Forall rframe z -> comps_ok (zcs z).
Proof.
  induction 1 as [|f z Hf Hz IH]; [constructor|]. rewrite zcs_cons. apply Forall_app. split; [exact IH|].
  constructor; [apply Hf|constructor].
Qed.
Lemma z_opens z : Forall rframe z -> forall s X e, flat s = (zbody z ++ X, e) ->
  serves (zlog z) (enters (zcs z) (rst z) X e) (run_all (CNode (bs "/")) [] s).
Proof.
  induction z as [|[es n] z IH]; intros H s X e Hs; cbn [zlog zbody rst] in *.
  - exists s. auto.
  - inversion H as [|? ? [H1 H2] Hz]; subst. cbn [fst snd] in *. rewrite <- !app_assoc in Hs.
    eapply serves_app; [apply IH; [exact Hz|exact Hs]|]. intros p' (s' & F & ->). rewrite zcs_cons. cbn [snd].
    apply dir_opens; [exact H1|apply H2|apply rframes_comps; exact Hz|exact F].
Qed.

(** The head of the open node is enough for its header. *)
Lemma head_yields h head st s c X e : shape h head -> (0 <= hd_size h < 2 ^ 63)%Z -> (lenN (hd_target h) <= 4095)%N ->
  flat s = (head ++ c ++ X, e) ->
  exists w ct s', run_all (CNode (hd_path h)) st s = PYield h w st ct s' /\ flat s' = (c ++ X, e) /\
    (hd_type h = bs "regular" -> ct = Some (BR (Z.to_N (hd_size h)) (Z.to_N (hd_size h)))).
Proof.
  intros Hsh Hsz Htg Hs. destruct h as [p ty tg sz ex]. unfold shape in Hsh. cbn [hd_path hd_type hd_target hd_size hd_exec] in *.
  rewrite run_all_step. cbn [pstep1]. unfold parse_head.
  destruct Hsh as [(-> & -> & ->)|[(-> & Ht & -> & -> & ->)|(-> & -> & -> & -> & ->)]].
  - rewrite <- !app_assoc in Hs. expect_step. expect_step. tok_step. rewrite beq_refl.
    assert (F : forall s1 ex', flat s1 = (le8 (Z.to_N sz) ++ c ++ X, e) ->
       exists s2, ReadBytes s1 = (Ok (Z.to_N sz, BR (Z.to_N sz) (Z.to_N sz)), s2) /\ flat s2 = (c ++ X, e) /\
         PYield (Header p TypeRegular [] (Z.of_N (Z.to_N sz)) ex') WReg st (Some (BR (Z.to_N sz) (Z.to_N sz))) s2 =
         PYield (Header p (bs "regular") [] sz ex') WReg st (Some (BR (Z.to_N sz) (Z.to_N sz))) s2).
    { intros s1 ex' F. destruct (uint_read (Z.to_N sz) _ _ s1 F ltac:(lia)) as (s2 & R & F2 & _).
      exists s2. split; [unfold ReadBytes; rewrite R; cbn [rbind]; unfold NewBytesReader;
        rewrite (proj2 (N.ltb_lt _ _)) by lia; reflexivity|]. split; [exact F2|]. rewrite Z2N.id by lia. reflexivity. }
    destruct ex.
    + rewrite <- !app_assoc in Hs. tok_step. rewrite beq_refl.
      destruct (field_read [] _ _ s 0 Hs ltac:(reflexivity) ltac:(discriminate)) as (s4 & R & F2 & _).
      rewrite R. clear R Hs. tok_step. rewrite beq_refl. cbn [negb].
      destruct (F s4 true F2) as (s5 & R & F3 & E). rewrite R, (proj2 (N.ltb_ge _ _)) by lia. rewrite E.
      eexists _, _, _. split; [reflexivity|]. auto.
    + cbn [app] in Hs. tok_step. change (beq (bs "contents") (bs "executable")) with false. cbv iota. rewrite beq_refl. cbn [negb].
      destruct (F s false Hs) as (s5 & R & F3 & E). rewrite R, (proj2 (N.ltb_ge _ _)) by lia. rewrite E.
      eexists _, _, _. split; [reflexivity|]. auto.
  - unfold head_of in Hs. rewrite <- !app_assoc in Hs. expect_step. expect_step. tok_step.
    change (beq (bs "symlink") (bs "regular")) with false. rewrite beq_refl.
    expect_step. destruct (tok_ok tg _ _ s pathLenMax Hs ltac:(exact Htg) ltac:(reflexivity)) as (s4 & R & F3).
    rewrite R. eexists _, _, _. split; [reflexivity|]. split; [exact F3|discriminate].
  - unfold head_of in Hs. rewrite <- !app_assoc in Hs. expect_step. expect_step. tok_step.
    change (beq (bs "directory") (bs "regular")) with false.
    change (beq (bs "directory") (bs "symlink")) with false. rewrite beq_refl.
    eexists _, _, _. split; [reflexivity|]. split; [exact Hs|discriminate].
Qed.

(** * Sessions *)
Lemma session_prefix K more its : forall plans r, length plans = length its ->
  rd_err r = None -> rd_closed r = false -> chained (rd_prev r) (its ++ more) ->
  serves its K (fst (resume (rd_gor r) (rd_content r) (rd_src r))) ->
  exists o r', session plans r = (o, r') /\ session_of its plans o /\
    rd_err r' = None /\ rd_closed r' = false /\ chained (rd_prev r') more /\
    K (fst (resume (rd_gor r') (rd_content r') (rd_src r'))).
Proof.
  induction its as [|[h c] its IH]; intros plans r HL H1 H2 H3 H4; destruct plans as [|ns plans]; try discriminate HL; cbn [session].
  { exists [], r. split; [reflexivity|]. split; [constructor|auto]. }
  injection HL as HL. unfold Next. rewrite H1, H2. cbn [serves] in H4. destruct H4 as (w & st & ct & s & Hp & Hc).
  destruct (resume (rd_gor r) (rd_content r) (rd_src r)) as [ps ct0]. cbn [fst snd] in *. subst ps.
  cbn [app chained] in H3. destruct H3 as [H3 H3']. rewrite H3.
  destruct Hc as [(-> & -> & Hs & Hct)|(-> & tail & e' & Hfl & Ht & Hs)].
  + destruct (rd_reads_none ns s (GWait w st) None (hd_path h) false) as (l & -> & Hl).
    destruct (IH plans (RD s (GWait w st) None (hd_path h) None false) HL eq_refl eq_refl H3' Hs) as (o & r' & -> & Ho & Hr).
    exists ((Ok h, l) :: o), r'. split; [reflexivity|]. split; [constructor; assumption|exact Hr].
  + destruct (rd_reads_some ns s (GWait w st) None (hd_path h) (lenN c) false c tail e' Hfl Ht)
      as (l & k & s2 & -> & Hl & Hk & Hf2).
    destruct (Hs k s2 Hk Hf2) as [Hsv Hct].
    destruct (IH plans (RD s2 (GWait w st) None (hd_path h) (Some (BR (lenN c) (lenN c - k))) false) HL eq_refl eq_refl H3' Hsv)
      as (o & r' & -> & Ho & Hr).
    exists ((Ok h, l) :: o), r'. split; [reflexivity|]. split; [constructor; assumption|exact Hr].
Qed.

Definition total (ns : list N) : N := fold_right N.add 0%N ns.
Lemma reads_arrived ns : forall s g er p len rem cl c X e,
  flat s = (c ++ X, e) -> X <> [] -> (lenN c <= rem)%N -> Forall (fun n => 0 < n)%N ns -> (total ns <= lenN c)%N ->
  exists l c' s2 rem', rd_reads ns (RD s g er p (Some (BR len rem)) cl) = (l, RD s2 g er p (Some (BR len rem')) cl) /\
    c = concat (map fst l) ++ c' /\ Forall (fun x => snd x = None) l /\ flat s2 = (c' ++ X, e).
Proof.
  induction ns as [|n ns IH]; intros s g er p len rem cl c X e Hs HX Hr Hp Ht; cbn [rd_reads].
  - exists [], c, s, rem. split; [reflexivity|]. split; [reflexivity|]. split; [constructor|exact Hs].
  - inversion Hp as [|? ? Hn Hp']; subst. cbn [total fold_right] in Ht. fold (total ns) in Ht.
    unfold rd_Read. cbn [rd_content rd_src rd_gor rd_err rd_prev rd_closed]. unfold br_read. cbn [br_rem br_len].
    destruct (lim_read n (rem, s)) as [[b er1] [rem1 s1]] eqn:E.
    destruct (lim_read_spec _ _ _ _ _ _ _ _ _ Hs E)
      as (Hd & He & Heg & Hlb & Hrem & Hz & Hnz & Hdec & Heag & Hsz).
    assert (Hr0 : rem <> 0%N) by lia.
    assert (Hsplit : exists c1, c = b ++ c1 /\ src_data s1 = c1 ++ X).
    { exists (skipn (length b) c). assert (Hl : length b <= length c) by (unfold lenN in *; lia).
      assert (E1 : firstn (length b) (c ++ X) = b) by (rewrite Hd; apply firstn_length_app).
      assert (E2 : skipn (length b) (c ++ X) = src_data s1) by (rewrite Hd; apply skipn_length_app).
      rewrite firstn_le_app in E1 by exact Hl. rewrite skipn_le_app in E2 by exact Hl.
      split; [|congruence]. rewrite <- E1 at 1. symmetry. apply firstn_skipn. }
    destruct Hsplit as (c1 & -> & Hs1). rewrite lenN_app in *.
    assert (er1 = None) as ->.
    { destruct (Hnz Hr0) as [|[_ Hx]]; [assumption|]. rewrite Hx in Hs1. destruct c1; [|discriminate].
      cbn in Hs1. congruence. }
    assert (Hs1' : flat s1 = (c1 ++ X, e)) by (unfold flat; rewrite Hs1, He; reflexivity).
    destruct (IH s1 g er p len rem1 cl c1 X e Hs1' HX ltac:(lia) Hp' ltac:(lia)) as (l & c' & s2 & rem' & -> & -> & Hl & Hf).
    exists ((b, None) :: l), c', s2, rem'. split; [reflexivity|]. cbn [map concat fst]. rewrite <- app_assoc.
    split; [reflexivity|]. split; [constructor; [reflexivity|exact Hl]|exact Hf].
Qed.

(** * Reading what is written so far *)
Lemma log_within hist : forall res,
  Forall (fun x => careful (fst x) /\ Forall (fun p => lenN p < 2 ^ 63)%N (snd x)) hist ->
  Forall (fun x => within_limits (fst x)) hist ->
  Forall (fun it => within_limits (fst it) /\ (hd_size (fst it) < 2 ^ 63)%Z) (log_of hist res).
Proof.
  induction hist as [|[h ps] hist IH]; intros [|[x l] res] H5 H7; cbn [log_of]; try constructor.
  - inversion H5 as [|? ? [(_ & _ & _ & A) _] _]; inversion H7; subst. cbn [fst]. auto.
  - inversion H5; inversion H7; subst. auto.
Qed.
Lemma open_node o z h c r : winv o z h c r ->
  exists t ct, writable t /\ hdr_of (zcs z) t = h /\ items (zcs z) t = [(h, ct)].
Proof.
  intros [Hg Ho Hz Hp Hs (head & Hsh & Hout & Hb)]. destruct h as [p ty tg sz ex].
  unfold shape in Hsh. cbn [hd_path hd_type hd_target hd_size hd_exec] in *.
  destruct Hsh as [(-> & -> & _)|[(-> & Htg & -> & -> & _)|(-> & -> & -> & -> & _)]].
  - set (d := repeat x00 (Z.to_nat sz)). exists (Reg ex d), d.
    assert (L : length d = Z.to_nat sz) by apply repeat_length.
    assert (Hh : hdr_of (zcs z) (Reg ex d) = Header p (bs "regular") [] sz ex).
    { cbn [hdr_of]. rewrite Hp, L, Z2Nat.id by lia. reflexivity. }
    split; [constructor; unfold lenN; rewrite L; lia|]. split; [exact Hh|]. cbn [items]. rewrite Hh. reflexivity.
  - exists (Sym tg), []. subst p. split; [constructor; exact Htg|]. split; reflexivity.
  - exists (Dir []), []. subst p. split; [repeat constructor|]. split; reflexivity.
Qed.
Lemma session_open w0 r0 w hist res r1 :
  NewWriter w0 = (Ok r0, w) -> wsession hist r0 = (res, r1) -> Forall (fun x => fst x = WOk) res -> hist <> [] ->
  Forall (fun x => careful (fst x) /\ Forall (fun p => lenN p < 2 ^ 63)%N (snd x)) hist ->
  no_repeat (hpaths hist) ->
  exists z h c, winv (out w0) z h c r1 /\ log_of hist res = zlog z ++ [(h, c)].
Proof.
  intros HN HS HA HE Hc Hn. apply NewWriter_ok in HN. destruct HN as [-> Hw].
  destruct hist as [|[h1 ps] hist]; [congruence|]. cbn [wsession] in HS.
  destruct (WriteHeader h1 _) as [x ra] eqn:E1. destruct (wr_writes ps ra) as [l rb] eqn:E2.
  destruct (wsession hist rb) as [o3 r3] eqn:E3. inversion HS; subst res r3.
  inversion HA as [|? ? Hx HA']; subst. cbn [fst] in Hx. subst x.
  inversion Hc as [|? ? [Hc1 Hc2] Hc3]; subst. cbn [fst snd] in *.
  apply (first_ok _ _ _ _ Hc1 Hw) in E1. apply (writes_ok _ _ _ _ _ _ _ _ E1 Hc2) in E2. cbn [app] in E2.
  destruct (session_inv _ _ _ _ _ _ _ _ E2 Hc3 Hn E3 HA') as (z' & h' & c' & Hi' & L').
  exists z', h', c'. split; [exact Hi'|]. rewrite L'. reflexivity.
Qed.
Lemma pipe w0 r0 w hist res r1 its h c s more e plans :
  NewWriter w0 = (Ok r0, w) -> wsession hist r0 = (res, r1) -> Forall (fun x => fst x = WOk) res ->
  Forall (fun x => careful (fst x) /\ Forall (fun p => lenN p < 2 ^ 63)%N (snd x)) hist ->
  no_repeat (hpaths hist) -> Forall (fun x => within_limits (fst x)) hist ->
  log_of hist res = its ++ [(h, c)] ->
  out w0 ++ fst (flat s) = out (wr_sink r1) ++ more -> snd (flat s) = e -> length plans = length its ->
  exists rd0 s1 o rd1 rd2, NewReader s = (Ok rd0, s1) /\ session plans rd0 = (o, rd1) /\ session_of its plans o /\
    Next rd1 = (Ok h, rd2) /\ flat (rd_src rd2) = (c ++ more, e) /\
    forall ns, Forall (fun n => 0 < n)%N ns -> (total ns <= lenN c)%N -> more <> [] ->
      exists l rd3 c', rd_reads ns rd2 = (l, rd3) /\ c = concat (map fst l) ++ c' /\ Forall (fun x => snd x = None) l /\
        flat (rd_src rd3) = (c' ++ more, e).
Proof.
  intros H1 H2 H3 H5 H6 H7 HL HO HE HP.
  assert (HNE : hist <> []) by (intros ->; destruct its; discriminate HL).
  destruct (session_open w0 r0 w hist res r1 H1 H2 H3 HNE H5 H6) as (z & h' & c' & Hi & L).
  rewrite L in HL. apply app_inj_tail in HL. destruct HL as [HZ HL]. injection HL as -> ->.
  destruct (open_node _ _ _ _ _ Hi) as (t & ct & Ht & _ & Hit).
  destruct Hi as [Hg Ho Hz Hp Hs (head & Hsh & Hout & Hb)].
  pose proof (log_within hist res H5 H7) as G. rewrite L in G.
  assert (W : wf_tree reader_name (plug z t)).
  { apply (readable_tree _ (writable_valid _ (plug_writable z t Hz Ht)) [] (Forall_nil _)).
    rewrite plug_items, Hit. apply Forall_app in G. destruct G as [G1 G2]. apply Forall_app. split; [exact G1|].
    inversion G2; subst. constructor; [assumption|constructor]. }
  pose proof (chained_items _ _ W) as HC. rewrite plug_items, Hit in HC.
  apply plug_inv in W. destruct W as [WZ _].
  apply Forall_app in G. destruct G as [_ G]. inversion G as [|? ? [[_ G1] _] _]; subst. cbn [fst] in G1. clear G.
  rewrite Hout, zpre_body, <- !app_assoc in HO. apply app_inv_head in HO.
  assert (F : flat s = (str "nix-archive-1" ++ zbody z ++ head ++ c ++ more, snd (flat s))) by (rewrite <- HO; apply surjective_pairing).
  destruct (new_reader_ok _ _ _ F) as (s1 & HN & F1).
  destruct (session_prefix _ _ (zlog z) plans (RD s1 GFirst None [] None false) HP eq_refl eq_refl HC (z_opens z WZ s1 _ _ F1))
    as (o & rd1 & HS & HSo & R1 & R2 & R3 & s2 & F2 & R4).
  destruct (head_yields _ head (rst z) s2 c more _ Hsh Hs G1 F2) as (w2 & ct2 & s3 & Y & F3 & Hct).
  rewrite <- Hp, Y in R4. cbn [chained] in R3. destruct R3 as [R3 _].
  eexists _, _, o, rd1, (RD s3 (GWait w2 (rst z)) None (hd_path h) ct2 false).
  split; [exact HN|]. split; [exact HS|]. split; [exact HSo|]. split; [|split; [exact F3|]].
  - unfold Next. rewrite R1, R2. destruct (resume _ _ _) as [ps ct0]. cbn [fst] in R4. subst ps. rewrite R3. reflexivity.
  - intros ns Hn Ht2 Hm. destruct Hb as [(T & _ & Hle)|(T & -> & _)].
    + rewrite (Hct T).
      destruct (reads_arrived ns s3 (GWait w2 (rst z)) None (hd_path h) (Z.to_N (hd_size h)) (Z.to_N (hd_size h)) false c more _ F3 Hm Hle Hn Ht2)
        as (l & c' & s4 & rem' & E1 & E2 & E3 & E4).
      exists l, (RD s4 (GWait w2 (rst z)) None (hd_path h) (Some (BR (Z.to_N (hd_size h)) rem')) false), c'. auto.
    + destruct ns as [|n ns]; [|inversion Hn; cbn [total fold_right] in Ht2; cbn in Ht2; lia].
      eexists [], _, []. split; [reflexivity|]. split; [reflexivity|]. split; [constructor|exact F3].
Qed.
