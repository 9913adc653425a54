(** Cut archives (C30), exactly. *)
From Verif Require Import Base.Bytes Base.BytesFacts Model.GoIO Model.GoStd Model.Wire Model.Nar
  Model.NarReader Spec.WireSpec Spec.WireHist Spec.NarSpec Spec.NarHist Spec.NarCut
  Proof.WireFacts Proof.WireProps Proof.NarUtilProps Proof.NarPath Proof.NarReaderFacts Proof.NarSession Proof.NarTrunc.
Ltac Zify.zify_post_hook ::= idtac.

Definition pbytes (ps : list piece) : bytes := concat (map piece_bytes ps).
Lemma pieces_ser t : pbytes (pieces t) = ser t.
Proof.
  unfold pbytes. induction t as [x c|tg|es IH] using node_ind2.
  - destruct x; reflexivity.
  - reflexivity.
  - cbn [pieces ser map concat piece_bytes]. rewrite map_app, concat_app. unfold str. rewrite <- app_assoc. do 3 f_equal. f_equal.
    induction es as [|[n t] es IHes]; [reflexivity|]. inversion IH as [|? ? H1 H2]; subst. cbn [map concat fst snd].
    rewrite !map_app, !concat_app. cbn [fst snd] in H1. rewrite H1, IHes by exact H2.
    unfold entry_open, str. cbn [map concat piece_bytes fst snd]. repeat (rewrite <- app_assoc || rewrite app_nil_r || rewrite app_nil_l). reflexivity.
Qed.

(** * One wire string on a cut stream *)
Lemma firstn_cut {A} (a b : list A) k : length a <= k -> firstn k (a ++ b) = a ++ firstn (k - length a) b.
Proof. intros H. rewrite firstn_app. f_equal. apply firstn_all2. exact H. Qed.
Lemma len_field x : length (field x) = 8 + length x + pad_len (length x).
Proof. unfold field. rewrite !app_length, repeat_length. cbn. lia. Qed.
Lemma short_eof d e : short_error d e = EEOF <-> e = EEOF /\ d = [].
Proof. unfold short_error. destruct e, d; split; intros H; try discriminate H; try (destruct H; discriminate); auto. Qed.
Lemma firstn_nil_iff {A} k (l : list A) : firstn k l = [] <-> k = 0 \/ l = [].
Proof. destruct k, l; cbn; split; intros H; try discriminate; auto. destruct H; discriminate. Qed.
Lemma rbf_cut max x rest k e s :
  flat s = (firstn k (field x ++ rest), e) -> (lenN x <= max)%N -> (max < 2 ^ 63)%N ->
  exists s', if 8 + length x <=? k
    then ReadBytesFull s max = (Ok x, s') /\ flat s' = (firstn (k - length (field x)) rest, e)
    else exists er, ReadBytesFull s max = (Err er, s') /\ (er = EEOF <-> e = EEOF /\ (k = 0 \/ (k = 8 /\ x <> []))).
Proof.
  intros Hs H1 H2. destruct (ReadBytesFull_spec s max _ _ Hs) as (s' & _ & _ & HR & HF). exists s'.
  set (d := firstn k (field x ++ rest)) in *. unfold rbf_spec in *.
  assert (Hl8 : length (le8 (lenN x)) = 8) by reflexivity.
  destruct (Nat.lt_ge_cases k 8) as [Hk|Hk].
  { assert (Hd : d = firstn k (le8 (lenN x))).
    { unfold d, field. rewrite <- !app_assoc. apply firstn_le_app. lia. }
    assert (Hld : length d = k) by (rewrite Hd, firstn_length; lia).
    rewrite (proj2 (Nat.leb_gt _ _)) by lia.
    rewrite (proj2 (N.ltb_lt _ _)) in HR by (unfold lenN; lia). eexists. split; [exact HR|].
    rewrite short_eof. split; intros [A B]; (split; [exact A|]).
    - left. rewrite B in Hld. cbn in Hld. auto.
    - destruct B as [B|[B _]]; [|lia]. rewrite Hd, B. reflexivity. }
  assert (Hd : d = le8 (lenN x) ++ firstn (k - 8) (x ++ repeat x00 (pad_len (length x)) ++ rest)).
  { unfold d, field. rewrite <- !app_assoc. rewrite firstn_cut by lia. reflexivity. }
  clearbody d. subst d. set (d1 := firstn (k - 8) (x ++ repeat x00 (pad_len (length x)) ++ rest)) in *.
  assert (H8 : lenN (le8 (lenN x) ++ d1) = (8 + lenN d1)%N) by (rewrite lenN_app; reflexivity).
  rewrite H8 in HR, HF. rewrite (proj2 (N.ltb_ge _ _)) in HR, HF by lia. cbv zeta in *.
  rewrite !ntake_le8, !ndrop_le8, le_val_le8 in HR, HF by lia.
  rewrite (proj2 (N.ltb_ge max _)) in HR, HF by lia. rewrite (proj2 (N.leb_gt _ (lenN x))) in HR, HF by lia.
  destruct (Nat.leb_spec (8 + length x) k) as [Hk2|Hk2].
  - assert (Hd1 : d1 = x ++ firstn (k - 8 - length x) (repeat x00 (pad_len (length x)) ++ rest)) by (apply firstn_cut; lia).
    clearbody d1. subst d1. rewrite lenN_app in HR, HF. rewrite (proj2 (N.ltb_ge _ _)) in HR, HF by lia.
    cbn [fst snd] in *. rewrite ntake_exact in HR. split; [exact HR|]. rewrite HF. f_equal.
    rewrite ndrop_app by lia. replace (lenN x + pad_N (lenN x) - lenN x)%N with (pad_N (lenN x)) by lia.
    rewrite pad_N_nat. unfold ndrop. rewrite Nat2N.id, len_field.
    destruct (Nat.le_gt_cases (pad_len (length x)) (k - 8 - length x)) as [Hp|Hp].
    + rewrite firstn_cut by (rewrite repeat_length; exact Hp). rewrite repeat_length.
      rewrite skipn_app, skipn_all2, repeat_length, Nat.sub_diag by (rewrite repeat_length; lia). cbn [app skipn]. f_equal. lia.
    + rewrite skipn_all2 by (rewrite firstn_length; lia). replace (k - _) with 0 by lia. reflexivity.
  - assert (Hd1 : d1 = firstn (k - 8) x) by (apply firstn_le_app; lia). clearbody d1. subst d1.
    assert (Hll : length (firstn (k - 8) x) = k - 8) by (rewrite firstn_length; lia).
    rewrite (proj2 (N.ltb_lt _ _)) in HR by (unfold lenN; lia). cbn [fst] in HR. eexists. split; [exact HR|].
    rewrite short_eof. pose proof (firstn_nil_iff (k - 8) x) as HN. split; intros [A B]; (split; [exact A|]).
    + right. apply HN in B. destruct B as [B| ->]; [split; [lia|]|cbn in Hk2; lia]. intros ->. cbn in Hk2. lia.
    + apply HN. left. lia.
Qed.
Definition cut_at (e : error) (ps : list piece) (k : nat) (s : src) : Prop := flat s = (firstn k (pbytes ps), e).
Lemma tok_cut e x ps k s max : cut_at e (Free x :: ps) k s -> (lenN x <= max)%N -> (max < 2 ^ 63)%N ->
  exists s', (8 + length x <= k /\ tok s max = (inl x, s') /\ cut_at e ps (k - length (field x)) s' /\
              (looks_complete e (Free x :: ps) k <-> looks_complete e ps (k - length (field x)))) \/
    exists er, tok s max = (inr er, s') /\ (er = EEOF <-> looks_complete e (Free x :: ps) k).
Proof.
  intros Hs H1 H2. destruct (rbf_cut max x (pbytes ps) k e s Hs H1 H2) as (s' & H). exists s'. unfold tok, ReadString.
  cbn [looks_complete]. destruct (Nat.leb_spec (8 + length x) k) as [Hk|Hk].
  - destruct H as [-> HF]. left. split; [exact Hk|]. split; [reflexivity|]. split; [exact HF|]. split; [|auto].
    intros [(_ & [H|[H Hn]])|[_ H]]; [lia| |exact H]. destruct x; [congruence|cbn in Hk; lia].
  - destruct H as (er & -> & H). right. exists er. split; [reflexivity|]. rewrite H. split; [auto|]. intros [H3|[H3 _]]; [exact H3|lia].
Qed.
Lemma expect_cut e x ps k s : cut_at e (Fixed x :: ps) k s -> (lenN x < 2 ^ 63)%N ->
  exists s', (8 + length x <= k /\ expectString s x = (None, s') /\ cut_at e ps (k - length (field x)) s' /\
              (looks_complete e (Fixed x :: ps) k <-> looks_complete e ps (k - length (field x)))) \/
    exists er, expectString s x = (Some er, s') /\ er <> EEOF /\ ~ looks_complete e (Fixed x :: ps) k.
Proof.
  intros Hs H1. destruct (rbf_cut (lenN x) x (pbytes ps) k e s Hs ltac:(lia) H1) as (s' & H). exists s'. unfold expectString, ReadString.
  cbn [looks_complete]. destruct (Nat.leb_spec (8 + length x) k) as [Hk|Hk].
  - destruct H as [-> HF]. left. rewrite beq_refl. split; [exact Hk|]. split; [reflexivity|]. split; [exact HF|]. split; [intros [_ H]; exact H|auto].
  - destruct H as (er & -> & H). right. destruct er; eexists; (split; [reflexivity|]); (split; [discriminate|]); intros [H3 _]; lia.
Qed.

(** * The parser on a cut stream *)
Definition stopped (Q : Prop) (p : pstep) : Prop := exists er s, p = PStop er s /\ (er = EEOF <-> Q).
Fixpoint tserves (Q : Prop) (its : list (header * bytes)) (K : pstep -> Prop) (p : pstep) : Prop :=
  match its with
  | [] => K p
  | (h, c) :: its' =>
      stopped Q p \/
      exists w st ct s, p = PYield h w st ct s /\
      ((ct = None /\ tserves Q its' K (fst (resume (GWait w st) None s))) \/
       (exists len d e, ct = Some (BR len len) /\ flat s = (d, e) /\
        forall j s2, (j <= len)%N -> (j <= lenN d)%N -> flat s2 = (ndrop j d, e) ->
          tserves Q its' K (fst (resume (GWait w st) (Some (BR len (len - j))) s2))))
  end.
Lemma tserves_app Q its1 its2 K1 K2 : forall p, tserves Q its1 K1 p -> (forall p', K1 p' -> tserves Q its2 K2 p') ->
  (forall p', stopped Q p' -> K2 p') -> tserves Q (its1 ++ its2) K2 p.
Proof.
  induction its1 as [|[h c] its1 IH]; intros p H HK HS; cbn [app tserves] in *; [auto|].
  destruct H as [H|(w & st & ct & s & -> & H)]; [left; exact H|]. right. exists w, st, ct, s. split; [reflexivity|].
  destruct H as [(H1 & H2)|(len & d & e & H1 & H2 & H3)]; [left; auto|]. right. exists len, d, e. auto.
Qed.
Lemma tserves_stopped Q its (K : pstep -> Prop) p : (forall p', stopped Q p' -> K p') -> stopped Q p -> tserves Q its K p.
Proof. intros HK H. destruct its as [|[h c] its]; cbn [tserves]; auto. Qed.

Definition returns_cut (Q : Prop) (e : error) (st : list frame) (ps : list piece) (p : pstep) : Prop :=
  stopped Q p \/ exists k s, cut_at e ps k s /\ (looks_complete e ps k <-> Q) /\ p = run_all CRet st s.
Lemma rc_stopped Q e st ps p : stopped Q p -> returns_cut Q e st ps p.
Proof. left. assumption. Qed.

Ltac cut_stop := first [left|apply tserves_stopped; [apply rc_stopped|]]; eexists _, _; (split; [reflexivity|]); first [assumption|tauto].
Ltac cexpect :=
  match goal with
  | Hs : cut_at ?e (Fixed ?x :: ?ps) ?k ?s, HQ : looks_complete _ _ _ <-> ?Q |- context [expectString ?s ?y] =>
      let s1 := fresh "s" in let R := fresh "R" in let F := fresh "F" in let er := fresh "er" in let L := fresh "L" in
      let k1 := fresh "k" in
      destruct (expect_cut e x ps k s Hs ltac:(reflexivity)) as (s1 & [(_ & R & F & L)|(er & R & F & L)]);
      change (expectString s y) with (expectString s x); rewrite R; clear R Hs;
      [rewrite L in HQ; clear L; rename F into Hs; set (k1 := k - length (field x)) in *; clearbody k1; clear s k; rename s1 into s; rename k1 into k|
       cut_stop]
  end.
Ltac ctok_with tac :=
  match goal with
  | Hs : cut_at ?e (Free ?x :: ?ps) ?k ?s, HQ : looks_complete _ _ _ <-> ?Q |- context [tok ?s ?m] =>
      let s1 := fresh "s" in let R := fresh "R" in let F := fresh "F" in let er := fresh "er" in let L := fresh "L" in
      let k1 := fresh "k" in
      destruct (tok_cut e x ps k s m Hs ltac:(tac) ltac:(reflexivity)) as (s1 & [(_ & R & F & L)|(er & R & L)]);
      rewrite R; clear R Hs;
      [rewrite L in HQ; clear L; rename F into Hs; set (k1 := k - length (field x)) in *; clearbody k1; clear s k; rename s1 into s; rename k1 into k|
       rewrite HQ in L; cut_stop]
  end.
Ltac ctok := ctok_with ltac:(discriminate).

Lemma close_cut Q e st ps k s : cut_at e (Free (bs ")") :: ps) k s -> (looks_complete e (Free (bs ")") :: ps) k <-> Q) ->
  returns_cut Q e st ps
    (let '(t, s) := tok s tokenLenMax in
       match t with
       | inr er => PStop er s
       | inl t => match close_paren t st s with PGo c st s => run_all c st s | r => r end
       end).
Proof.
  intros Hs HQ. ctok. unfold close_paren. rewrite beq_refl. right. exists k, s. auto.
Qed.
Lemma ndrop_length_app j (a b : bytes) : ndrop j (a ++ b) = skipn (N.to_nat j) a ++ skipn (N.to_nat j - length a) b.
Proof. unfold ndrop. apply skipn_app. Qed.
Lemma file_cut Q e st c ps k s h :
  cut_at e (Body c :: Free (bs ")") :: ps) k s -> (looks_complete e (Body c :: Free (bs ")") :: ps) k <-> Q) ->
  (lenN c < 2 ^ 63)%N ->
  exists s1, (exists er, ReadBytes s = (Err er, s1) /\ (er = EEOF <-> Q)) \/
    (ReadBytes s = (Ok (lenN c, BR (lenN c) (lenN c)), s1) /\
     tserves Q [(h, c)] (returns_cut Q e st ps) (PYield h WReg st (Some (BR (lenN c) (lenN c))) s1)).
Proof.
  intros Hs HQ Hc. unfold cut_at in Hs. cbn [pbytes map concat piece_bytes] in Hs.
  change (concat (map piece_bytes ps)) with (pbytes ps) in Hs.
  pose proof (len_field c) as Hlf. set (lf := length (field c)) in *.
  set (rest := field (bs ")") ++ pbytes ps) in *.
  assert (Hl8 : length (le8 (lenN c)) = 8) by reflexivity.
  unfold ReadBytes. destruct (ReadUint64_spec s _ _ Hs) as (s1 & _ & _ & H). exists s1.
  set (d := firstn k (field c ++ rest)) in *.
  destruct (Nat.lt_ge_cases k 8) as [Hk|Hk].
  { left. assert (Hd : d = firstn k (le8 (lenN c))).
    { unfold d, field. rewrite <- !app_assoc. apply firstn_le_app. lia. }
    assert (Hld : length d = k) by (rewrite Hd, firstn_length; lia).
    rewrite (proj2 (N.leb_gt _ _)) in H by (unfold lenN; lia). destruct H as [-> _]. eexists. split; [reflexivity|].
    rewrite short_eof, <- HQ. cbn [looks_complete]. fold lf. split.
    - intros [A B]. left. split; [exact A|]. left. rewrite B in Hld. cbn in Hld. auto.
    - intros [(A & [B|B])|[B _]]; [|lia|lia]. split; [exact A|]. rewrite Hd, B. reflexivity. }
  right.
  assert (Hd : d = le8 (lenN c) ++ firstn (k - 8) (c ++ repeat x00 (pad_len (length c)) ++ rest)).
  { unfold d, field. rewrite <- !app_assoc. rewrite firstn_cut by lia. reflexivity. }
  clearbody d. subst d. rewrite lenN_app in H. change (lenN (le8 (lenN c))) with 8%N in H.
  rewrite (proj2 (N.leb_le _ _)) in H by lia. rewrite ntake_le8, ndrop_le8, le_val_le8 in H by lia.
  destruct H as [-> HF]. cbn [rbind]. unfold NewBytesReader. rewrite (proj2 (N.ltb_lt (lenN c) (2 ^ 63)) Hc). split; [reflexivity|].
  cbn [tserves]. right. exists WReg, st, (Some (BR (lenN c) (lenN c))), s1. split; [reflexivity|]. right.
  exists (lenN c), (firstn (k - 8) (c ++ repeat x00 (pad_len (length c)) ++ rest)), e. split; [reflexivity|]. split; [exact HF|].
  set (d := firstn (k - 8) (c ++ repeat x00 (pad_len (length c)) ++ rest)) in *. intros j s2 Hj Hjd F2. cbn [resume].
  unfold br_close. cbn [br_rem br_len].
  destruct (drain_spec (S (S (src_size s2))) (lenN c - j) s2 _ _ ltac:(lia) F2)
    as (er & rem' & t1 & D1 & _ & D3 & _ & D5 & D6 & _). rewrite D1.
  rewrite ndrop_ndrop in D3. replace (j + (lenN c - j))%N with (lenN c) in D3 by lia. rewrite ndrop_len in D6.
  destruct (Nat.le_gt_cases k (8 + length c)) as [Hk2|Hk2].
  - (* the cut is in the contents *)
    assert (Hd : d = firstn (k - 8) c) by (apply firstn_le_app; lia).
    assert (Hnil : ndrop (lenN c) d = []).
    { rewrite Hd. unfold ndrop. apply skipn_all2. rewrite firstn_length. unfold lenN. lia. }
    rewrite Hnil in D3.
    assert (HQe : e = EEOF <-> Q).
    { rewrite <- HQ. cbn [looks_complete]. fold lf. split; [intros E; left; split; [exact E|]; lia|].
      intros [[E _]|[E1 E2]]; [exact E|]. replace (k - lf) with 0 in E2 by lia. destruct E2 as [[E _]|[E _]]; [exact E|].
      cbn in E. lia. }
    destruct er as [er|]; [cbn [fst]; destruct D5 as [D5|(D5 & D5' & _)]; [discriminate|]; injection D5 as ->; apply rc_stopped; eexists _, _; (split; [reflexivity|]); exact HQe|].
    destruct (readPadding_spec t1 (lenN c) _ _ D3) as (t2 & _ & _ & Q3 & Q4). rewrite Q3.
    unfold pad_error. change (lenN []) with 0%N.
    destruct (N.leb_spec (pad_N (lenN c)) 0) as [Hp|Hp].
    + assert (ndrop (pad_N (lenN c)) [] = []) as E0 by (unfold ndrop; apply skipn_nil). rewrite E0 in Q4.
      assert (ntake (pad_N (lenN c)) [] = []) as E1 by (unfold ntake; apply firstn_nil). rewrite E1.
      cbn [all_zero forallb fst]. apply (close_cut Q e st ps 0); [exact Q4|]. cbn [looks_complete].
      rewrite <- HQe. split; [intros [[E _]|[E _]]; [exact E|cbn in E; lia]|auto].
    + cbn [fst]. apply rc_stopped. eexists _, _. split; [reflexivity|]. rewrite short_eof, <- HQe. split; [intros [E _]; exact E|auto].
  - assert (Hd : d = c ++ firstn (k - 8 - length c) (repeat x00 (pad_len (length c)) ++ rest)) by (apply firstn_cut; lia).
    set (m := k - 8 - length c) in *.
    assert (Hll : lenN d = (lenN c + lenN (firstn m (repeat x00 (pad_len (length c)) ++ rest)))%N) by (rewrite Hd; apply lenN_app).
    assert (Htl : ndrop (lenN c) d = firstn m (repeat x00 (pad_len (length c)) ++ rest)) by (rewrite Hd; apply ndrop_exact).
    rewrite Htl in D3.
    assert (Hpos : 0 < length (firstn m (repeat x00 (pad_len (length c)) ++ rest))).
    { rewrite firstn_length, app_length. unfold rest. rewrite app_length, len_field. lia. }
    assert (er = None) as -> by (apply D6; unfold lenN in *; lia).
    destruct (readPadding_spec t1 (lenN c) _ _ D3) as (t2 & _ & _ & Q3 & Q4). rewrite Q3.
    destruct (Nat.lt_ge_cases m (pad_len (length c))) as [Hm|Hm].
    + assert (Hf : firstn m (repeat x00 (pad_len (length c)) ++ rest) = repeat x00 m).
      { rewrite firstn_le_app by (rewrite repeat_length; lia).
        replace (pad_len (length c)) with (m + (pad_len (length c) - m)) by lia. rewrite repeat_app.
        rewrite <- (repeat_length x00 m) at 1. apply firstn_length_app. }
      rewrite Hf in *. unfold pad_error. rewrite pad_N_nat. rewrite (proj2 (N.leb_gt _ _)) by (unfold lenN; rewrite repeat_length; lia).
      cbn [fst]. apply rc_stopped. eexists _, _. split; [reflexivity|]. rewrite short_eof, <- HQ. cbn [looks_complete]. fold lf. split.
      * intros [_ E]. rewrite E in Hpos. cbn in Hpos. lia.
      * intros [(_ & B)|[B _]]; lia.
    + rewrite firstn_cut in Q4 by (rewrite repeat_length; lia). rewrite firstn_cut by (rewrite repeat_length; lia).
      rewrite pad_error_ok. rewrite pad_N_nat in Q4. unfold ndrop in Q4. rewrite Nat2N.id in Q4.
      rewrite skipn_app, skipn_all2, repeat_length, Nat.sub_diag in Q4 by (rewrite repeat_length; lia). cbn [app skipn] in Q4.
      cbn [fst]. apply (close_cut Q e st ps (m - pad_len (length c))); [exact Q4|].
      rewrite <- HQ. replace (m - pad_len (length c)) with (k - lf) by lia. cbn [looks_complete]. fold lf.
      split; [intros B; right; split; [lia|exact B]|]. intros [(_ & B)|[_ B]]; [lia|exact B].
Qed.

Lemma node_cut Q e t : wf_tree reader_name t -> forall cs st ps k s,
  comps_ok cs -> cut_at e (pieces t ++ ps) k s -> (looks_complete e (pieces t ++ ps) k <-> Q) ->
  tserves Q (items cs t) (returns_cut Q e st ps) (run_all (CNode (path_of cs)) st s).
Proof.
  induction t as [x c|tg|es IH] using node_ind2; intros Hwf cs st ps k s Hcs Hs HQ; rewrite run_all_step; cbn [pstep1].
  - (* regular *)
    inversion Hwf as [? ? Hc| |]; subst. cbn [items hdr_of content_of].
    unfold parse_head. cbn [pieces app] in Hs, HQ. cexpect. cexpect. ctok. rewrite beq_refl.
    destruct x; cbn [app] in Hs, HQ.
    + ctok. rewrite beq_refl.
      destruct (rbf_cut 0 [] (pbytes (Free (bs "contents") :: Body c :: Free (bs ")") :: ps)) k e s Hs ltac:(discriminate) ltac:(reflexivity)) as (s4 & H).
      cbn [looks_complete] in HQ. cbn [length] in H, HQ.
      destruct (Nat.leb_spec (8 + 0) k) as [Hk|Hk].
      * destruct H as [-> F2]. change (firstn (k - length (field [])) _, e) with
          (firstn (k - length (field [])) (pbytes (Free (bs "contents") :: Body c :: Free (bs ")") :: ps)), e) in F2.
        fold (cut_at e (Free (bs "contents") :: Body c :: Free (bs ")") :: ps) (k - length (field [])) s4) in F2.
        assert (HQ2 : looks_complete e (Free (bs "contents") :: Body c :: Free (bs ")") :: ps) (k - length (field [])) <-> Q).
        { rewrite <- HQ. split; [intros B; split; [lia|exact B]|intros [_ B]; exact B]. }
        clear HQ Hs. rename HQ2 into HQ, F2 into Hs. clear s. rename s4 into s.
        set (k2 := k - length (field [])) in *. clearbody k2. clear Hk k. rename k2 into k.
        ctok. rewrite beq_refl. cbn [negb].
        destruct (file_cut Q e st c ps _ s (Header (path_of cs) (bs "regular") [] (Z.of_nat (length c)) true) Hs HQ Hc)
          as (s6 & [(er & -> & R)|(R & Hsv)]); [cut_stop|].
        rewrite R. rewrite (proj2 (N.ltb_ge _ _)) by lia. unfold lenN at 1. rewrite nat_N_Z. exact Hsv.
      * destruct H as (er & -> & H). left. eexists _, _. split; [reflexivity|]. rewrite <- HQ.
        split; [destruct er; discriminate|intros [B _]; lia].
    + ctok. change (beq (bs "contents") (bs "executable")) with false. cbv iota. rewrite beq_refl. cbn [negb].
      destruct (file_cut Q e st c ps _ s (Header (path_of cs) (bs "regular") [] (Z.of_nat (length c)) false) Hs HQ Hc)
          as (s6 & [(er & -> & R)|(R & Hsv)]); [cut_stop|].
      rewrite R. rewrite (proj2 (N.ltb_ge _ _)) by lia. unfold lenN at 1. rewrite nat_N_Z. exact Hsv.
  - (* symlink *)
    inversion Hwf as [|? Ht1 Ht2|]; subst. cbn [items hdr_of content_of].
    unfold parse_head. cbn [pieces app] in Hs, HQ. cexpect. cexpect. ctok.
    change (beq (bs "symlink") (bs "regular")) with false. rewrite beq_refl.
    cexpect. ctok_with ltac:(exact Ht2). cbn [tserves]. right. exists WSym, st, None, s. split; [reflexivity|]. left.
    split; [reflexivity|]. cbn [resume fst]. eapply close_cut; eassumption.
  - (* directory *)
    inversion Hwf as [| |? Hnames Hsort Hts]; subst. cbn [items hdr_of content_of].
    unfold parse_head. cbn [pieces app] in Hs, HQ. cexpect. cexpect. ctok.
    change (beq (bs "directory") (bs "regular")) with false.
    change (beq (bs "directory") (bs "symlink")) with false. rewrite beq_refl.
    cbn [tserves]. right. exists (WDir (path_of cs)), st, None, s. split; [reflexivity|]. left.
    split; [reflexivity|]. cbn [resume fst].
    clear Hsort Hwf. rewrite <- app_assoc in Hs, HQ. revert k s Hs HQ.
    induction es as [|[n t] es IHes]; intros k s Hs HQ; rewrite run_all_step; cbn [pstep1].
    + cbn [map concat app tserves] in *. ctok.
      change (beq (bs ")") (bs "entry")) with false. rewrite beq_refl. right. exists k, s. auto.
    + inversion IH as [|? ? IHt IHrest]; subst. inversion Hnames as [|? ? [Hn Hr] Hnames']; subst.
      inversion Hts as [|? ? Ht Hts']; subst. cbn [fst snd map concat] in *. cbn [app] in Hs, HQ.
      rewrite <- !app_assoc in Hs, HQ. cbn [app] in Hs, HQ.
      ctok. rewrite beq_refl. cexpect. cexpect.
      assert (Hlen : (lenN n <= nameLenMax)%N).
      { destruct Hn as (_ & _ & _ & _ & _ & Hl). unfold lenN, nameLenMax. lia. }
      ctok_with ltac:(exact Hlen). rewrite (name_ok_valid n Hn). cbn [negb]. cexpect.
      rewrite Join_path_of by assumption.
      eapply tserves_app; [| |apply rc_stopped].
      { eapply IHt; [exact Ht|apply Forall_app; split; [exact Hcs|constructor; [exact Hn|constructor]]|exact Hs|exact HQ]. }
      clear k s Hs HQ.
      intros p' [Hst|(k & s & Hs & HQ & ->)]; [apply tserves_stopped; [apply rc_stopped|exact Hst]|].
      rewrite run_all_step. cbn [pstep1]. cexpect. rewrite (proj2 (beq_neq n (bs ")")) Hr).
      eapply IHes; eauto.
Qed.

(** * The consumer *)
Lemma rd_reads_cut ns : forall s g er p len rem cl d e, flat s = (d, e) ->
  exists l j s2, rd_reads ns (RD s g er p (Some (BR len rem)) cl) = (l, RD s2 g er p (Some (BR len (rem - j))) cl) /\
    (j <= rem)%N /\ (j <= lenN d)%N /\ flat s2 = (ndrop j d, e).
Proof.
  induction ns as [|n ns IH]; intros s g er p len rem cl d e Hs; cbn [rd_reads].
  - exists [], 0%N, s. rewrite N.sub_0_r, ndrop_0. repeat (split; [first [reflexivity|lia]|]). exact Hs.
  - unfold rd_Read. cbn [rd_content rd_src rd_gor rd_err rd_prev rd_closed]. unfold br_read. cbn [br_rem br_len].
    destruct (lim_read n (rem, s)) as [[b er1] [rem1 s1]] eqn:E.
    destruct (lim_read_spec _ _ _ _ _ _ _ _ _ Hs E) as (Hd & He & Heg & Hlb & Hrem & _).
    assert (Hs1 : flat s1 = (src_data s1, e)) by (unfold flat; congruence).
    destruct (IH s1 g er p len rem1 cl _ _ Hs1) as (l & j & s2 & -> & H1 & H2 & H3).
    exists ((b, er1) :: l), (lenN b + j)%N, s2. replace (rem - (lenN b + j))%N with (rem1 - j)%N by lia.
    split; [reflexivity|]. split; [lia|]. rewrite Hd, lenN_app. split; [lia|]. rewrite H3. f_equal.
    rewrite <- ndrop_ndrop, ndrop_exact. reflexivity.
Qed.
Definition at_cut (Q : Prop) (its : list (header * bytes)) (r : rd) : Prop :=
  rd_err r = None /\ rd_closed r = false /\ chained (rd_prev r) its /\
  tserves Q its (stopped Q) (fst (resume (rd_gor r) (rd_content r) (rd_src r))).
Lemma rd_reads_err ns : forall r l r' e, rd_err r = Some e -> rd_reads ns r = (l, r') -> rd_err r' = Some e.
Proof.
  induction ns as [|n ns IH]; intros r l r' e He E; cbn [rd_reads] in E; [injection E as <- <-; exact He|].
  destruct (rd_Read n r) as [[b er1] r3] eqn:E3. destruct (rd_reads ns r3) as [l3 r4] eqn:E4.
  injection E as <- <-. apply (IH r3 l3); [|exact E4]. unfold rd_Read in E3.
  destruct (rd_content r) as [br|]; [|congruence].
  destruct (br_read n br (rd_src r)) as [[b0 e0] [br' s']]. injection E3 as <- <- <-. exact He.
Qed.
Lemma cut_session Q plans : forall its r o r', at_cut Q its r -> session plans r = (o, r') ->
  prefix_of (ok_headers o) (map fst its) /\ (In (Err EEOF) (map fst o) -> Q) /\
  (length its < length plans -> Q -> In (Err EEOF) (map fst o)) /\
  (length its < length plans -> exists er, In (Err er) (map fst o)).
Proof.
  induction plans as [|ns plans IH]; intros its r o r' (H1 & H2 & H3 & H4) H; cbn [session] in H.
  { injection H as <- <-. split; [eexists; reflexivity|]. split; [intros []|]. split; cbn [length]; intros; lia. }
  destruct (Next r) as [x ra] eqn:EN. destruct (rd_reads ns ra) as [l rb] eqn:ER.
  destruct (session plans rb) as [o1 rc] eqn:ES. injection H as <- <-.
  unfold Next in EN. rewrite H1, H2 in EN.
  destruct (resume (rd_gor r) (rd_content r) (rd_src r)) as [pp ct0]. cbn [fst] in H4.
  assert (Hstop : stopped Q pp -> prefix_of (ok_headers ((x, l) :: o1)) (map fst its) /\
    (In (Err EEOF) (map fst ((x, l) :: o1)) -> Q) /\ (length its < length (ns :: plans) -> Q -> In (Err EEOF) (map fst ((x, l) :: o1))) /\
    (length its < length (ns :: plans) -> exists er, In (Err er) (map fst ((x, l) :: o1)))).
  { intros (er & s & -> & Hq). injection EN as <- <-.
    assert (Hb : rd_err rb = Some er) by (eapply rd_reads_err; [|exact ER]; reflexivity). destruct (session_err _ _ _ _ _ Hb ES) as [Q1 Q2].
    split; [|split; [|split]].
    - exists (map fst its). change (ok_headers ((Err er, l) :: o1)) with (ok_headers o1). rewrite Q1. reflexivity.
    - intros [Hx|Hx]; apply Hq; [cbn [fst] in Hx; congruence|specialize (Q2 _ Hx); congruence].
    - intros _ HQ. left. cbn [fst]. apply Hq in HQ. congruence.
    - intros _. exists er. left. reflexivity. }
  destruct its as [|[h c] its]; cbn [tserves] in H4; [auto|].
  destruct H4 as [H4|(w & st & ct & s & -> & Hc)]; [auto|]. clear Hstop.
  destruct H3 as [H3 H3']. rewrite H3 in EN. injection EN as <- <-.
  assert (Hi : at_cut Q its rb).
  { destruct Hc as [(-> & Hc)|(len & d & e & -> & Hfl & Hc)].
    - destruct (rd_reads_none ns s (GWait w st) None (hd_path h) false) as (l' & E & _).
      rewrite E in ER. injection ER as _ <-. split; [reflexivity|]. split; [reflexivity|]. split; [exact H3'|exact Hc].
    - destruct (rd_reads_cut ns s (GWait w st) None (hd_path h) len len false d e Hfl) as (l' & j & s2 & E & J1 & J2 & J3).
      rewrite E in ER. injection ER as _ <-. split; [reflexivity|]. split; [reflexivity|]. split; [exact H3'|].
      cbn [rd_gor rd_content rd_src]. apply Hc; assumption. }
  destruct (IH _ _ _ _ Hi ES) as (J1 & J2 & J3 & J4). split; [|split; [|split]].
  - destruct J1 as (cc & J1). exists cc. cbn [map fst]. rewrite J1. reflexivity.
  - intros [Hx|Hx]; [discriminate|auto].
  - cbn [length]. intros Hl HQ. right. apply J3; [lia|exact HQ].
  - cbn [length]. intros Hl. destruct (J4 ltac:(lia)) as (er & Her). exists er. right. exact Her.
Qed.
Lemma cut_archive t s z plans : wf_tree reader_name t -> src_data s ++ z = nar t -> nodes t < length plans ->
  ((exists r s1 o r', NewReader s = (Ok r, s1) /\ session plans r = (o, r') /\ In (Err EEOF) (map fst o)) <->
   looks_complete (fin s) (nar_pieces t) (length (src_data s))) /\
  (forall r s1 o r', NewReader s = (Ok r, s1) -> session plans r = (o, r') ->
     prefix_of (ok_headers o) (map fst (items [] t)) /\ exists er, In (Err er) (map fst o)).
Proof.
  intros Hwf Hd Hl. set (e := fin s). set (k := length (src_data s)).
  assert (Hs : cut_at e (nar_pieces t) k s).
  { unfold cut_at, flat, k, e. f_equal. unfold nar_pieces, pbytes. cbn [map concat piece_bytes].
    change (concat (map piece_bytes (pieces t))) with (pbytes (pieces t)). rewrite pieces_ser.
    change (field (bs "nix-archive-1") ++ ser t) with (nar t). rewrite <- Hd. symmetry. apply firstn_length_app. }
  clearbody e k.
  destruct (expect_cut e _ _ k s Hs ltac:(reflexivity)) as (s1 & [(_ & R & F & L)|(er & R & F & L)]).
  - assert (HN : NewReader s = (Ok (RD s1 GFirst None [] None false), s1)).
    { unfold NewReader. change narVersionMagic1 with (bs "nix-archive-1"). rewrite R. reflexivity. }
    assert (Hat : at_cut (looks_complete e (nar_pieces t) k) (items [] t) (RD s1 GFirst None [] None false)).
    { split; [reflexivity|]. split; [reflexivity|]. split; [apply (chained_items _ _ Hwf)|].
      cbn [rd_gor rd_content rd_src resume fst]. change (bs "/") with (path_of []).
      rewrite <- (app_nil_r (pieces t)) in F at 1.
      rewrite <- (app_nil_r (items [] t)). eapply tserves_app.
      - eapply node_cut; [exact Hwf|constructor|exact F|]. rewrite app_nil_r. symmetry. exact L.
      - intros p' [Hp|(k' & s' & Hc & HQ & ->)]; [exact Hp|]. rewrite run_ret_nil. cbn [tserves].
        eexists _, _. split; [reflexivity|]. rewrite <- HQ. cbn [looks_complete]. tauto.
      - auto. }
    rewrite <- (items_length t []) in Hl.
    split.
    + split.
      * intros (r & s1' & o & r' & HN' & HS & HI). rewrite HN in HN'. injection HN' as <- <-.
        destruct (cut_session _ _ _ _ _ _ Hat HS) as (_ & J & _). auto.
      * intros HQ. destruct (session plans (RD s1 GFirst None [] None false)) as [o r'] eqn:HS.
        destruct (cut_session _ _ _ _ _ _ Hat HS) as (_ & _ & J & _). eexists _, _, _, _. eauto.
    + intros r s1' o r' HN' HS. rewrite HN in HN'. injection HN' as <- <-.
      destruct (cut_session _ _ _ _ _ _ Hat HS) as (J1 & _ & _ & J4). auto.
  - assert (HN : forall r s', NewReader s <> (Ok r, s')).
    { intros r s'. unfold NewReader. change narVersionMagic1 with (bs "nix-archive-1"). rewrite R. destruct er; discriminate. }
    split; [split|].
    + intros (r & s1' & o & r' & HN' & _). elim (HN _ _ HN').
    + intros HQ. elim (L HQ).
    + intros r s1' o r' HN'. elim (HN _ _ HN').
Qed.
(** On a stream that ends in an error other than io.EOF only the last padding may be missing. *)
Lemma broken_complete e ps : e <> EEOF -> forall k,
  looks_complete e (ps ++ [Free (bs ")")]) k <-> length (pbytes ps) + 9 <= k.
Proof.
  intros He. induction ps as [|p ps IH]; intros k.
  - cbn [app looks_complete pbytes map concat length]. change (length (bs ")")) with 1. split.
    + intros [[E _]|[E _]]; [congruence|lia].
    + intros E. right. split; [lia|exact I].
  - assert (Hlen : length (pbytes (p :: ps)) = length (piece_bytes p) + length (pbytes ps)) by (unfold pbytes; cbn [map concat]; apply app_length).
    rewrite Hlen. destruct p as [x|x|x]; cbn [app looks_complete piece_bytes]; rewrite IH; pose proof (len_field x); split.
    + intros [E1 E2]. lia.
    + intros E. lia.
    + intros [[E _]|[E1 E2]]; [congruence|lia].
    + intros E. right. lia.
    + intros [[E _]|[E1 E2]]; [congruence|lia].
    + intros E. right. lia.
Qed.
Lemma pieces_last t : exists ps, nar_pieces t = ps ++ [Free (bs ")")].
Proof.
  unfold nar_pieces. destruct t as [x c|tg|es]; cbn [pieces].
  - destruct x; [eexists [_; _; _; _; _; _; _; _]|eexists [_; _; _; _; _; _]]; reflexivity.
  - eexists (_ :: _ :: _ :: _ :: _ :: _ :: []); reflexivity.
  - eexists (_ :: _ :: _ :: _ :: _). cbn [app]. reflexivity.
Qed.
Lemma broken_cut t s z : src_data s ++ z = nar t -> fin s <> EEOF ->
  (looks_complete (fin s) (nar_pieces t) (length (src_data s)) <-> length z <= 7).
Proof.
  intros Hd He. destruct (pieces_last t) as (ps & Hp). rewrite Hp, broken_complete by exact He.
  assert (Hl : length (src_data s) + length z = length (pbytes ps) + 16).
  { rewrite <- app_length, Hd. transitivity (length (pbytes (nar_pieces t))).
    - unfold nar_pieces, pbytes. cbn [map concat piece_bytes]. change (concat (map piece_bytes (pieces t))) with (pbytes (pieces t)).
      rewrite pieces_ser. reflexivity.
    - rewrite Hp. unfold pbytes. rewrite map_app, concat_app, app_length. reflexivity. }
  lia.
Qed.
