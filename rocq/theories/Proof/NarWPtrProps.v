From Verif Require Import Base.Bytes Base.BytesFacts Model.GoIO Model.GoStd Model.Wire Model.Nar Model.NarWriter Model.NarWPtr
  Spec.NarSpec Spec.NarWHist Spec.NarWPtrSpec Proof.EntryPath Proof.NarWriterSound.
Ltac Zify.zify_post_hook ::= idtac.

Lemma heap_after_app a : forall b m, heap_after (a ++ b) m = heap_after b (heap_after a m).
Proof. induction a as [|o a IH]; intros b m; [reflexivity|]. destruct o; cbn [app heap_after]; apply IH. Qed.

Lemma Forall2_weaken {A B} (P Q : A -> B -> Prop) l l' : (forall a b, P a b -> Q a b) -> Forall2 P l l' -> Forall2 Q l l'.
Proof. intros H F. induction F; constructor; auto. Qed.
Lemma Forall2_len {A B} (P : A -> B -> Prop) l l' : Forall2 P l l' -> length l = length l'.
Proof. intros F. induction F; cbn [length]; congruence. Qed.
Section Sim.
Variable ops0 : list p_op.
Variable m0 : heap.
Variable rels : bytes -> bytes -> Prop.
Variable good : bytes -> Prop.
Hypothesis rels_trans : forall a b c, rels a b -> rels b c -> rels a c.
Hypothesis rels_desc : forall a b, good a -> good b -> PathIsLexicographicallyOrdered a b = true ->
  goes_up (Rel_abs a b) = false -> IsValidNodeName (Rel_abs a b) = true -> rels a b.
Hypothesis all_good : forall a p b, ops0 = a ++ PHeader p :: b -> good (hd_path (heap_after a m0 p)).
Hypothesis disciplined : forall a p b h c, ops0 = a ++ PHeader p :: b ++ PSet p h :: c ->
  same_place h (heap_after a m0 p) \/
  exists b1 q b2, b = b1 ++ PHeader q :: b2 /\
    let v := heap_after (a ++ PHeader p :: b1) m0 q in
    hd_Validate v = Ok tt /\ ~ rels (hd_path (heap_after a m0 p)) (hd_path v).

(** An open entry: the struct given at some point of the past, and everything valid given since is inside it. *)
Definition entry_of (past : list p_op) (p : ptr) (v : header) : Prop :=
  exists a b, past = a ++ PHeader p :: b /\ v = heap_after a m0 p /\
    forall b1 q b2, b = b1 ++ PHeader q :: b2 -> hd_Validate (heap_after (a ++ PHeader p :: b1) m0 q) = Ok tt ->
      rels (hd_path v) (hd_path (heap_after (a ++ PHeader p :: b1) m0 q)).
Definition agrees (past : list p_op) (p : ptr) (v : header) : Prop :=
  entry_of past p v /\ same_place (heap_after past m0 p) v /\ good (hd_path v).
(** Every enclosing directory is related to the entry below it. *)
Fixpoint chain (cur : header) (up : list header) : Prop :=
  match up with [] => True | u :: up' => rels (hd_path u) (hd_path cur) /\ chain u up' end.
Definition sim (past : list p_op) (r : pwr) (v : wr) : Prop :=
  pw_sink r = wr_sink v /\ pw_cw r = wr_cw v /\ pw_closed r = wr_closed v /\
  (pw_closed r = true -> pw_gor r = PGone) /\
  match pw_gor r, wr_gor v with
  | PFirst, WFirst => True
  | PGone, WGone => True
  | PWait p up, WWait h up' => pw_cw r = CWNil \/ (agrees past p h /\ Forall2 (agrees past) up up' /\ chain h up')
  | _, _ => False
  end.
Lemma chain_rel up : forall cur q, chain cur up -> rels (hd_path cur) q -> Forall (fun u => rels (hd_path u) q) up.
Proof.
  induction up as [|u up IH]; intros cur q C R; [constructor|]. destruct C as (C1 & C2).
  assert (X : rels (hd_path u) q) by (eapply rels_trans; eauto). constructor; [exact X|]. eapply IH; eauto.
Qed.
(** One more header inside. *)
Lemma entry_snoc past p v q : entry_of past p v ->
  (hd_Validate (heap_after past m0 q) = Ok tt -> rels (hd_path v) (hd_path (heap_after past m0 q))) ->
  entry_of (past ++ [PHeader q]) p v.
Proof.
  intros (a & b & E & V & R) H. exists a, (b ++ [PHeader q]). split; [rewrite E, <- app_assoc; reflexivity|]. split; [exact V|].
  intros b1 q' b2 E2 V2. destruct b2 as [|o b2] using rev_ind.
  - apply app_inj_tail in E2. destruct E2 as (-> & E2). injection E2 as <-. rewrite <- E in *. auto.
  - clear IHb2. rewrite app_comm_cons, app_assoc in E2. apply app_inj_tail in E2. destruct E2 as (-> & _).
    eapply R; eauto.
Qed.
Lemma agrees_snoc past p v q : agrees past p v ->
  (hd_Validate (heap_after past m0 q) = Ok tt -> rels (hd_path v) (hd_path (heap_after past m0 q))) ->
  agrees (past ++ [PHeader q]) p v.
Proof.
  intros (A & B & C) H. split; [apply entry_snoc; assumption|]. split; [|exact C]. rewrite heap_after_app. exact B.
Qed.
Lemma agrees_other past p v o : match o with PBytes _ | PClose => True | _ => False end -> agrees past p v -> agrees (past ++ [o]) p v.
Proof.
  intros O ((a & b & E & V & R) & B & C). split; [|split; [|exact C]].
  - exists a, (b ++ [o]). split; [rewrite E, <- app_assoc; reflexivity|]. split; [exact V|].
    intros b1 q b2 E2 V2. destruct b2 as [|o' b2] using rev_ind.
    + apply app_inj_tail in E2. destruct E2 as (_ & E2). subst o. destruct O.
    + clear IHb2. rewrite app_comm_cons, app_assoc in E2. apply app_inj_tail in E2. destruct E2 as (-> & _). eapply R; eauto.
  - rewrite heap_after_app. destruct o; try destruct O; exact B.
Qed.
Lemma agrees_set past rest q h p v : ops0 = past ++ PSet q h :: rest -> agrees past p v -> agrees (past ++ [PSet q h]) p v.
Proof.
  intros E0 ((a & b & E & V & R) & B & C). split; [|split; [|exact C]].
  - exists a, (b ++ [PSet q h]). split; [rewrite E, <- app_assoc; reflexivity|]. split; [exact V|].
    intros b1 q' b2 E2 V2. destruct b2 as [|o' b2] using rev_ind.
    + apply app_inj_tail in E2. destruct E2 as (_ & E2). discriminate.
    + clear IHb2. rewrite app_comm_cons, app_assoc in E2. apply app_inj_tail in E2. destruct E2 as (-> & _). eapply R; eauto.
  - rewrite heap_after_app. cbn [heap_after]. unfold assign. destruct (Nat.eqb_spec p q) as [->|]; [|exact B].
    assert (E1 : ops0 = a ++ PHeader q :: b ++ PSet q h :: rest) by (rewrite E0, E, <- app_assoc; reflexivity).
    destruct (disciplined a q b h rest E1) as [D|(b1 & q' & b2 & -> & V2 & D)]; [rewrite V; exact D|].
    exfalso. apply D. rewrite <- V. eapply R; [reflexivity|exact V2].
Qed.
Lemma sim_keep past past' r v : (forall p h, agrees past p h -> agrees past' p h) -> sim past r v -> sim past' r v.
Proof.
  intros H (A & B & C & C' & D). repeat (split; [assumption|]). destruct (pw_gor r), (wr_gor v); try exact D.
  destruct D as [D|(D1 & D2 & D3)]; [left; exact D|right]. split; [auto|]. split; [|exact D3]. eapply Forall2_weaken; [|exact D2]. auto.
Qed.
Lemma Forall2_snoc_header past q up : forall up', Forall2 (agrees past) up up' ->
  Forall (fun u => rels (hd_path u) (hd_path (heap_after past m0 q))) up' -> Forall2 (agrees (past ++ [PHeader q])) up up'.
Proof.
  induction up as [|x up IH]; intros up' A R; inversion A; subst; [constructor|]. inversion R; subst.
  constructor; [apply agrees_snoc; auto|auto].
Qed.
Lemma phandle_sim past rest p : ops0 = past ++ PHeader p :: rest -> let m := heap_after past m0 in
  forall up cur v up' cw w, agrees past cur v -> Forall2 (agrees past) up up' -> chain v up' ->
  match phandle m cur up p cw w, handle v up' (m p) cw w with
  | PHErr e cw1 w1, HErr e' cw2 w2 => e = e' /\ cw1 = cw2 /\ w1 = w2
  | PHWait c1 u1 cw1 w1, HWait c2 u2 cw2 w2 => cw1 = cw2 /\ w1 = w2 /\
      agrees (past ++ [PHeader p]) c1 c2 /\ Forall2 (agrees (past ++ [PHeader p])) u1 u2 /\ chain c2 u2
  | _, _ => False
  end.
Proof.
  intros E m. assert (G : good (hd_path (m p))) by (eapply all_good; exact E).
  assert (SELF : agrees (past ++ [PHeader p]) p (m p)).
  { split; [|split; [|exact G]].
    - exists past, []. split; [reflexivity|]. split; [reflexivity|]. intros b1 q b2 X. destruct b1; discriminate X.
    - rewrite heap_after_app. split; reflexivity. }
  induction up as [|q up IH]; intros cur v up' cw w A AU CH; inversion AU as [|? u ? up'' AQ AU']; subst; cbn [phandle handle];
    destruct A as (A1 & (A2 & A3) & A4); fold m in A2, A3; rewrite A2, A3;
    destruct (PathIsLexicographicallyOrdered (hd_path v) (hd_path (m p))) eqn:LX; cbn [negb]; try (repeat split; reflexivity);
    destruct (goes_up (Rel_abs (hd_path v) (hd_path (m p)))) eqn:GU.
  - destruct (WriteString w (bs ")")) as [[e|] w1]; repeat split; reflexivity.
  - destruct (beq (hd_type v) TypeDirectory); cbn [negb]; [|repeat split; reflexivity].
    destruct (IsValidNodeName (Rel_abs (hd_path v) (hd_path (m p)))) eqn:VN; cbn [negb]; [|repeat split; reflexivity].
    destruct (wstrs _ w) as [[e|] w1]; [repeat split; reflexivity|].
    destruct (emit_head (m p) cw w1) as [[e|] [cw2 w2]]; [repeat split; reflexivity|].
    assert (R : rels (hd_path v) (hd_path (m p))) by (apply rels_desc; assumption).
    split; [reflexivity|]. split; [reflexivity|]. split; [exact SELF|]. split; [|split; [exact R|exact I]].
    constructor; [|constructor]. apply agrees_snoc; [|intros _; exact R]. repeat split; assumption.
  - destruct (WriteString w (bs ")")) as [[e|] w1]; [repeat split; reflexivity|].
    destruct (WriteString w1 (bs ")")) as [[e|] w2]; [repeat split; reflexivity|].
    apply IH; [exact AQ|exact AU'|exact (proj2 CH)].
  - destruct (beq (hd_type v) TypeDirectory); cbn [negb]; [|repeat split; reflexivity].
    destruct (IsValidNodeName (Rel_abs (hd_path v) (hd_path (m p)))) eqn:VN; cbn [negb]; [|repeat split; reflexivity].
    destruct (wstrs _ w) as [[e|] w1]; [repeat split; reflexivity|].
    destruct (emit_head (m p) cw w1) as [[e|] [cw2 w2]]; [repeat split; reflexivity|].
    assert (R : rels (hd_path v) (hd_path (m p))) by (apply rels_desc; assumption).
    split; [reflexivity|]. split; [reflexivity|]. split; [exact SELF|]. split; [|split; [exact R|exact CH]].
    constructor.
    + apply agrees_snoc; [|intros _; exact R]. repeat split; assumption.
    + apply Forall2_snoc_header; [constructor; assumption|]. eapply chain_rel; [exact CH|exact R].
Qed.
Lemma pfinish_eq up : forall up' w, length up = length up' -> pfinish up w = finish up' w.
Proof.
  induction up as [|x up IH]; intros [|y up'] w L; try discriminate; cbn [pfinish finish]; [reflexivity|].
  destruct (WriteString w (bs ")")) as [[e|] w1]; [reflexivity|].
  destruct (WriteString w1 (bs ")")) as [[e|] w2]; [reflexivity|]. apply IH. injection L as L. exact L.
Qed.
Lemma header_sim past rest p r v : ops0 = past ++ PHeader p :: rest -> sim past r v ->
  exists x r' v', PWriteHeader (heap_after past m0) p r = (x, r') /\ WriteHeader (heap_after past m0 p) v = (x, v') /\
    sim (past ++ [PHeader p]) r' v'.
Proof.
  intros E S. pose proof S as (S1 & S2 & S3 & S5 & S4). unfold PWriteHeader, WriteHeader.
  assert (KEEP : hd_Validate (heap_after past m0 p) <> Ok tt -> sim (past ++ [PHeader p]) r v).
  { intros NV. eapply sim_keep; [|exact S]. intros q h A. apply agrees_snoc; [exact A|]. intros X. contradiction. }
  destruct (hd_Validate (heap_after past m0 p)) as [[]|e|w] eqn:V;
    [|eexists _, _, _; split; [reflexivity|]; split; [reflexivity|]; apply KEEP; discriminate..].
  rewrite S3. destruct (wr_closed v) eqn:CL.
  { eexists _, _, _. split; [reflexivity|]. split; [reflexivity|]. rewrite (S5 S3) in S4.
    split; [exact S1|]. split; [exact S2|]. split; [congruence|]. split; [exact S5|]. rewrite (S5 S3). exact S4. }
  rewrite S1, S2. destruct (pw_gor r) as [|cur up|] eqn:GR, (wr_gor v) as [|h up'|] eqn:GV; try contradiction.
  - destruct (beq (hd_path (heap_after past m0 p)) (bs "/")); cbn [negb].
    + destruct (emit_head (heap_after past m0 p) (wr_cw v) (wr_sink v)) as [[e|] [cw w]].
      * eexists _, _, _. split; [reflexivity|]. split; [reflexivity|]. repeat split; discriminate.
      * eexists _, _, _. split; [reflexivity|]. split; [reflexivity|]. split; [reflexivity|]. split; [reflexivity|]. split; [reflexivity|]. split; [discriminate|].
        right. split; [|split; [constructor|exact I]]. split; [|split].
        -- exists past, []. split; [reflexivity|]. split; [reflexivity|]. intros b1 q b2 X. destruct b1; discriminate X.
        -- rewrite heap_after_app. split; reflexivity.
        -- eapply all_good. exact E.
    + eexists _, _, _. split; [reflexivity|]. split; [reflexivity|]. repeat split; discriminate.
  - destruct (cw_close (wr_cw v) (wr_sink v)) as [[[e|]|] [cw w]] eqn:CC.
    + eexists _, _, _. split; [reflexivity|]. split; [reflexivity|]. repeat split; discriminate.
    + destruct S4 as [S4|(A & AU & CH)]; [rewrite <- S2, S4 in CC; discriminate|].
      pose proof (phandle_sim past rest p E up cur h up' cw w A AU CH) as H. cbn zeta in H.
      destruct (phandle _ cur up p cw w) as [e1 cw1 w1|c1 u1 cw1 w1], (handle h up' _ cw w) as [e2 cw2 w2|c2 u2 cw2 w2]; try contradiction.
      * destruct H as (-> & -> & ->). eexists _, _, _. split; [reflexivity|]. split; [reflexivity|]. repeat split; discriminate.
      * destruct H as (-> & -> & H). eexists _, _, _. split; [reflexivity|]. split; [reflexivity|].
        split; [reflexivity|]. split; [reflexivity|]. split; [reflexivity|]. split; [discriminate|]. right. exact H.
    + eexists _, _, _. split; [reflexivity|]. split; [reflexivity|]. split; [exact S1|]. split; [exact S2|]. split; [congruence|]. split; [congruence|].
      rewrite GR, GV. left. destruct (wr_cw v); [exact S2| |]; cbn [cw_close] in CC;
        [destruct (bw_close bw (wr_sink v)) as [? [? ?]]|destruct (bw_close bw buf) as [? [? ?]]]; discriminate.
  - eexists _, _, _. split; [reflexivity|]. split; [reflexivity|]. split; [exact S1|]. split; [exact S2|]. split; [congruence|]. split; [congruence|].
    rewrite GR, GV. exact I.
Qed.
Lemma write_sim past b r v : sim past r v ->
  exists x r' v', pw_Write b r = (x, r') /\ wr_Write b v = (x, v') /\ sim (past ++ [PBytes b]) r' v'.
Proof.
  intros S. assert (S' : sim (past ++ [PBytes b]) r v) by (eapply sim_keep; [|exact S]; intros q h A; apply agrees_other; [exact I|exact A]).
  pose proof S' as (S1 & S2 & S3 & S5 & S4). unfold pw_Write, wr_Write. rewrite S2. destruct (wr_cw v) as [|bw|bw buf] eqn:CW.
  - eexists _, _, _. split; [reflexivity|]. split; [reflexivity|]. exact S'.
  - rewrite S1. destruct (bw_write bw b (wr_sink v)) as [[n e] [bw' w']].
    eexists _, _, _. split; [reflexivity|]. split; [reflexivity|]. split; [reflexivity|]. split; [reflexivity|]. split; [exact S3|]. split; [exact S5|].
    cbn [pw_gor wr_gor pw_cw]. destruct (pw_gor r), (wr_gor v); try exact S4. right. destruct S4 as [S4|S4]; [congruence|exact S4].
  - destruct (bw_write bw b buf) as [[n e] [bw' w']].
    eexists _, _, _. split; [reflexivity|]. split; [reflexivity|]. split; [exact S1|]. split; [reflexivity|]. split; [exact S3|]. split; [exact S5|].
    cbn [pw_gor wr_gor pw_cw]. destruct (pw_gor r), (wr_gor v); try exact S4. right. destruct S4 as [S4|S4]; [congruence|exact S4].
Qed.
Lemma close_sim past r v : sim past r v ->
  exists x r' v', pw_Close r = (x, r') /\ wr_Close v = (x, v') /\ sim (past ++ [PClose]) r' v'.
Proof.
  intros S. assert (S' : sim (past ++ [PClose]) r v) by (eapply sim_keep; [|exact S]; intros q h A; apply agrees_other; [exact I|exact A]).
  pose proof S' as (S1 & S2 & S3 & S5 & S4). unfold pw_Close, wr_Close. rewrite S3. destruct (wr_closed v) eqn:CL.
  { eexists _, _, _. split; [reflexivity|]. split; [reflexivity|]. exact S'. }
  rewrite S1, S2. destruct (pw_gor r) as [|cur up|] eqn:GR, (wr_gor v) as [|h up'|] eqn:GV; try contradiction;
    try (eexists _, _, _; split; [reflexivity|]; split; [reflexivity|]; repeat split; reflexivity).
  destruct (cw_close (wr_cw v) (wr_sink v)) as [[[e|]|] [cw w]] eqn:CC;
    try (eexists _, _, _; split; [reflexivity|]; split; [reflexivity|]; repeat split; reflexivity).
  destruct S4 as [S4|(A & AU & CH)]; [rewrite <- S2, S4 in CC; discriminate|].
  rewrite (pfinish_eq up up' w) by (eapply Forall2_len; exact AU). destruct (finish up' w) as [e w1].
  eexists _, _, _. split; [reflexivity|]. split; [reflexivity|]. repeat split; reflexivity.
Qed.
Lemma run_sim rest : forall past r v, ops0 = past ++ rest -> sim past r v ->
  exists r' v', p_run rest (heap_after past m0) r = (map snd (fst (wr_run (by_value rest (heap_after past m0)) v)), r') /\
    snd (wr_run (by_value rest (heap_after past m0)) v) = v' /\ sim ops0 r' v'.
Proof.
  induction rest as [|o rest IH]; intros past r v E S.
  - rewrite app_nil_r in E. subst past. eexists _, _. split; [reflexivity|]. split; [reflexivity|exact S].
  - assert (E' : ops0 = (past ++ [o]) ++ rest) by (rewrite <- app_assoc; exact E).
    assert (N : match o with PSet _ _ => True | _ => heap_after (past ++ [o]) m0 = heap_after past m0 end) by (destruct o; [exact I|rewrite heap_after_app; reflexivity..]).
    destruct o as [p h|p|b|]; cbn [p_run by_value].
    + destruct (IH (past ++ [PSet p h]) r v E') as (r' & v' & H1 & H2 & H3).
      { eapply sim_keep; [|exact S]. intros q x A. eapply agrees_set; eassumption. }
      rewrite heap_after_app in H1, H2. cbn [heap_after] in H1, H2. eauto.
    + destruct (header_sim past rest p r v E S) as (x & r1 & v1 & H1 & H2 & H3).
      destruct (IH _ r1 v1 E' H3) as (r' & v' & K1 & K2 & K3). rewrite N in K1, K2. rewrite H1. cbn [wr_run wr_step]. rewrite H2, K1.
      destruct (wr_run (by_value rest (heap_after past m0)) v1) as [l v2]. cbn [fst snd] in *. eexists _, _. split; [reflexivity|]. split; [exact K2|exact K3].
    + destruct (write_sim past b r v S) as ([n x] & r1 & v1 & H1 & H2 & H3).
      destruct (IH _ r1 v1 E' H3) as (r' & v' & K1 & K2 & K3). rewrite N in K1, K2. rewrite H1. cbn [wr_run wr_step]. rewrite H2, K1.
      destruct (wr_run (by_value rest (heap_after past m0)) v1) as [l v2]. cbn [fst snd] in *. eexists _, _. split; [reflexivity|]. split; [exact K2|exact K3].
    + destruct (close_sim past r v S) as (x & r1 & v1 & H1 & H2 & H3).
      destruct (IH _ r1 v1 E' H3) as (r' & v' & K1 & K2 & K3). rewrite N in K1, K2. rewrite H1. cbn [wr_run wr_step]. rewrite H2, K1.
      destruct (wr_run (by_value rest (heap_after past m0)) v1) as [l v2]. cbn [fst snd] in *. eexists _, _. split; [reflexivity|]. split; [exact K2|exact K3].
Qed.
End Sim.

(** A Writer and a Writer by value, from the start. *)
Lemma new_sim m rels good w : match PNewWriter w, NewWriter w with
  | (Ok r, w1), (Ok v, w2) => w1 = w2 /\ sim m rels good [] r v
  | (Err e, w1), (Err e', w2) => e = e' /\ w1 = w2
  | _, _ => False
  end.
Proof.
  unfold PNewWriter, NewWriter. destruct (WriteString w narVersionMagic1) as [[e|] w']; [split; reflexivity|].
  split; [reflexivity|]. repeat split. discriminate.
Qed.
Lemma kept_run ops m w : kept ops m ->
  as_by_value ops m w.
Proof.
  intros K. unfold as_by_value. pose proof (new_sim m (fun _ _ => True) (fun _ => True) w) as H.
  destruct (PNewWriter w) as [[r|e|x] w1], (NewWriter w) as [[v|e'|x'] w2]; try exact H. destruct H as (-> & H). split; [reflexivity|].
  destruct (run_sim ops m (fun _ _ => True) (fun _ => True)) with (rest := ops) (past := @nil p_op) (r := r) (v := v) as (r' & v' & H1 & H2 & H3); auto.
  { intros a p b h c E. left. eapply K. exact E. }
  cbn [heap_after] in H1, H2. destruct (wr_run (by_value ops m) v) as [l v2]. cbn [fst snd] in *. subst v2. exists (map snd l), r', l, v'. split; [exact H1|]. split; [reflexivity|]. split; [reflexivity|exact (proj1 H3)].
Qed.
Lemma descends a b : canonical_path a -> canonical_path b -> PathIsLexicographicallyOrdered a b = true ->
  goes_up (Rel_abs a b) = false -> IsValidNodeName (Rel_abs a b) = true -> at_or_below a b.
Proof.
  intros (cs & Hc & ->) (ds & Hd & ->) LX GU _. destruct (drop_common cs ds) as [u d] eqn:DC.
  destruct (drop_common_spec cs ds u d DC) as (p & E1 & E2 & E3). destruct u as [|x u].
  - rewrite app_nil_r in E1. subst p. exists cs, d. subst ds. auto.
  - exfalso. destruct E3 as [E3|[E3|E3]]; [discriminate| |].
    + subst d. rewrite app_nil_r in E2. subst p cs. rewrite lex_above in LX; [discriminate|exact Hc|discriminate].
    + destruct E3 as (x' & y & u' & d' & Eu & -> & Hxy). injection Eu as <- <-. subst cs ds. rewrite Rel_beside in GU by assumption. discriminate.
Qed.
Lemma path_of_inj a b : Forall entry_name a -> Forall entry_name b -> path_of a = path_of b -> a = b.
Proof. intros Ha Hb H. rewrite <- (e_clean_path_of a Ha), <- (e_clean_path_of b Hb), H. reflexivity. Qed.
Lemma below_trans a b c : at_or_below a b -> at_or_below b c -> at_or_below a c.
Proof.
  intros (cs & ds & -> & -> & F) (cs' & ds' & E & -> & F'). apply path_of_inj in E; [|exact F|apply Forall_app in F'; apply F'].
  subst cs'. exists cs, (ds ++ ds'). rewrite app_assoc. auto.
Qed.
Lemma kept_while_open_run ops m w : canonical_headers ops m -> kept_while_open ops m ->
  as_by_value ops m w.
Proof.
  intros C K. unfold as_by_value. pose proof (new_sim m at_or_below canonical_path w) as H.
  destruct (PNewWriter w) as [[r|e|x] w1], (NewWriter w) as [[v|e'|x'] w2]; try exact H. destruct H as (-> & H). split; [reflexivity|].
  destruct (run_sim ops m at_or_below canonical_path) with (rest := ops) (past := @nil p_op) (r := r) (v := v) as (r' & v' & H1 & H2 & H3); auto.
  { intros a b c. apply below_trans. }
  { intros a b. apply descends. }
  cbn [heap_after] in H1, H2. destruct (wr_run (by_value ops m) v) as [l v2]. cbn [fst snd] in *. subst v2. exists (map snd l), r', l, v'. split; [exact H1|]. split; [reflexivity|]. split; [reflexivity|exact (proj1 H3)].
Qed.
