(** Arbitrary histories of Writer calls on arbitrary sinks. *)
From Verif Require Import Base.Bytes Base.BytesFacts Model.GoIO Model.GoStd Model.Wire Model.Nar
  Model.NarWriter Spec.WireSpec Spec.NarSpec Spec.NarWHist
  Proof.WireFacts Proof.WireProps Proof.NarUtilProps Proof.NarWriterSound.
Ltac Zify.zify_post_hook ::= idtac.

(** * The file being written *)
Definition cur_inv (cur : option (header * bytes)) (r : wr) : Prop :=
  match wr_gor r with
  | WFirst => cur = None /\ wr_cw r = CWNil
  | WGone => True
  | WWait h up => exists c, cur = Some (h, c) /\
      (hd_type h = bs "regular" -> (0 <= hd_size h < 2 ^ 63)%Z ->
       wr_cw r = CWMain (BW (lenN c) (Z.to_N (hd_size h)) false) /\ (lenN c <= Z.to_N (hd_size h))%N) /\
      (hd_type h = bs "symlink" \/ hd_type h = bs "directory" ->
       exists b, wr_cw r = CWDummy (BW 0 0 false) b /\ plan b = [])
  end.
Lemma emit_head_cw h cw w cw' w' : emit_head h cw w = (None, (cw', w')) ->
  (hd_type h = bs "regular" -> cw' = CWMain (BW 0 (u64_of_Z (hd_size h)) false)) /\
  (hd_type h = bs "symlink" \/ hd_type h = bs "directory" -> exists b, cw' = CWDummy (BW 0 0 false) b /\ plan b = []).
Proof.
  unfold emit_head. destruct (wstrs _ w) as [[e|] w1]; [discriminate|].
  destruct (beq_spec (hd_type h) TypeRegular) as [T|T].
  - match goal with |- context [if hd_exec h then ?a else ?b] => destruct (if hd_exec h then a else b) as [[e|] w2] end; [discriminate|].
    destruct (WriteString w2 _) as [[e|] w3]; [discriminate|].
    unfold NewBytesWriter. destruct (WriteUint64 w3 _) as [[e|] w4]; [discriminate|].
    intros H. assert (cw' = CWMain (BW 0 (u64_of_Z (hd_size h)) false)) by congruence. subst. split; [auto|].
    rewrite T. intros [D|D]; discriminate D.
  - match goal with |- context [if beq ?x ?y then ?a else ?b] => destruct (if beq x y then a else b) as [[e|] w2] end; [discriminate|].
    destruct (beq (hd_type h) TypeSymlink || beq (hd_type h) TypeDirectory) eqn:E.
    + change (NewBytesWriter (Sink [] []) 0) with (Ok (BW 0 0 false), Sink (le64 0) []).
      intros H. split; [contradiction|]. intros _.
      assert (cw' = CWDummy (BW 0 0 false) (Sink (le64 0) [])) by congruence. subst. eexists. split; reflexivity.
    + intros H. split; [contradiction|]. intros [D|D]; rewrite D in E; discriminate E.
Qed.
Lemma handle_cw up : forall cur h cw w cur' up' cw' w', handle cur up h cw w = HWait cur' up' cw' w' ->
  cur' = h /\ exists w1, emit_head h cw w1 = (None, (cw', w')).
Proof.
  assert (D : forall cur up h cw w cur' up' cw' w', descend cur up h cw w = HWait cur' up' cw' w' ->
    cur' = h /\ exists w1, emit_head h cw w1 = (None, (cw', w'))).
  { intros cur up0 h cw w cur' up' cw' w'. unfold descend. destruct (negb _); [discriminate|].
    destruct (negb _); [discriminate|]. destruct (wstrs _ w) as [[e|] w1]; [discriminate|].
    destruct (emit_head h cw w1) as [[e|] [cw2 w2]] eqn:E; [discriminate|]. intros H; inversion H; subst. eauto. }
  induction up as [|p up IH]; intros cur h cw w cur' up' cw' w'; rewrite handle_eq;
    (destruct (negb _); [discriminate|]); (destruct (goes_up _); [|apply D]);
    destruct (WriteString w _) as [[e|] w1]; try discriminate.
  destruct (WriteString w1 _) as [[e|] w2]; [discriminate|]. apply IH.
Qed.
Definition opt_list {A} (o : option A) : list A := match o with Some x => [x] | None => [] end.

Lemma step_header cur r h x r' : cur_inv cur r -> wr_closed r = false -> WriteHeader h r = (x, r') ->
  (x = WOk -> Forall received_all (opt_list cur) /\ cur_inv (Some (h, [])) r' /\ wr_closed r' = false) /\
  (x <> WOk -> (hd_Validate h <> Ok tt -> r' = r) /\ cur_inv cur r').
Proof.
  intros Hi Ho. unfold WriteHeader.
  destruct (hd_Validate h) as [[]|e|m] eqn:HV.
  2,3: intros H; inversion H; subst; split; [discriminate|]; intros _; split; auto.
  rewrite Ho. unfold cur_inv in Hi. destruct (wr_gor r) as [|h0 up|] eqn:Hg.
  - destruct Hi as [-> Hcw].
    destruct (negb _); [intros H; inversion H; subst; split; [discriminate|]; intros _; split; [congruence|exact I]|].
    destruct (emit_head h (wr_cw r) (wr_sink r)) as [[e|] [cw w]] eqn:E; intros H; inversion H; subst.
    + split; [discriminate|]. intros _. split; [congruence|exact I].
    + split; [|congruence]. intros _. split; [constructor|]. split; [|reflexivity].
      apply emit_head_cw in E. destruct E as [E1 E2]. unfold cur_inv. cbn [wr_gor wr_cw]. exists [].
      split; [reflexivity|]. split; [|exact E2]. intros T Hs. rewrite <- u64_small by exact Hs. split; [exact (E1 T)|cbn; lia].
  - destruct Hi as (c & -> & Hi1 & Hi2).
    destruct (cw_close (wr_cw r) (wr_sink r)) as [[[e|]|] [cw w]] eqn:EC.
    1, 3: intros H; inversion H; subst; split; [discriminate|]; intros _; split; try congruence;
      try (unfold cur_inv; rewrite Hg); try exact I; eauto.
    destruct (handle h0 up h cw w) as [e cw2 w2|cur' up' cw2 w2] eqn:EH; intros H; inversion H; subst.
    + split; [discriminate|]. intros _. split; [congruence|exact I].
    + split; [|congruence]. intros _. apply handle_cw in EH. destruct EH as (-> & w1 & E).
      apply emit_head_cw in E. destruct E as [E1 E2]. split; [|split; [|reflexivity]].
      * constructor; [|constructor]. intros T Hs. cbn [fst snd] in *. destruct (Hi1 T Hs) as [Hcw Hle].
        rewrite Hcw in EC. cbn [cw_close] in EC. unfold bw_close in EC. cbn [bw_padded bw_written bw_total] in EC.
        destruct (N.eqb_spec (lenN c) (Z.to_N (hd_size h0))) as [En|En]; cbn [negb] in EC; [unfold lenN in En; lia|discriminate].
      * unfold cur_inv. cbn [wr_gor wr_cw]. exists []. split; [reflexivity|]. split; [|exact E2].
        intros T Hs. rewrite <- u64_small by exact Hs. split; [exact (E1 T)|cbn; lia].
  - intros H; inversion H; subst. split; [discriminate|]. intros _. split; [congruence|].
    unfold cur_inv. rewrite Hg. exact I.
Qed.
Lemma wwrite_spec' p w : exists k e w', wwrite p w = (k, e, w') /\ k <= length p /\ (plan w = [] -> plan w' = []).
Proof.
  unfold wwrite. destruct (plan w) as [|[k|] pl]; eexists _, _, _; (split; [reflexivity|]); (split; [lia|]); auto; discriminate.
Qed.
Definition extend (cur : option (header * bytes)) (b : bytes) : option (header * bytes) :=
  match cur with Some (h, c) => Some (h, c ++ b) | None => None end.
Lemma step_write cur r p n x r' : cur_inv cur r -> (lenN p < 2 ^ 63)%N -> wr_Write p r = ((n, x), r') ->
  cur_inv (extend cur (firstn n p)) r' /\ wr_closed r' = wr_closed r /\ wr_gor r' = wr_gor r.
Proof.
  intros Hi Hl HW.
  assert (Hs : wr_closed r' = wr_closed r /\ wr_gor r' = wr_gor r).
  { unfold wr_Write in HW. destruct (wr_cw r); [inversion HW; auto|..]; destruct (bw_write _ _ _) as [[? ?] [? ?]]; inversion HW; auto. }
  split; [|exact Hs]. destruct Hs as [_ Hs]. unfold cur_inv in *. rewrite Hs.
  destruct (wr_gor r) as [|h up|] eqn:Hg; [|clear Hs|exact I].
  { destruct Hi as [-> Hcw]. split; [reflexivity|]. unfold wr_Write in HW. rewrite Hcw in HW. inversion HW; subst. exact Hcw. }
  destruct Hi as (c & -> & Hi1 & Hi2). exists (c ++ firstn n p). split; [reflexivity|]. split.
  - intros T Hsz. destruct (Hi1 T Hsz) as [Hcw Hle]. unfold wr_Write in HW. rewrite Hcw in HW.
    unfold bw_write in HW. cbn [bw_total bw_written bw_padded] in HW. rewrite N.mod_small in HW by lia.
    destruct (N.ltb_spec (Z.to_N (hd_size h)) (lenN c + lenN p)).
    { inversion HW; subst. cbn [firstn wr_cw]. rewrite app_nil_r. auto. }
    destruct (wwrite_spec' p (wr_sink r)) as (k & e & w' & W & Hk & _). rewrite W in HW. inversion HW; subst. cbn [wr_cw].
    assert (E : lenN (c ++ firstn n p) = (lenN c + N.of_nat n)%N).
    { unfold lenN. rewrite app_length, firstn_length. lia. }
    rewrite E. unfold lenN in *. rewrite N.mod_small by lia. split; [reflexivity|lia].
  - intros T. destruct (Hi2 T) as (b & Hcw & Hpl). unfold wr_Write in HW. rewrite Hcw in HW.
    unfold bw_write in HW. cbn [bw_total bw_written bw_padded] in HW. rewrite N.mod_small in HW by lia.
    destruct (N.ltb_spec 0 (0 + lenN p)); [inversion HW; subst; cbn [wr_cw]; eauto|].
    assert (p = []) as -> by (destruct p; [reflexivity|unfold lenN in *; cbn [length] in *; lia]).
    unfold wwrite in HW. rewrite Hpl in HW. inversion HW; subst. cbn [wr_cw]. eexists. split; reflexivity.
Qed.
Lemma close_files l : forall cur, (forall op x, In (op, x) l -> match op, x with WHeader _, SHeader WOk => False | WBytes p, SWrote n _ => True | _, _ => True end) ->
  exists t, files cur l = match cur with Some (h, c) => [(h, c ++ t)] | None => [] end.
Proof.
  induction l as [|[op x] l IH]; intros cur H.
  - cbn [files]. destruct cur as [[h c]|]; [exists []; rewrite app_nil_r; reflexivity|exists []; reflexivity].
  - assert (H' : forall op x, In (op, x) l -> match op, x with WHeader _, SHeader WOk => False | WBytes p, SWrote n _ => True | _, _ => True end)
      by (intros; apply H; right; assumption).
    pose proof (H op x (or_introl eq_refl)) as H0.
    destruct op as [h0|p|], x as [y|n y|y]; cbn [files]; try (apply (IH cur H')).
    + destruct y; [contradiction|apply (IH cur H')..].
    + destruct (IH (match cur with Some (h, c) => Some (h, c ++ firstn n p) | None => None end) H') as (t & ->).
      destruct cur as [[h c]|]; [|exists []; reflexivity]. exists (firstn n p ++ t). rewrite app_assoc. reflexivity.
Qed.
(** Once closed or failed, no header is accepted any more. *)
Lemma dead_run ops : forall r l r', wr_closed r = true \/ wr_gor r = WGone -> wr_run ops r = (l, r') ->
  forall op x, In (op, x) l -> match op, x with WHeader _, SHeader WOk => False | WBytes p, SWrote n _ => True | _, _ => True end.
Proof.
  induction ops as [|op ops IH]; intros r l r' Hd; cbn [wr_run].
  - intros H; inversion H; subst. intros op x [].
  - destruct (wr_step op r) as [s r1] eqn:E1. destruct (wr_run ops r1) as [l1 r2] eqn:E2. intros H; inversion H; subst.
    assert (Hd1 : (wr_closed r1 = true \/ wr_gor r1 = WGone) /\ match op, s with WHeader _, SHeader WOk => False | _, _ => True end).
    { destruct op as [h|p|]; cbn [wr_step] in E1.
      - unfold WriteHeader in E1. destruct (hd_Validate h); [|inversion E1; subst; auto..].
        destruct (wr_closed r) eqn:Ec; [inversion E1; subst; rewrite Ec; auto|].
        destruct Hd as [Hd|Hd]; [discriminate|]. rewrite Hd in E1. inversion E1; subst. auto.
      - destruct (wr_Write p r) as [[n x] r3] eqn:EW. inversion E1; subst. split; [|exact I].
        unfold wr_Write in EW. destruct (wr_cw r); [inversion EW; subst; auto|..];
          destruct (bw_write _ _ _) as [[? ?] [? ?]]; inversion EW; subst; auto.
      - unfold wr_Close in E1. destruct (wr_closed r) eqn:Ec; [inversion E1; subst; auto|].
        destruct Hd as [Hd|Hd]; [discriminate|]. rewrite Hd in E1. inversion E1; subst. auto. }
    destruct Hd1 as [Hd1 Hs]. intros op' x [Hin|Hin]; [|eapply IH; eauto].
    inversion Hin; subst. destruct op', x; auto.
Qed.

Lemma files_some l : forall f, files (Some f) l <> [].
Proof.
  induction l as [|[op x] l IH]; intros [h c]; [discriminate|].
  destruct op as [h0|p|], x as [y|n y|y]; cbn [files]; try apply IH. destruct y; [discriminate|apply IH..].
Qed.
Lemma run_files ops : forall cur r l r', cur_inv cur r -> wr_closed r = false -> short_writes ops ->
  wr_run ops r = (l, r') ->
  (exists l1 f, files cur l = l1 ++ f /\ length f <= 1 /\ Forall received_all l1) /\
  (no_failed_header l -> wr_gor r <> WGone ->
     exists l1 cur', files cur l = l1 ++ opt_list cur' /\ Forall received_all l1 /\
       (cur' = None -> files cur l = []) /\ cur_inv cur' r' /\
       wr_closed r' = false /\ wr_gor r' <> WGone).
Proof.
  assert (K : forall cur (l : list (wr_op * wr_seen)) r ops r', wr_closed r = true \/ wr_gor r = WGone ->
    wr_run ops r = (l, r') -> exists l1 f, files cur l = l1 ++ f /\ length f <= 1 /\ Forall received_all l1).
  { intros cur l r ops0 r' Hd E. destruct (close_files l cur (dead_run _ _ _ _ Hd E)) as (t & ->).
    exists []. eexists. split; [reflexivity|]. split; [|constructor]. destruct cur as [[h c]|]; cbn; lia. }
  induction ops as [|op ops IH]; intros cur r l r' Hi Ho Hs; cbn [wr_run].
  - intros H; inversion H; subst. cbn [files]. split.
    + exists [], (opt_list cur). split; [destruct cur; reflexivity|]. split; [destruct cur; cbn; lia|constructor].
    + intros _ Hg. exists [], cur. split; [destruct cur; reflexivity|]. split; [constructor|]. split; [intros ->; reflexivity|]. auto.
  - destruct (wr_step op r) as [s r1] eqn:E1. destruct (wr_run ops r1) as [l1 r2] eqn:E2. intros H; inversion H; subst l r2.
    assert (Hs' : short_writes ops) by (intros p Hp; apply Hs; right; exact Hp).
    destruct op as [h|p|]; cbn [wr_step] in E1.
    + destruct (WriteHeader h r) as [x r3] eqn:EH. assert (s = SHeader x) by congruence. assert (r3 = r1) by congruence. subst s r3.
      destruct (step_header _ _ _ _ _ Hi Ho EH) as [S1 S2].
      assert (D : x = WOk \/ x <> WOk) by (destruct x; [left; reflexivity|right; discriminate..]).
      destruct D as [->|D].
      * destruct (S1 eq_refl) as (R & Hi1 & Ho1). cbn [files].
        assert (Hg1 : wr_gor r1 <> WGone).
        { unfold WriteHeader in EH. destruct (hd_Validate h); [|discriminate..]. rewrite Ho in EH.
          destruct (wr_gor r); [| |discriminate].
          - destruct (negb _); [discriminate|]. destruct (emit_head _ _ _) as [[e|] [? ?]]; [discriminate|]. inversion EH; subst. discriminate.
          - destruct (cw_close _ _) as [[[e|]|] [? ?]]; [discriminate| |discriminate].
            destruct (handle _ _ _ _ _); inversion EH; subst. discriminate. }
        destruct (IH _ _ _ _ Hi1 Ho1 Hs' E2) as [(a & f & Eaf & Hf & Ha) I2]. split.
        -- rewrite Eaf. exists (opt_list cur ++ a), f. rewrite <- app_assoc. split; [reflexivity|]. split; [exact Hf|]. apply Forall_app. auto.
        -- intros Hn _. inversion Hn as [|? ? _ Hn']; subst. destruct (I2 Hn' Hg1) as (b & c' & Eb & Hb & Hnn & Rest).
           assert (Hc' : c' <> None) by (intros E; apply (files_some l1 (h, []) (Hnn E))).
           rewrite Eb. exists (opt_list cur ++ b), c'. rewrite <- app_assoc. split; [reflexivity|].
           split; [apply Forall_app; auto|]. split; [congruence|exact Rest].
      * destruct (S2 D) as (V & Hi1).
        assert (F : files cur ((WHeader h, SHeader x) :: l1) = files cur l1) by (destruct x; [congruence|reflexivity..]).
        rewrite F.
        assert (C : r1 = r \/ wr_closed r1 = true \/ wr_gor r1 = WGone).
        { unfold WriteHeader in EH. destruct (hd_Validate h) as [[]|e|m] eqn:HV; [|left; congruence..]. rewrite Ho in EH.
          destruct (wr_gor r).
          - destruct (negb _); [inversion EH; auto|]. destruct (emit_head _ _ _) as [[e|] [? ?]]; inversion EH; subst; auto; congruence.
          - destruct (cw_close _ _) as [[[e|]|] [? ?]]; [inversion EH; auto| |inversion EH; auto].
            destruct (handle _ _ _ _ _); inversion EH; subst; auto; congruence.
          - inversion EH; auto. }
        split.
        -- destruct C as [->|C]; [apply (IH _ _ _ _ Hi Ho Hs' E2)|eapply K; eauto].
        -- intros Hn Hg. inversion Hn as [|? ? Hx Hn']; subst. destruct Hx as [Hx|Hx]; [congruence|].
           rewrite (V Hx) in *. apply (IH _ _ _ _ Hi Ho Hs' E2); auto.
    + destruct (wr_Write p r) as [[n x] r3] eqn:EW. assert (s = SWrote n x) by congruence. assert (r3 = r1) by congruence. subst s r3.
      destruct (step_write _ _ _ _ _ _ Hi (Hs _ (or_introl eq_refl)) EW) as (Hi1 & C1 & G1). cbn [files].
      rewrite Ho in C1. destruct (IH _ _ _ _ Hi1 C1 Hs' E2) as [I1 I2]. split; [exact I1|].
      intros Hn Hg. inversion Hn; subst. apply I2; [assumption|congruence].
    + destruct (wr_Close r) as [x r3] eqn:EC. assert (s = SClosed x) by congruence. assert (r3 = r1) by congruence. subst s r3.
      cbn [files]. split; [|intros Hn; inversion Hn as [|? ? Hx _]; destruct Hx].
      eapply K; [|exact E2]. left. unfold wr_Close in EC. rewrite Ho in EC.
      destruct (wr_gor r); [inversion EC; reflexivity| |inversion EC; reflexivity].
      destruct (cw_close _ _) as [[[e|]|] [? ?]]; [inversion EC; reflexivity| |inversion EC; reflexivity].
      destruct (finish _ _) as [? ?]. inversion EC; reflexivity.
Qed.

(** * C35 *)
Lemma NewWriter_inv w0 r0 w : NewWriter w0 = (Ok r0, w) -> cur_inv None r0 /\ wr_closed r0 = false /\ wr_gor r0 <> WGone.
Proof.
  intros H. apply NewWriter_ok in H. destruct H as [-> _]. cbn. repeat split. discriminate.
Qed.
Lemma earlier_files w0 r0 w ops l r l1 f l2 : NewWriter w0 = (Ok r0, w) -> short_writes ops ->
  wr_run ops r0 = (l, r) -> files None l = l1 ++ f :: l2 -> l2 <> [] -> received_all f.
Proof.
  intros HN Hs HR HF Hl. destruct (NewWriter_inv _ _ _ HN) as (Hi & Ho & _).
  destruct (run_files _ _ _ _ _ Hi Ho Hs HR) as [(a & b & E & Hb & Ha) _].
  rewrite HF in E. rewrite Forall_forall in Ha. apply Ha. clear - E Hb Hl.
  revert a E. induction l1 as [|x l1 IH]; intros a E.
  - destruct a as [|y a]; [|injection E as -> _; left; reflexivity].
    cbn [app] in E. subst b. destruct l2; [congruence|]. cbn [length] in Hb. lia.
  - destruct a as [|y a].
    + cbn [app] in E. subst b. cbn [length] in Hb. rewrite app_length in Hb. cbn [length] in Hb. lia.
    + injection E as _ E. right. apply IH. exact E.
Qed.
Lemma close_files_done w0 r0 w ops l r r' : NewWriter w0 = (Ok r0, w) -> short_writes ops ->
  wr_run ops r0 = (l, r) -> no_failed_header l -> wr_Close r = (WOk, r') -> Forall received_all (files None l).
Proof.
  intros HN Hs HR HF HC. destruct (NewWriter_inv _ _ _ HN) as (Hi & Ho & Hg).
  destruct (run_files _ _ _ _ _ Hi Ho Hs HR) as [_ R]. destruct (R HF Hg) as (l1 & cur & -> & Hl & _ & Hi' & Ho' & Hg').
  apply Forall_app. split; [exact Hl|]. unfold wr_Close in HC. rewrite Ho' in HC. unfold cur_inv in Hi'.
  destruct (wr_gor r) as [|h up|]; [discriminate| |congruence]. destruct Hi' as (c & -> & Hi1 & _).
  constructor; [|constructor]. intros T Hsz. cbn [fst snd] in *. destruct (Hi1 T Hsz) as [Hcw Hle]. rewrite Hcw in HC.
  cbn [cw_close] in HC. unfold bw_close in HC. cbn [bw_padded bw_written bw_total] in HC.
  destruct (N.eqb_spec (lenN c) (Z.to_N (hd_size h))) as [En|En]; cbn [negb] in HC; [unfold lenN in En; lia|discriminate].
Qed.
Lemma last_file l1 cur l2 (f : header * bytes) : l1 ++ opt_list cur = l2 ++ [f] -> cur = Some f \/ cur = None.
Proof.
  destruct cur as [g|]; [|auto]. cbn [opt_list]. intros E. apply app_inj_tail in E. destruct E as [_ ->]. auto.
Qed.
Lemma too_long w0 r0 w ops l r l1 h c p : NewWriter w0 = (Ok r0, w) -> short_writes ops ->
  wr_run ops r0 = (l, r) -> no_failed_header l -> files None l = l1 ++ [(h, c)] -> (lenN p < 2 ^ 63)%N ->
  (hd_type h = bs "regular" /\ (0 <= hd_size h < 2 ^ 63)%Z /\ (hd_size h < Z.of_nat (length c + length p))%Z) \/
  ((hd_type h = bs "symlink" \/ hd_type h = bs "directory") /\ p <> []) ->
  exists e, wr_Write p r = ((0, WErr e), r).
Proof.
  intros HN Hs HR HF HL Hp Hx. destruct (NewWriter_inv _ _ _ HN) as (Hi & Ho & Hg).
  destruct (run_files _ _ _ _ _ Hi Ho Hs HR) as [_ R]. destruct (R HF Hg) as (l2 & cur & E & Hl & Hnn & Hi' & Ho' & Hg').
  unfold cur_inv in Hi'. destruct (wr_gor r) as [|h' up|] eqn:Eg; [| |congruence].
  - destruct Hi' as [-> _]. exfalso. rewrite (Hnn eq_refl) in HL. destruct l1; discriminate.
  - destruct Hi' as (c' & -> & Hi1 & Hi2). rewrite HL in E. cbn [opt_list] in E. apply app_inj_tail in E.
    destruct E as [_ E]. injection E as <- <-. unfold wr_Write. destruct Hx as [(T & Hsz & Hlen)|(T & Hne)].
    + destruct (Hi1 T Hsz) as [Hcw Hle]. rewrite Hcw. unfold bw_write. cbn [bw_total bw_written bw_padded].
      rewrite N.mod_small by lia. destruct (N.ltb_spec (Z.to_N (hd_size h)) (lenN c + lenN p)); [|unfold lenN in *; lia].
      eexists. f_equal. rewrite <- Hcw. destruct r; reflexivity.
    + destruct (Hi2 T) as (b & Hcw & _). rewrite Hcw. unfold bw_write. cbn [bw_total bw_written bw_padded].
      rewrite N.mod_small by lia. destruct (N.ltb_spec 0 (0 + lenN p)).
      * eexists. f_equal. rewrite <- Hcw. destruct r; reflexivity.
      * destruct p; [congruence|]. unfold lenN in *. cbn [length] in *. lia.
Qed.

(** * C37: a failing sink is noticed by the call that hits it *)
Lemma quiet_refl w : quiet w w.
Proof. exists []. split; [reflexivity|constructor]. Qed.
Lemma quiet_trans a b c : quiet a b -> quiet b c -> quiet a c.
Proof.
  intros (u & E1 & F1) (v & E2 & F2). exists (u ++ v). rewrite E1, E2, app_assoc. split; [reflexivity|].
  apply Forall_app. auto.
Qed.
Lemma wwrite_quiet p w n w' : wwrite p w = (n, None, w') -> quiet w w'.
Proof.
  unfold wwrite. destruct (plan w) as [|[k|] pl] eqn:E; intros H; inversion H; subst.
  - exists []. rewrite E. split; [reflexivity|constructor].
  - exists [None]. rewrite E. split; [reflexivity|]. repeat constructor.
Qed.
Lemma wwrite__quiet p w w' : wwrite_ p w = (None, w') -> quiet w w'.
Proof. unfold wwrite_. destruct (wwrite p w) as [[n e] w1] eqn:E. intros H; inversion H; subst. eapply wwrite_quiet; eauto. Qed.
Lemma writePadding_quiet w n w' : writePadding w n = (None, w') -> quiet w w'.
Proof. unfold writePadding. destruct (N.eqb _ 0); [intros H; inversion H; apply quiet_refl|apply wwrite__quiet]. Qed.
Lemma WriteString_quiet w x w' : WriteString w x = (None, w') -> quiet w w'.
Proof.
  unfold WriteString, WriteUint64. destruct (wwrite_ _ w) as [[e|] w1] eqn:E1; [discriminate|].
  destruct (wwrite_ x w1) as [[e|] w2] eqn:E2; [discriminate|]. intros E3.
  apply wwrite__quiet in E1, E2. apply writePadding_quiet in E3. eauto using quiet_trans.
Qed.
Lemma wstrs_quiet l : forall w w', wstrs l w = (None, w') -> quiet w w'.
Proof.
  induction l as [|x l IH]; intros w w'; cbn [wstrs]; [intros H; inversion H; apply quiet_refl|].
  destruct (WriteString w x) as [[e|] w1] eqn:E; [discriminate|]. intros H. apply WriteString_quiet in E. apply IH in H.
  eauto using quiet_trans.
Qed.
Lemma emit_head_quiet h cw w cw' w' : emit_head h cw w = (None, (cw', w')) -> quiet w w'.
Proof.
  unfold emit_head. destruct (wstrs _ w) as [[e|] w1] eqn:E1; [discriminate|]. apply wstrs_quiet in E1.
  destruct (beq (hd_type h) TypeRegular).
  - match goal with |- context [if hd_exec h then ?a else ?b] => destruct (if hd_exec h then a else b) as [[e|] w2] eqn:E2 end; [discriminate|].
    assert (Q2 : quiet w1 w2).
    { destruct (hd_exec h); [|inversion E2; apply quiet_refl].
      destruct (WriteString w1 _) as [[e|] w3] eqn:E3; [discriminate|]. apply WriteString_quiet in E3.
      apply (WriteString_quiet w3 []) in E2. eauto using quiet_trans. }
    destruct (WriteString w2 _) as [[e|] w3] eqn:E3; [discriminate|]. apply WriteString_quiet in E3.
    unfold NewBytesWriter, WriteUint64. destruct (wwrite_ _ w3) as [[e|] w4] eqn:E4; [discriminate|].
    apply wwrite__quiet in E4. intros H; inversion H; subst. eauto using quiet_trans.
  - match goal with |- context [if beq ?x ?y then ?a else ?b] => destruct (if beq x y then a else b) as [[e|] w2] eqn:E2 end; [discriminate|].
    assert (Q2 : quiet w1 w2) by (destruct (beq _ TypeSymlink); [apply wstrs_quiet in E2; exact E2|inversion E2; apply quiet_refl]).
    destruct (_ || _).
    + change (NewBytesWriter (Sink [] []) 0) with (Ok (BW 0 0 false), Sink (le64 0) []).
      intros H; inversion H; subst. eauto using quiet_trans.
    + intros H; inversion H; subst. eauto using quiet_trans.
Qed.
Lemma cw_close_quiet cw w cw' w' : cw_close cw w = (Some None, (cw', w')) -> quiet w w'.
Proof.
  destruct cw as [|bw|bw b]; cbn [cw_close]; [discriminate|..].
  - unfold bw_close. destruct (bw_padded bw); [intros H; inversion H; apply quiet_refl|].
    destruct (negb _); [discriminate|]. destruct (writePadding _ _) as [[e|] w1] eqn:E; [discriminate|].
    intros H; inversion H; subst. eapply writePadding_quiet; eauto.
  - destruct (bw_close bw b) as [e [bw' b']]. intros H; inversion H; subst. apply quiet_refl.
Qed.
Lemma handle_quiet up : forall cur h cw w cur' up' cw' w', handle cur up h cw w = HWait cur' up' cw' w' -> quiet w w'.
Proof.
  assert (D : forall cur up h cw w cur' up' cw' w', descend cur up h cw w = HWait cur' up' cw' w' -> quiet w w').
  { intros cur up0 h cw w cur' up' cw' w'. unfold descend. destruct (negb _); [discriminate|].
    destruct (negb _); [discriminate|]. destruct (wstrs _ w) as [[e|] w1] eqn:E1; [discriminate|].
    destruct (emit_head h cw w1) as [[e|] [cw2 w2]] eqn:E; [discriminate|]. intros H; inversion H; subst.
    apply wstrs_quiet in E1. apply emit_head_quiet in E. eauto using quiet_trans. }
  induction up as [|p up IH]; intros cur h cw w cur' up' cw' w'; rewrite handle_eq;
    (destruct (negb _); [discriminate|]); (destruct (goes_up _); [|apply D]);
    destruct (WriteString w _) as [[e|] w1] eqn:E1; try discriminate.
  destruct (WriteString w1 _) as [[e|] w2] eqn:E2; [discriminate|]. intros H. apply IH in H.
  apply WriteString_quiet in E1, E2. eauto using quiet_trans.
Qed.
Lemma finish_quiet up : forall w w', finish up w = (None, w') -> quiet w w'.
Proof.
  induction up as [|p up IH]; intros w w'; cbn [finish]; destruct (WriteString w _) as [[e|] w1] eqn:E1; try discriminate;
    apply WriteString_quiet in E1; [intros H; inversion H; subst; exact E1|].
  destruct (WriteString w1 _) as [[e|] w2] eqn:E2; [discriminate|]. apply WriteString_quiet in E2.
  intros H. apply IH in H. eauto using quiet_trans.
Qed.
Lemma WriteHeader_quiet h r r' : WriteHeader h r = (WOk, r') -> quiet (wr_sink r) (wr_sink r').
Proof.
  unfold WriteHeader. destruct (hd_Validate h); [|discriminate..]. destruct (wr_closed r); [discriminate|].
  destruct (wr_gor r) as [|cur up|]; [| |discriminate].
  - destruct (negb _); [discriminate|]. destruct (emit_head _ _ _) as [[e|] [cw w]] eqn:E; [discriminate|].
    intros H; inversion H; subst. eapply emit_head_quiet; eauto.
  - destruct (cw_close _ _) as [[[e|]|] [cw w]] eqn:E; [discriminate| |discriminate]. apply cw_close_quiet in E.
    destruct (handle _ _ _ _ _) eqn:E2; [discriminate|]. intros H; inversion H; subst. apply handle_quiet in E2.
    eauto using quiet_trans.
Qed.
Lemma Close_quiet r r' : wr_Close r = (WOk, r') -> quiet (wr_sink r) (wr_sink r').
Proof.
  unfold wr_Close. destruct (wr_closed r); [discriminate|]. destruct (wr_gor r) as [|cur up|]; [discriminate| |].
  - destruct (cw_close _ _) as [[[e|]|] [cw w]] eqn:E; [discriminate| |discriminate]. apply cw_close_quiet in E.
    destruct (finish up w) as [[e|] w2] eqn:E2; [discriminate|]. intros H; inversion H; subst. apply finish_quiet in E2.
    eauto using quiet_trans.
  - intros H; inversion H; subst. apply quiet_refl.
Qed.
Lemma Write_quiet p r n r' : wr_Write p r = ((n, WOk), r') -> quiet (wr_sink r) (wr_sink r').
Proof.
  unfold wr_Write. destruct (wr_cw r) as [|bw|bw b]; [discriminate|..].
  - unfold bw_write. destruct (N.ltb _ _); [discriminate|]. destruct (wwrite p (wr_sink r)) as [[k [e|]] w1] eqn:E; [discriminate|].
    intros H; inversion H; subst. eapply wwrite_quiet; eauto.
  - destruct (bw_write bw p b) as [[k e] [bw' b']]. intros H; inversion H; subst. apply quiet_refl.
Qed.
(** After a WriteHeader error other than Validate's the writer is dead, but Close says nil. *)
Lemma dead_after_error h r e r' : wr_closed r = false -> hd_Validate h = Ok tt -> WriteHeader h r = (WErr e, r') ->
  wr_Close r' = (WOk, WR (wr_sink r') WGone (wr_cw r') true) /\
  forall h2, hd_Validate h2 = Ok tt -> WriteHeader h2 r' = (WBlocked, r').
Proof.
  intros Ho HV HW. assert (G : wr_gor r' = WGone /\ wr_closed r' = false).
  { unfold WriteHeader in HW. rewrite HV, Ho in HW. destruct (wr_gor r) as [|cur up|]; [| |discriminate].
    - destruct (negb _); [inversion HW; auto|]. destruct (emit_head _ _ _) as [[e1|] [cw w]]; inversion HW; auto.
    - destruct (cw_close _ _) as [[[e1|]|] [cw w]]; [inversion HW; auto| |discriminate].
      destruct (handle _ _ _ _ _); inversion HW; auto. }
  destruct G as [G1 G2]. split.
  - unfold wr_Close. rewrite G2, G1. reflexivity.
  - intros h2 HV2. unfold WriteHeader. rewrite HV2, G2, G1. reflexivity.
Qed.
