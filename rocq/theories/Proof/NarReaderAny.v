(** The NAR reader on arbitrary input (C31-C34). *)
From Verif Require Import Base.Bytes Base.BytesFacts Model.GoIO Model.GoStd Model.Wire Model.Nar
  Model.NarReader Spec.WireSpec Spec.WireHist Spec.NarSpec Spec.NarHist
  Proof.WireFacts Proof.WireProps Proof.NarUtilProps Proof.NarReaderFacts.
Ltac Zify.zify_post_hook ::= idtac.

(** * C31 *)
Lemma step_err op r x r' e : rd_err r = Some e -> rd_step op r = (x, r') ->
  rd_err r' = Some e /\ (forall y, x = SNext y -> y = Err e /\ r' = r).
Proof.
  intros He. destruct op as [|n|]; cbn [rd_step].
  - unfold Next. rewrite He. intros H. injection H as <- <-. split; [exact He|].
    intros y Hy. injection Hy as <-. auto.
  - unfold rd_Read. destruct (rd_content r) as [br|].
    + destruct (br_read n br (rd_src r)) as [[b er] [br' s']]. intros H. injection H as <- <-.
      split; [exact He|discriminate].
    + intros H. injection H as <- <-. split; [exact He|discriminate].
  - unfold rd_Close. rewrite He. destruct (rd_closed r) eqn:Hc.
    + intros H. assert (r' = r) as -> by (destruct e; congruence). split; [exact He|].
      intros y Hy. destruct e; congruence.
    + destruct e; intros H; injection H as <- <-; split; try discriminate; try exact He;
        destruct (rd_gor r) as [|w st| |]; cbn [rd_err]; auto; destruct (run_all CRet st (rd_src r)); reflexivity.
Qed.
Lemma run_err ops : forall r l r' e, rd_err r = Some e -> rd_run ops r = (l, r') ->
  rd_err r' = Some e /\ forall y, In (SNext y) l -> y = Err e.
Proof.
  induction ops as [|op ops IH]; intros r l r' e He H; cbn [rd_run] in H.
  - injection H as <- <-. split; [exact He|]. intros y [].
  - destruct (rd_step op r) as [x r1] eqn:E1. destruct (rd_run ops r1) as [l1 r2] eqn:E2.
    injection H as <- <-. destruct (step_err _ _ _ _ _ He E1) as [He1 Hx].
    destruct (IH _ _ _ _ He1 E2) as [He2 Hl]. split; [exact He2|].
    intros y [Hy|Hy]; [|auto]. destruct (Hx y Hy) as [H _]. exact H.
Qed.
Lemma next_err r e r' : Next r = (Err e, r') -> rd_err r' = Some e.
Proof.
  unfold Next. destruct (rd_err r) as [e0|] eqn:E.
  - intros H. injection H as <- <-. exact E.
  - destruct (rd_closed r); [discriminate|].
    destruct (resume (rd_gor r) (rd_content r) (rd_src r)) as [[c st s|h w st ct s|e1 s] ct1].
    + discriminate.
    + destruct (PathIsLexicographicallyOrdered (rd_prev r) (hd_path h)); [discriminate|].
      intros H. injection H as <- <-. reflexivity.
    + intros H. injection H as <- <-. reflexivity.
Qed.
Lemma sticky ops r e r1 l r2 : Next r = (Err e, r1) -> rd_run ops r1 = (l, r2) ->
  (forall y, In (SNext y) l -> y = Err e) /\ Next r2 = (Err e, r2).
Proof.
  intros H1 H2. apply next_err in H1. destruct (run_err _ _ _ _ _ H1 H2) as [H3 H4].
  split; [exact H4|]. unfold Next. rewrite H3. reflexivity.
Qed.

(** * Yields *)
Section Inv.
(** [D]: paths of directories reported so far; [A]: paths that may be reported. *)
Variables (D A : bytes -> Prop).
Hypothesis HA : forall d n, D d -> IsValidNodeName n = true -> A (Join2 d n).
Definition fr_ok (f : frame) : Prop := D (f_path f).
Definition pc_ok (c : pc) : Prop :=
  match c with CNode p => A p | CLoop p => D p | CRet => True end.
Definition wait_ok (h : header) (w : wait) (ct : option bytes_reader) : Prop :=
  match w with
  | WDir p => p = hd_path h /\ hd_type h = bs "directory" /\ ct = None
  | WSym => hd_type h = bs "symlink" /\ ct = None
  | WReg => hd_type h = bs "regular" /\ (exists br, ct = Some br /\ hd_size h = Z.of_N (br_rem br))
  end /\ hd_fields h.
Definition yields (p : pstep) (s : src) : Prop :=
  match p with
  | PGo _ _ _ => False
  | PYield h w st ct s' => A (hd_path h) /\ Forall fr_ok st /\ wait_ok h w ct /\ fwd s' s /\ dlen s' + 24 <= dlen s
  | PStop e s' => fwd s' s
  end.
Definition step_ok (p : pstep) (s : src) : Prop :=
  match p with
  | PGo c st s' => pc_ok c /\ Forall fr_ok st /\ fwd s' s
  | _ => yields p s
  end.
Ltac anystep :=
  match goal with
  | |- context [expectString ?s ?x] =>
      let E := fresh "E" in let e := fresh "e" in let s1 := fresh "s" in
      let F := fresh "F" in let L := fresh "L" in
      destruct (expectString s x) as [e s1] eqn:E; apply expect_any in E; destruct E as (F & L & _);
      destruct e; [cbn [step_ok yields]; eauto 6 using fwd_trans|specialize (L eq_refl)]
  | |- context [tok ?s ?m] =>
      let E := fresh "E" in let e := fresh "t" in let s1 := fresh "s" in
      let F := fresh "F" in let L := fresh "L" in
      destruct (tok s m) as [[e|e] s1] eqn:E; apply tok_any in E; destruct E as (F & L & _);
      [specialize (L _ eq_refl)|cbn [step_ok yields]; eauto 6 using fwd_trans]
  end.
Lemma tok_bound s m t s' : tok s m = (inl t, s') -> (lenN t <= m)%N.
Proof.
  unfold tok, ReadString. destruct (ReadBytesFull s m) as [[x|e|w] s0] eqn:E; intros H; try discriminate H.
  assert (x = t) as <- by congruence. exact (C04_bounded _ _ _ _ E).
Qed.
Lemma reg_ok p n x : (n <= 2 ^ 63 - 1)%N -> wait_ok (Header p TypeRegular [] (Z.of_N n) x) WReg (Some (NewBytesReader n)).
Proof.
  intros Hn. split; [split; [reflexivity|]|left; split; [reflexivity|]; split; [cbn [hd_size]; lia|reflexivity]].
  exists (NewBytesReader n). split; [reflexivity|]. unfold NewBytesReader. cbn [br_rem hd_size].
  replace (n <? 2 ^ 63)%N with true by (symmetry; apply N.ltb_lt; lia). reflexivity.
Qed.
Lemma parse_head_ok p st s : A p -> Forall fr_ok st -> step_ok (parse_head p st s) s.
Proof.
  intros Hp Hst. unfold parse_head. anystep. anystep. anystep.
  assert (F2 : fwd s2 s) by eauto using fwd_trans.
  destruct (beq t (bs "regular")) eqn:T1.
  { anystep. destruct (beq t0 (bs "executable")).
    - destruct (ReadBytesFull s3 0) as [r s4] eqn:E4. apply rbf_any in E4. destruct E4 as (F5 & L5 & _).
      destruct r as [x|er|w]; [|cbn [step_ok yields]; eauto 6 using fwd_trans..].
      specialize (L5 _ eq_refl). anystep. destruct (negb (beq t1 (bs "contents"))); [cbn; eauto 6 using fwd_trans|].
      destruct (ReadBytes s5) as [r s6] eqn:E6. apply ReadBytes_any in E6. destruct E6 as (F7 & L7 & _).
      destruct r as [[n br]|er|w]; [|cbn [step_ok yields]; eauto 8 using fwd_trans..].
      specialize (L7 _ _ eq_refl). destruct L7 as (L7 & -> & _).
      destruct (2 ^ 63 - 1 <? n)%N eqn:Hn; cbn [step_ok yields]; [eauto 8 using fwd_trans|]. apply N.ltb_ge in Hn.
      cbn [hd_path]. split; [exact Hp|]. split; [exact Hst|]. split; [apply reg_ok; exact Hn|].
      split; [eauto 8 using fwd_trans|]. apply fwd_len in F7. lia.
    - destruct (negb (beq t0 (bs "contents"))); [cbn; eauto 6 using fwd_trans|].
      destruct (ReadBytes s3) as [r s6] eqn:E6. apply ReadBytes_any in E6. destruct E6 as (F7 & L7 & _).
      destruct r as [[n br]|er|w]; [|cbn [step_ok yields]; eauto 8 using fwd_trans..].
      specialize (L7 _ _ eq_refl). destruct L7 as (L7 & -> & _).
      destruct (2 ^ 63 - 1 <? n)%N eqn:Hn; cbn [step_ok yields]; [eauto 8 using fwd_trans|]. apply N.ltb_ge in Hn.
      cbn [hd_path]. split; [exact Hp|]. split; [exact Hst|]. split; [apply reg_ok; exact Hn|].
      split; [eauto 8 using fwd_trans|]. lia. }
  destruct (beq t (bs "symlink")) eqn:T2.
  { anystep. destruct (tok s3 pathLenMax) as [[t0|t0] s4] eqn:E4.
    2:{ apply tok_any in E4. destruct E4 as (F4 & _). cbn [step_ok yields]. eauto 8 using fwd_trans. }
    pose proof (tok_bound _ _ _ _ E4) as B4. apply tok_any in E4. destruct E4 as (F4 & L4 & _). specialize (L4 _ eq_refl).
    cbn [step_ok yields hd_path]. split; [exact Hp|]. split; [exact Hst|].
    split; [split; [split; reflexivity|right; left; repeat split; exact B4]|]. split; [eauto 8 using fwd_trans|lia]. }
  destruct (beq t (bs "directory")) eqn:T3.
  { cbn [step_ok yields hd_path]. split; [exact Hp|]. split; [exact Hst|]. split; [split; [repeat split|right; right; repeat split]|].
    split; [assumption|lia]. }
  unfold close_paren. destruct (beq t (bs ")")); cbn; auto.
Qed.
Lemma pstep1_ok c st s : pc_ok c -> Forall fr_ok st -> step_ok (pstep1 c st s) s.
Proof.
  intros Hc Hst. destruct c as [p|p|]; cbn [pstep1 pc_ok] in *.
  - apply parse_head_ok; assumption.
  - anystep. destruct (beq t (bs "entry")).
    + anystep. anystep. anystep. destruct (IsValidNodeName t0) eqn:V; cbn [negb]; [|cbn; eauto 8 using fwd_trans].
      anystep. cbn [step_ok pc_ok]. split; [auto|]. split; [constructor; [exact Hc|exact Hst]|].
      eauto 8 using fwd_trans.
    + destruct (beq t (bs ")")); cbn; auto.
  - destruct st as [|[p n] st]; [cbn; apply fwd_refl|]. inversion Hst; subst.
    anystep. destruct (beq n (bs ")")); cbn; auto.
Qed.
Lemma run_all_ok c st s : pc_ok c -> Forall fr_ok st -> yields (run_all c st s) s.
Proof.
  remember (dlen s + length st) as m eqn:Hm. revert c st s Hm.
  induction m as [m IH] using lt_wf_ind. intros c st s Hm Hc Hst. rewrite run_all_step.
  pose proof (pstep1_ok c st s Hc Hst) as H.
  destruct (pstep1 c st s) as [c' st' s'|h w st' ct s'|e s'] eqn:E; [|exact H..].
  destruct H as (H1 & H2 & H3). apply pstep1_go in E. destruct E as [_ E].
  specialize (IH (dlen s' + length st') ltac:(lia) c' st' s' eq_refl H1 H2).
  apply fwd_len in H3 as HL.
  destruct (run_all c' st' s') as [c2 st2 s2|h w st2 ct s2|e s2]; cbn [yields] in *; [exact IH| |eauto using fwd_trans].
  destruct IH as (I1 & I2 & I3 & I4 & I5). repeat (split; [eauto using fwd_trans|]). lia.
Qed.
End Inv.

Lemma br_close_fwd br s e br' s' : br_close br s = (e, (br', s')) -> fwd s' s.
Proof.
  intros H. destruct br as [len rem].
  destruct (br_close_pos len rem s _ _ eq_refl) as (er & b2 & s2 & H1 & H2 & _ & H3 & _).
  rewrite H in H1. injection H1 as <- <- <-.
  destruct H3 as [H3|H3]; apply flat_data in H3; destruct H3 as [H3 H4]; repeat split; eauto.
Qed.
Lemma br_read_fwd n br s b e br' s' : br_read n br s = (b, e, (br', s')) -> fwd s' s.
Proof.
  unfold br_read. destruct (lim_read n (br_rem br, s)) as [[b0 e0] [rem' s0]] eqn:E.
  intros H. injection H as <- <- <- <-.
  destruct (lim_read_spec _ _ _ _ _ _ _ _ _ eq_refl E) as (Hd & He & Heg & _).
  split; [exact He|]. split; [exact Heg|]. exists (lenN b0). rewrite Hd, ndrop_exact. reflexivity.
Qed.

(** The invariant of a reader that has returned the headers [hs]. *)
Definition dirs (hs : list header) (p : bytes) : Prop :=
  exists d, In d hs /\ hd_type d = bs "directory" /\ hd_path d = p.
Definition gor_ok (hs : list header) (g : gor) (ct : option bytes_reader) : Prop :=
  match g with
  | GFirst => hs = []
  | GWait w st => hs <> [] /\ Forall (fr_ok (dirs hs)) st /\
      match w with WDir p => dirs hs p | WReg => exists br, ct = Some br | WSym => True end
  | _ => True
  end.
Definition last_path (hs : list header) : bytes :=
  match rev hs with h :: _ => hd_path h | [] => [] end.
(** [rinv hs s0 r]: [r] was made from [s0] and has returned [hs]. *)
Definition rinv (hs : list header) (n0 : nat) (r : rd) : Prop :=
  24 * length hs + dlen (rd_src r) <= n0 /\ tree_like hs /\ in_order hs /\
  (rd_err r = None -> rd_prev r = last_path hs /\
    (rd_closed r = false -> gor_ok hs (rd_gor r) (rd_content r) /\ rd_gor r <> GExit /\ rd_gor r <> GBlocked)).

Lemma valid_name_iff n : IsValidNodeName n = true <-> ~ In "/"%byte n /\ ~ In x00 n.
Proof.
  unfold IsValidNodeName. rewrite andb_true_iff, !negb_true_iff, !contains_byte_false. reflexivity.
Qed.
Lemma in_order_snoc hs h : in_order hs ->
  (hs <> [] -> PathIsLexicographicallyOrdered (last_path hs) (hd_path h) = true) -> in_order (hs ++ [h]).
Proof.
  unfold last_path. induction hs as [|a hs IH]; intros H1 H2; [exact I|].
  destruct hs as [|b hs].
  - cbn. split; [apply H2; discriminate|exact I].
  - change ((a :: b :: hs) ++ [h]) with (a :: (b :: hs) ++ [h]). destruct H1 as [H1 H1'].
    change (in_order (a :: (b :: hs) ++ [h])) with
      (PathIsLexicographicallyOrdered (hd_path a) (hd_path b) = true /\ in_order ((b :: hs) ++ [h])).
    split; [exact H1|]. apply IH; [exact H1'|]. intros _. specialize (H2 ltac:(discriminate)).
    cbn [rev] in *. destruct (rev hs ++ [b]) as [|x y] eqn:E; [apply app_eq_nil in E; destruct E; discriminate|].
    exact H2.
Qed.
Lemma last_path_snoc hs h : last_path (hs ++ [h]) = hd_path h.
Proof. unfold last_path. rewrite rev_app_distr. reflexivity. Qed.
Lemma tree_like_snoc hs h : tree_like hs -> (hs = [] -> hd_path h = bs "/") ->
  (hs <> [] -> exists d n, dirs hs d /\ IsValidNodeName n = true /\ hd_path h = Join2 d n) ->
  tree_like (hs ++ [h]).
Proof.
  intros [H1 H2] H3 H4. split.
  - destruct hs as [|h0 hs]; cbn; auto.
  - intros l1 x l2 E Hl1. destruct l2 as [|y l2] using rev_ind.
    + apply app_inj_tail in E. destruct E as [<- <-]. destruct (H4 Hl1) as (d & n & (d0 & Hd1 & Hd2 & Hd3) & Hv & Hp).
      apply valid_name_iff in Hv. exists d0, n. rewrite Hd3. tauto.
    + clear IHl2. change (x :: l2 ++ [y]) with ((x :: l2) ++ [y]) in E. rewrite app_assoc in E.
      apply app_inj_tail in E. destruct E as [-> ->]. apply (H2 l1 x l2 eq_refl Hl1).
Qed.
Lemma dirs_snoc hs h p : dirs hs p -> dirs (hs ++ [h]) p.
Proof. intros (d & H1 & H2). exists d. split; [apply in_app_iff; auto|exact H2]. Qed.

(** What a resumed parser does. *)
Lemma resume_ok hs g ct s : gor_ok hs g ct -> g <> GExit -> g <> GBlocked ->
  yields (dirs hs) (fun p => (hs = [] /\ p = bs "/") \/
    (hs <> [] /\ exists d n, dirs hs d /\ IsValidNodeName n = true /\ p = Join2 d n))
    (fst (resume g ct s)) s.
Proof.
  set (A := fun p : bytes => _). intros Hg G1 G2. destruct g as [|w st| |]; try congruence; cbn [gor_ok resume] in *.
  - subst hs. cbn [fst]. apply run_all_ok.
    + intros d n (x & [] & _).
    + left. auto.
    + constructor.
  - destruct Hg as (Hne & Hst & Hw).
    assert (HA : forall d n, dirs hs d -> IsValidNodeName n = true -> A (Join2 d n)).
    { intros d n H1 H2. right. eauto 6. }
    assert (Htok : forall s1, fwd s1 s -> yields (dirs hs) A
      (let '(t, s) := tok s1 tokenLenMax in
       match t with
       | inr er => PStop er s
       | inl t => match close_paren t st s with PGo c st s => run_all c st s | r => r end
       end) s).
    { intros s1 F1. destruct (tok s1 tokenLenMax) as [[t|t] s2] eqn:E; apply tok_any in E; destruct E as (F & L & _).
      2:{ cbn. eauto using fwd_trans. }
      unfold close_paren. destruct (beq t (bs ")")); [|cbn; eauto using fwd_trans].
      assert (F2 : fwd s2 s) by eauto using fwd_trans. apply fwd_len in F2 as L2.
      pose proof (run_all_ok (dirs hs) A HA CRet st s2 I Hst) as H.
      destruct (run_all CRet st s2) as [c2 st2 s3|h w2 st2 ct2 s3|e s3]; cbn [yields] in *; [exact H| |eauto using fwd_trans].
      destruct H as (I1 & I2 & I3 & I4 & I5). repeat (split; [eauto using fwd_trans|]). lia. }
    destruct w as [| |p].
    + destruct Hw as (br & ->). destruct (br_close br s) as [e [br' s']] eqn:E. apply br_close_fwd in E.
      cbn [fst]. destruct e; [exact E|]. apply Htok. exact E.
    + cbn [fst]. apply Htok. apply fwd_refl.
    + cbn [fst]. apply run_all_ok; auto.
Qed.

Lemma next_inv hs n0 r x r' : rinv hs n0 r -> Next r = (x, r') ->
  (forall h, x = Ok h -> rinv (hs ++ [h]) n0 r') /\ ((forall h, x <> Ok h) -> rinv hs n0 r') /\
  (rd_closed r = false -> rd_closed r' = false /\ forall w, x <> Panic w).
Proof.
  intros (I1 & I2 & I3 & I4) H. unfold Next in H. destruct (rd_err r) as [e|] eqn:Herr.
  { injection H as <- <-. split; [discriminate|]. split; [|intros ->; split; congruence].
    intros _. split; [exact I1|]. split; [exact I2|]. split; [exact I3|]. rewrite Herr. discriminate. }
  destruct (I4 eq_refl) as [I5 I6]. destruct (rd_closed r) eqn:Hcl.
  { injection H as <- <-. split; [discriminate|]. split; [|discriminate].
    intros _. split; [exact I1|]. split; [exact I2|]. split; [exact I3|]. rewrite Hcl. auto. }
  destruct (I6 eq_refl) as (I7 & I8 & I9). pose proof (resume_ok hs _ _ (rd_src r) I7 I8 I9) as HY.
  destruct (resume (rd_gor r) (rd_content r) (rd_src r)) as [ps ct1]. cbn [fst] in HY.
  destruct ps as [c st s|h w st ct s|e s]; cbn [yields] in HY.
  - destruct HY.
  - destruct HY as (Y1 & Y2 & Y3 & Y4 & Y5).
    destruct (PathIsLexicographicallyOrdered (rd_prev r) (hd_path h)) eqn:Hord; injection H as <- <-.
    + split; [|split; [intros Hx; elim (Hx h); reflexivity|split; [reflexivity|discriminate]]].
      intros h' Hh'. injection Hh' as <-.
      assert (T : tree_like (hs ++ [h])).
      { apply tree_like_snoc; auto.
        - intros E. destruct Y1 as [[_ Y]|[Y _]]; [exact Y|contradiction].
        - intros E. destruct Y1 as [[Y _]|[_ Y]]; [contradiction|exact Y]. }
      split; [|split; [exact T|split]].
      * cbn [rd_src]. rewrite app_length. cbn [length]. lia.
      * apply in_order_snoc; [exact I3|]. intros _. rewrite <- I5. exact Hord.
      * intros _. cbn [rd_prev rd_closed rd_gor rd_content]. rewrite last_path_snoc. split; [reflexivity|].
        intros _. split; [|split; discriminate]. cbn [gor_ok].
        split; [intros E; apply app_eq_nil in E; destruct E; discriminate|].
        split; [eapply Forall_impl; [|exact Y2]; intros f Hf; apply dirs_snoc; exact Hf|].
        destruct w as [| |p]; [destruct Y3 as [(_ & br & -> & _) _]; eauto|exact I|]. destruct Y3 as [(-> & Y3 & _) _].
        exists h. split; [apply in_app_iff; right; left; reflexivity|]. auto.
    + split; [discriminate|]. split; [|split; [reflexivity|discriminate]].
      intros _. split; [cbn [rd_src]; lia|]. split; [exact I2|]. split; [exact I3|]. discriminate.
  - injection H as <- <-. split; [discriminate|]. split; [|split; [reflexivity|discriminate]].
    intros _. split; [cbn [rd_src]; apply fwd_len in HY; lia|]. split; [exact I2|]. split; [exact I3|]. discriminate.
Qed.
(** What a header says, and the reader behind it. *)
Lemma next_yield hs n0 r h r' : rinv hs n0 r -> Next r = (Ok h, r') ->
  hd_fields h /\ fin (rd_src r') = fin (rd_src r) /\
  (hd_type h = bs "regular" -> exists br, rd_content r' = Some br /\ hd_size h = Z.of_N (br_rem br)).
Proof.
  intros (I1 & I2 & I3 & I4) H. unfold Next in H. destruct (rd_err r) as [e|] eqn:Herr; [discriminate H|].
  destruct (I4 eq_refl) as [I5 I6]. destruct (rd_closed r) eqn:Hcl; [discriminate H|].
  destruct (I6 eq_refl) as (I7 & I8 & I9). pose proof (resume_ok hs _ _ (rd_src r) I7 I8 I9) as HY.
  destruct (resume (rd_gor r) (rd_content r) (rd_src r)) as [ps ct1]. cbn [fst] in HY.
  destruct ps as [c st s|h0 w st ct s|e s]; cbn [yields] in HY; [destruct HY| |discriminate H].
  destruct HY as (_ & _ & [Y3 Y3'] & (Y4 & _) & _).
  destruct (PathIsLexicographicallyOrdered (rd_prev r) (hd_path h0)); [|discriminate H].
  assert (h0 = h) as -> by congruence. assert (r' = RD s (GWait w st) None (hd_path h) ct false) as -> by congruence. cbn [rd_src rd_content].
  split; [exact Y3'|]. split; [exact Y4|]. intros T. destruct w as [| |p]; [destruct Y3 as (_ & Y3); exact Y3| |].
  - destruct Y3 as (T2 & _). rewrite T in T2. discriminate T2.
  - destruct Y3 as (_ & T2 & _). rewrite T in T2. discriminate T2.
Qed.
Lemma read_inv hs n0 r n b e r' : rinv hs n0 r -> rd_Read n r = (b, e, r') ->
  rinv hs n0 r' /\ rd_closed r' = rd_closed r /\ rd_gor r' = rd_gor r /\ rd_err r' = rd_err r.
Proof.
  intros (I1 & I2 & I3 & I4) H. unfold rd_Read in H. destruct (rd_content r) as [br|] eqn:Hct.
  - destruct (br_read n br (rd_src r)) as [[b0 e0] [br' s']] eqn:E. injection H as <- <- <-.
    apply br_read_fwd in E. apply fwd_len in E. split; [|auto].
    split; [cbn [rd_src]; lia|]. split; [exact I2|]. split; [exact I3|].
    cbn [rd_err rd_prev rd_closed rd_gor rd_content]. intros He. destruct (I4 He) as [I5 I6].
    split; [exact I5|]. intros Hc. destruct (I6 Hc) as (I7 & I8). split; [|exact I8].
    destruct (rd_gor r) as [|w st| |]; auto. destruct I7 as (J1 & J2 & J3). split; [exact J1|]. split; [exact J2|].
    destruct w; eauto.
  - injection H as <- <- <-. split; [|auto]. split; [exact I1|]. split; [exact I2|]. split; [exact I3|].
    rewrite Hct. exact I4.
Qed.
Lemma run_inv ops : forall hs n0 r l r', rinv hs n0 r -> rd_closed r = false -> no_close ops ->
  rd_run ops r = (l, r') -> rinv (hs ++ headers_of l) n0 r' /\ rd_closed r' = false /\
    (forall w, ~ In (SNext (Panic w)) l).
Proof.
  induction ops as [|op ops IH]; intros hs n0 r l r' Hi Hcl Hnc H; cbn [rd_run] in H.
  - injection H as <- <-. cbn [headers_of]. rewrite app_nil_r. auto.
  - destruct (rd_step op r) as [x r1] eqn:E1. destruct (rd_run ops r1) as [l1 r2] eqn:E2. injection H as <- <-.
    assert (Hnc' : no_close ops) by (intros Hin; apply Hnc; right; exact Hin).
    destruct op as [|n|]; cbn [rd_step] in E1.
    + destruct (Next r) as [y r1'] eqn:E. injection E1 as <- <-.
      destruct (next_inv _ _ _ _ _ Hi E) as (N1 & N2 & N3). destruct (N3 Hcl) as [N4 N5].
      destruct y as [h|e|w].
      * destruct (IH _ _ _ _ _ (N1 h eq_refl) N4 Hnc' E2) as (J1 & J2 & J3). cbn [headers_of].
        rewrite <- app_assoc in J1. split; [exact J1|]. split; [exact J2|].
        intros w [Hw|Hw]; [discriminate|exact (J3 w Hw)].
      * destruct (IH _ _ _ _ _ (N2 ltac:(discriminate)) N4 Hnc' E2) as (J1 & J2 & J3). cbn [headers_of].
        split; [exact J1|]. split; [exact J2|]. intros w [Hw|Hw]; [discriminate|exact (J3 w Hw)].
      * elim (N5 w). reflexivity.
    + destruct (rd_Read n r) as [[b e] r1'] eqn:E. injection E1 as <- <-.
      destruct (read_inv _ _ _ _ _ _ _ Hi E) as (N1 & N2 & _).
      destruct (IH _ _ _ _ _ N1 ltac:(congruence) Hnc' E2) as (J1 & J2 & J3). cbn [headers_of].
      split; [exact J1|]. split; [exact J2|]. intros w [Hw|Hw]; [discriminate|exact (J3 w Hw)].
    + elim Hnc. left. reflexivity.
Qed.
Lemma new_inv s r s1 : NewReader s = (Ok r, s1) -> rinv [] (dlen s) r /\ rd_closed r = false /\
  rd_err r = None /\ rd_gor r = GFirst.
Proof.
  unfold NewReader. destruct (expectString s narVersionMagic1) as [e s'] eqn:E. apply expect_any in E.
  destruct E as (F & L & _). destruct e as [[]|]; try discriminate. intros H. injection H as <- <-.
  split; [|auto]. apply fwd_len in F. split; [cbn; exact F|]. split; [|split; [exact I|]].
  - split; [exact I|]. intros l1 h l2 E. destruct l1; discriminate.
  - intros _. split; [reflexivity|]. intros _. cbn. split; [reflexivity|split; discriminate].
Qed.

(** * C34 *)
Definition einv (r : rd) : Prop := forall e, rd_err r = Some e -> e <> EMsg "received header in the wrong order" -> rd_gor r = GExit.
Lemma read_same n r b e r' : rd_Read n r = (b, e, r') ->
  rd_err r' = rd_err r /\ rd_gor r' = rd_gor r /\ rd_closed r' = rd_closed r.
Proof.
  unfold rd_Read. destruct (rd_content r) as [br|].
  - destruct (br_read n br (rd_src r)) as [[b0 e0] [br' s']]. intros H. injection H as <- <- <-. auto.
  - intros H. injection H as <- <- <-. auto.
Qed.
Lemma einv_run ops : forall r l r', no_close ops -> einv r -> rd_run ops r = (l, r') -> einv r'.
Proof.
  induction ops as [|op ops IH]; intros r l r' Hc He H; cbn [rd_run] in H.
  - injection H as <- <-. exact He.
  - destruct (rd_step op r) as [y r1] eqn:E1. destruct (rd_run ops r1) as [l1 r2] eqn:E2. injection H as <- <-.
    eapply (IH r1); [intros Hin; apply Hc; right; exact Hin| |exact E2].
    destruct op as [|n|]; [| |elim Hc; left; reflexivity]; cbn [rd_step] in E1.
    + destruct (Next r) as [x0 r1'] eqn:EN. injection E1 as <- <-. unfold Next in EN.
      destruct (rd_err r) as [e0|] eqn:Herr; [injection EN as <- <-; exact He|].
      destruct (rd_closed r); [injection EN as <- <-; exact He|].
      destruct (resume (rd_gor r) (rd_content r) (rd_src r)) as [[a b c|h w st ct s0|e0 s0] ct0].
      * injection EN as <- <-. intros ? Hx. discriminate.
      * destruct (PathIsLexicographicallyOrdered (rd_prev r) (hd_path h)); injection EN as <- <-; intros ? Hx Hn; cbn [rd_err] in Hx; congruence.
      * injection EN as <- <-. intros ? _ _. reflexivity.
    + destruct (rd_Read n r) as [[b e] r1'] eqn:E. injection E1 as <- <-. apply read_same in E.
      destruct E as (E & E' & _). unfold einv. rewrite E, E'. exact He.
Qed.
Lemma seen_err ops : forall r l r' e, rd_run ops r = (l, r') -> In (SNext (Err e)) l -> rd_err r' = Some e.
Proof.
  induction ops as [|op ops IH]; intros r l r' e H Hin; cbn [rd_run] in H.
  - injection H as <- <-. destruct Hin.
  - destruct (rd_step op r) as [y r1] eqn:E1. destruct (rd_run ops r1) as [l1 r2] eqn:E2. injection H as <- <-.
    destruct Hin as [->|Hin]; [|eapply IH; eassumption].
    destruct op as [|n|]; cbn [rd_step] in E1.
    + destruct (Next r) as [x0 r1'] eqn:EN. injection E1 as -> <-. apply next_err in EN.
      apply (run_err ops r1' l1 r2 e EN E2).
    + destruct (rd_Read n r) as [[b e'] r1'] eqn:E. discriminate.
    + destruct (rd_Close r) as [? ?]. discriminate.
Qed.
Lemma no_err_seen ops : forall r l r', rd_closed r = false -> no_close ops -> rd_err r = None ->
  rd_run ops r = (l, r') -> (forall e, ~ In (SNext (Err e)) l) -> rd_err r' = None.
Proof.
  induction ops as [|op ops IH]; intros r l r' Hcl Hc He H Hno; cbn [rd_run] in H.
  - injection H as <- <-. exact He.
  - destruct (rd_step op r) as [y r1] eqn:E1. destruct (rd_run ops r1) as [l1 r2] eqn:E2. injection H as <- <-.
    assert (Hc' : no_close ops) by (intros Hin; apply Hc; right; exact Hin).
    destruct op as [|n|]; [| |elim Hc; left; reflexivity]; cbn [rd_step] in E1.
    + destruct (Next r) as [x0 r1'] eqn:EN. injection E1 as <- <-.
      assert (H1 : rd_err r1' = None /\ rd_closed r1' = false).
      { unfold Next in EN. rewrite He, Hcl in EN.
        destruct (resume (rd_gor r) (rd_content r) (rd_src r)) as [[a b c|h w st ct s0|e0 s0] ct0].
        - injection EN as <- <-. auto.
        - destruct (PathIsLexicographicallyOrdered (rd_prev r) (hd_path h)); injection EN as <- <-; [auto|].
          edestruct Hno. left. reflexivity.
        - injection EN as <- <-. edestruct Hno. left. reflexivity. }
      destruct H1 as [H1 H2]. eapply (IH r1'); eauto. intros e Hin. apply (Hno e). right. exact Hin.
    + destruct (rd_Read n r) as [[b e] r1'] eqn:E. injection E1 as <- <-. apply read_same in E.
      destruct E as (E & E' & E3). eapply (IH r1'); eauto; try congruence. intros e0 Hin. apply (Hno e0). right. exact Hin.
Qed.
Lemma err_seen ops r l r' e : rd_closed r = false -> no_close ops -> rd_err r = None ->
  rd_run ops r = (l, r') -> rd_err r' = Some e -> In (SNext (Err e)) l.
Proof.
  intros Hcl Hc He HR X.
  assert (D : (exists e', In (SNext (Err e')) l) \/ (forall e', ~ In (SNext (Err e')) l)).
  { clear. induction l as [|x l [(e' & IH)|IH]]; [right; intros e' []|left; exists e'; right; exact IH|].
    destruct x as [[h|e'|w]|b e'|c].
    2: { left. exists e'. left. reflexivity. }
    all: right; intros e0 [Y|Y]; [discriminate|exact (IH e0 Y)]. }
  destruct D as [(e' & D)|D].
  - pose proof (seen_err ops r l r' e' HR D) as Y. congruence.
  - pose proof (no_err_seen ops r l r' Hcl Hc He HR D). congruence.
Qed.
Lemma headers_of_in h l : In (SNext (Ok h)) l -> headers_of l <> [].
Proof.
  induction l as [|x l IH]; [intros []|]. intros [->|H]; [discriminate|].
  cbn [headers_of]. destruct x as [[h'|e|w]| |]; try discriminate; auto.
Qed.
Lemma first_run ops : forall r l r', no_close ops -> ~ In ONext ops -> rd_run ops r = (l, r') ->
  rd_gor r' = rd_gor r /\ rd_err r' = rd_err r.
Proof.
  induction ops as [|op ops IH]; intros r l r' Hc Hno H; cbn [rd_run] in H.
  - injection H as <- <-. auto.
  - destruct (rd_step op r) as [y r1] eqn:E1. destruct (rd_run ops r1) as [l1 r2] eqn:E2. injection H as <- <-.
    destruct op as [|n|]; [elim Hno; left; reflexivity| |elim Hc; left; reflexivity].
    cbn [rd_step] in E1. destruct (rd_Read n r) as [[b e] r1'] eqn:E. injection E1 as <- <-. apply read_same in E.
    destruct (IH r1' l1 r2 ltac:(intros Hin; apply Hc; right; exact Hin)
      ltac:(intros Hin; apply Hno; right; exact Hin) E2) as [I1 I2].
    destruct E as (E & E' & _). split; congruence.
Qed.

Lemma run_fields ops : forall hs n0 r l r', rinv hs n0 r -> rd_closed r = false -> no_close ops ->
  rd_run ops r = (l, r') -> Forall hd_fields (headers_of l).
Proof.
  induction ops as [|op ops IH]; intros hs n0 r l r' Hi Hcl Hnc H; cbn [rd_run] in H.
  - injection H as <- <-. constructor.
  - destruct (rd_step op r) as [x r1] eqn:E1. destruct (rd_run ops r1) as [l1 r2] eqn:E2. injection H as <- <-.
    assert (Hnc' : no_close ops) by (intros Hin; apply Hnc; right; exact Hin).
    destruct op as [|n|]; cbn [rd_step] in E1.
    + destruct (Next r) as [y r1'] eqn:E. assert (x = SNext y /\ r1' = r1) as [-> ->] by (split; congruence).
      destruct (next_inv _ _ _ _ _ Hi E) as (N1 & N2 & N3). destruct (N3 Hcl) as [N4 N5]. destruct y as [h|e|w]; cbn [headers_of].
      * constructor; [|exact (IH _ _ _ _ _ (N1 h eq_refl) N4 Hnc' E2)]. apply (next_yield _ _ _ _ _ Hi E).
      * exact (IH _ _ _ _ _ (N2 ltac:(discriminate)) N4 Hnc' E2).
      * elim (N5 w). reflexivity.
    + destruct (rd_Read n r) as [[b e] r1'] eqn:E. assert (x = SRead b e /\ r1' = r1) as [-> ->] by (split; congruence).
      destruct (read_inv _ _ _ _ _ _ _ Hi E) as (N1 & N2 & _). cbn [headers_of]. apply (IH _ _ _ _ _ N1 ltac:(congruence) Hnc' E2).
    + elim Hnc. left. reflexivity.
Qed.
Lemma new_fin s r s1 : NewReader s = (Ok r, s1) -> fin (rd_src r) = fin s.
Proof.
  unfold NewReader. destruct (expectString s narVersionMagic1) as [e s'] eqn:E. apply expect_any in E.
  destruct E as ((F & _) & _). destruct e as [[]|]; try discriminate. intros H. assert (r = RD s' GFirst None [] None false) as -> by congruence. exact F.
Qed.
