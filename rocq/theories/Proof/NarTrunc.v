(** Truncated archives (C30): the reader on a truncated stream follows the
    reader on the complete one until it reports an error. *)
From Verif Require Import Base.Bytes Base.BytesFacts Model.GoIO Model.GoStd Model.Wire Model.Nar
  Model.NarReader Spec.WireSpec Spec.WireHist Spec.NarSpec Spec.NarHist
  Proof.WireFacts Proof.WireProps Proof.NarUtilProps Proof.NarReaderFacts Proof.NarSession Proof.NarReaderAny.
Ltac Zify.zify_post_hook ::= idtac.

(** [ext z s1 s2]: [s2] has [z] after the data of [s1]; up to 7 bytes of [z]
    (padding) may be gone already if [s1] is exhausted. *)
Definition ext (z : bytes) (s1 s2 : src) : Prop :=
  exists z', src_data s2 = src_data s1 ++ z' /\
    (z' = z \/ (src_data s1 = [] /\ length z <= length z' + 7)).

Lemma ntake_le_app n a b : (n <= lenN a)%N -> ntake n (a ++ b) = ntake n a.
Proof. unfold ntake, lenN. intros H. apply firstn_le_app. lia. Qed.
Lemma ndrop_le_app n a b : (n <= lenN a)%N -> ndrop n (a ++ b) = ndrop n a ++ b.
Proof. unfold ndrop, lenN. intros H. apply skipn_le_app. lia. Qed.
Lemma pad_N_lt n : (pad_N n < 8)%N.
Proof. unfold pad_N. apply N.mod_lt. discriminate. Qed.

(** ReadBytesFull on the longer stream. *)
Lemma rbf_ext z s1 s2 max x s1' : 7 < length z -> ext z s1 s2 ->
  ReadBytesFull s1 max = (Ok x, s1') -> exists s2', ReadBytesFull s2 max = (Ok x, s2') /\ ext z s1' s2'.
Proof.
  intros Hz (z' & Hd & Hz') H1.
  destruct (ReadBytesFull_spec s1 max _ _ eq_refl) as (t1 & _ & _ & R1 & F1).
  destruct (ReadBytesFull_spec s2 max _ _ eq_refl) as (t2 & _ & _ & R2 & F2).
  rewrite H1 in R1. injection R1 as R1 <-. exists t2.
  apply flat_data in F1, F2. destruct F1 as [F1 _], F2 as [F2 _].
  rewrite Hd in R2, F2. unfold rbf_spec in *.
  destruct (N.ltb_spec (lenN (src_data s1)) 8) as [H8|H8]; [discriminate|].
  assert (z' = z) as ->.
  { destruct Hz' as [|[E _]]; [assumption|]. rewrite E in H8. cbn in H8. lia. }
  rewrite lenN_app in *. destruct (N.ltb_spec (lenN (src_data s1) + lenN z) 8) as [H9|H9]; [lia|].
  rewrite ntake_le_app, ndrop_le_app in R2, F2 by lia.
  set (n := le_val (ntake 8 (src_data s1))) in *. set (d1 := ndrop 8 (src_data s1)) in *.
  destruct (max <? n)%N; [discriminate|]. destruct (2 ^ 63 <=? n)%N; [discriminate|].
  rewrite lenN_app in *. destruct (N.ltb_spec (lenN d1) n) as [Hn|Hn]; [discriminate|].
  destruct (N.ltb_spec (lenN d1 + lenN z) n) as [Hn'|Hn']; [lia|]. cbn [fst snd] in *.
  rewrite ntake_le_app in R2 by lia. split; [congruence|].
  destruct (N.le_gt_cases (n + pad_N n) (lenN d1)) as [Hp|Hp].
  - exists z. rewrite F1, F2, ndrop_le_app by lia. auto.
  - rewrite ndrop_all in F1 by lia. unfold ext. rewrite F1, F2. cbn [app].
    exists (ndrop (n + pad_N n - lenN d1) z). split.
    + rewrite ndrop_app by lia. reflexivity.
    + right. split; [reflexivity|]. pose proof (pad_N_lt n). unfold ndrop. rewrite skipn_length. lia.
Qed.
Lemma tok_ext z s1 s2 max x s1' : 7 < length z -> ext z s1 s2 ->
  tok s1 max = (inl x, s1') -> exists s2', tok s2 max = (inl x, s2') /\ ext z s1' s2'.
Proof.
  intros Hz He H. unfold tok, ReadString in *. destruct (ReadBytesFull s1 max) as [r t] eqn:E.
  destruct r as [y|e|w]; try discriminate. injection H as <- <-.
  destruct (rbf_ext _ _ _ _ _ _ Hz He E) as (s2' & -> & H2). eauto.
Qed.
Lemma expect_ext z s1 s2 x s1' : 7 < length z -> ext z s1 s2 ->
  expectString s1 x = (None, s1') -> exists s2', expectString s2 x = (None, s2') /\ ext z s1' s2'.
Proof.
  intros Hz He H. unfold expectString, ReadString in *. destruct (ReadBytesFull s1 (lenN x)) as [r t] eqn:E.
  destruct r as [y|e|w]; [|destruct e; discriminate|discriminate].
  destruct (beq_spec y x) as [->|]; [|discriminate]. injection H as <-.
  destruct (rbf_ext _ _ _ _ _ _ Hz He E) as (s2' & -> & H2). rewrite beq_refl. eauto.
Qed.
Lemma ReadBytes_ext z s1 s2 x s1' : 7 < length z -> ext z s1 s2 ->
  ReadBytes s1 = (Ok x, s1') -> exists s2', ReadBytes s2 = (Ok x, s2') /\ src_data s2' = src_data s1' ++ z.
Proof.
  intros Hz (z' & Hd & Hz') H. unfold ReadBytes in *.
  destruct (ReadUint64_spec s1 _ _ eq_refl) as (t1 & _ & _ & R1).
  destruct (ReadUint64_spec s2 _ _ eq_refl) as (t2 & _ & _ & R2).
  destruct (N.leb_spec 8 (lenN (src_data s1))) as [H8|H8]; destruct R1 as [R1 F1]; rewrite R1 in H; [|discriminate].
  rewrite Hd, lenN_app in R2. destruct (N.leb_spec 8 (lenN (src_data s1) + lenN z')) as [H9|H9]; [|lia].
  destruct R2 as [R2 F2]. rewrite R2. cbn [rbind] in *. apply flat_data in F1, F2. destruct F1 as [F1 _], F2 as [F2 _].
  rewrite ntake_le_app by lia. injection H as <- <-. exists t2. split; [reflexivity|].
  rewrite F1, F2, ndrop_le_app by lia. f_equal.
  destruct Hz' as [|[E _]]; [assumption|]. rewrite E in H8. cbn in H8. lia.
Qed.

(** One parser step; an error of the truncated parser is not io.EOF unless the
    stream ends with io.EOF. *)
Definition sim (z : bytes) (p1 p2 : pstep) (e : error) : Prop :=
  match p1 with
  | PGo c st s1 => exists s2, p2 = PGo c st s2 /\ ext z s1 s2
  | PYield h w st ct s1 => exists s2, p2 = PYield h w st ct s2 /\
      (ext z s1 s2 /\ ct = None \/ (ct <> None /\ src_data s2 = src_data s1 ++ z))
  | PStop er s1 => er = EEOF -> e = EEOF \/ (exists s2, p2 = PStop EEOF s2 /\ ext z s1 s2)
  end.
Lemma stop_sim z er s p2 e : (er = EEOF -> e = EEOF) -> sim z (PStop er s) p2 e.
Proof. cbn. auto. Qed.
Ltac simstep Hz H0 :=
  match goal with
  | H : ext ?z ?s1 ?s2 |- context [expectString ?s1 ?x] =>
      let E := fresh "E" in let e := fresh "e" in let t1 := fresh "s" in let t2 := fresh "s" in
      let R := fresh "R" in let F := fresh "F" in let G := fresh "G" in let H' := fresh "H" in
      destruct (expectString s1 x) as [e t1] eqn:E; pose proof (expect_any _ _ _ _ E) as F;
      destruct F as (F & _ & G);
      destruct e as [e|];
      [apply stop_sim; intros ->; elim G; reflexivity|];
      destruct (expect_ext _ _ _ _ _ Hz H E) as (t2 & R & H'); rewrite R; clear R G E H;
      apply proj1 in F; rename H' into H
  | H : ext ?z ?s1 ?s2 |- context [tok ?s1 ?m] =>
      let E := fresh "E" in let e := fresh "t" in let t1 := fresh "s" in let t2 := fresh "s" in
      let R := fresh "R" in let F := fresh "F" in let G := fresh "G" in let H' := fresh "H" in
      destruct (tok s1 m) as [[e|e] t1] eqn:E; pose proof (tok_any _ _ _ _ E) as F;
      destruct F as (F & _ & G);
      [|apply stop_sim; intros ->; destruct (G eq_refl) as [? _]; congruence];
      destruct (tok_ext _ _ _ _ _ _ Hz H E) as (t2 & R & H'); rewrite R; clear R G E H;
      apply proj1 in F; rename H' into H
  end.
Lemma close_paren_sim z t st s1 s2 e : ext z s1 s2 -> sim z (close_paren t st s1) (close_paren t st s2) e.
Proof. intros H. unfold close_paren. destruct (beq t (bs ")")); cbn; [eauto|discriminate]. Qed.
Lemma contents_sim z p x st s1 s2 e : 7 < length z -> ext z s1 s2 -> fin s1 = e ->
  sim z (let '(r, s) := ReadBytes s1 in
            match r with
            | Err er => PStop er s
            | Panic w => PStop (EMsg w) s
            | Ok (n, br) =>
                if (2 ^ 63 - 1 <? n)%N then PStop (EMsg "content length too large") s
                else PYield (Header p TypeRegular [] (Z.of_N n) x) WReg st (Some br) s
            end)
        (let '(r, s) := ReadBytes s2 in
            match r with
            | Err er => PStop er s
            | Panic w => PStop (EMsg w) s
            | Ok (n, br) =>
                if (2 ^ 63 - 1 <? n)%N then PStop (EMsg "content length too large") s
                else PYield (Header p TypeRegular [] (Z.of_N n) x) WReg st (Some br) s
            end) e.
Proof.
  intros Hz Hx He. destruct (ReadBytes s1) as [r t1] eqn:E. pose proof (ReadBytes_any _ _ _ E) as (_ & _ & G).
  destruct r as [[n br]|er|w].
  - destruct (ReadBytes_ext _ _ _ _ _ Hz Hx E) as (t2 & -> & Hd).
    destruct (2 ^ 63 - 1 <? n)%N; cbn; [discriminate|]. exists t2. split; [reflexivity|]. right. split; [discriminate|exact Hd].
  - apply stop_sim. intros ->. destruct (G eq_refl). congruence.
  - apply stop_sim. discriminate.
Qed.
Lemma parse_head_sim z p st s1 s2 e : 7 < length z -> ext z s1 s2 -> fin s1 = e ->
  sim z (parse_head p st s1) (parse_head p st s2) e.
Proof.
  intros Hz Hx He. unfold parse_head. simstep Hz Hx. simstep Hz Hx. simstep Hz Hx.
  destruct (beq t (bs "regular")).
  { simstep Hz Hx. destruct (beq t0 (bs "executable")).
    - match goal with |- context [ReadBytesFull ?a 0] => match type of Hx with ext _ a ?b =>
        destruct (ReadBytesFull a 0) as [r t1] eqn:E; pose proof (rbf_any _ _ _ _ E) as (F3 & _ & G) end end.
      destruct r as [y|er|w].
      + destruct (rbf_ext _ _ _ _ _ _ Hz Hx E) as (t2 & -> & Hx'). clear Hx G E. rename Hx' into Hx. apply proj1 in F3.
        match goal with |- context [tok ?a ?m] => match type of Hx with ext _ a ?b =>
          destruct (tok a m) as [[u|u] a1] eqn:E; pose proof (tok_any _ _ _ _ E) as (F4 & _ & G) end end.
        * destruct (tok_ext _ _ _ _ _ _ Hz Hx E) as (b1 & -> & Hx').
          destruct (negb (beq u (bs "contents"))); [apply stop_sim; discriminate|].
          apply contents_sim; [exact Hz|exact Hx'|]. apply proj1 in F4. congruence.
        * apply stop_sim. intros ->. destruct (G eq_refl). congruence.
      + apply stop_sim. destruct er; discriminate.
      + apply stop_sim. discriminate.
    - destruct (negb (beq t0 (bs "contents"))); [apply stop_sim; discriminate|].
      apply contents_sim; [exact Hz|exact Hx|congruence]. }
  destruct (beq t (bs "symlink")).
  { simstep Hz Hx. simstep Hz Hx. cbn. eauto. }
  destruct (beq t (bs "directory")); [cbn; eauto|]. apply close_paren_sim. exact Hx.
Qed.
Lemma pstep1_sim z c st s1 s2 e : 7 < length z -> ext z s1 s2 -> fin s1 = e ->
  sim z (pstep1 c st s1) (pstep1 c st s2) e.
Proof.
  intros Hz Hx He. destruct c as [p|p|]; cbn [pstep1].
  - apply parse_head_sim; assumption.
  - simstep Hz Hx. destruct (beq t (bs "entry")).
    + simstep Hz Hx. simstep Hz Hx. simstep Hz Hx. destruct (negb (IsValidNodeName t0)); [apply stop_sim; discriminate|].
      simstep Hz Hx. cbn. eauto.
    + destruct (beq t (bs ")")); cbn; eauto.
  - destruct st as [|[p n] st]; [cbn; eauto|]. simstep Hz Hx. destruct (beq n (bs ")")); cbn; eauto.
Qed.
Lemma run_all_sim z c st s1 s2 e : 7 < length z -> ext z s1 s2 -> fin s1 = e ->
  sim z (run_all c st s1) (run_all c st s2) e.
Proof.
  intros Hz. remember (dlen s1 + length st) as m eqn:Hm. revert c st s1 s2 Hm.
  induction m as [m IH] using lt_wf_ind. intros c st s1 s2 Hm Hx He.
  rewrite (run_all_step c st s1), (run_all_step c st s2).
  pose proof (pstep1_sim z c st s1 s2 e Hz Hx He) as H.
  destruct (pstep1 c st s1) as [c' st' s1'|h w st' ct s1'|er s1'] eqn:E.
  - destruct H as (s2' & -> & Hx'). apply pstep1_go in E. destruct E as [(F & _) E].
    eapply IH; [|reflexivity|exact Hx'|congruence]. lia.
  - cbn [sim] in H. destruct H as (s2' & -> & H). cbn. eauto.
  - cbn [sim] in *. intros Her. destruct (H Her) as [|(s2' & -> & H')]; [auto|]. right. eauto.
Qed.

(** The consumer read some of the content on the truncated stream and nothing
    on the complete one. *)
Definition csim (z : bytes) (br1 br2 : bytes_reader) (s1 s2 : src) : Prop :=
  br_len br1 = br_len br2 /\ exists j, (br_rem br2 = br_rem br1 + j)%N /\
    (j <= lenN (src_data s2))%N /\ ndrop j (src_data s2) = src_data s1 ++ z.
Lemma csim_read z n br1 br2 s1 s2 b er br1' s1' : csim z br1 br2 s1 s2 ->
  br_read n br1 s1 = (b, er, (br1', s1')) -> csim z br1' br2 s1' s2.
Proof.
  intros (H0 & j & H1 & H2 & H3) H. unfold br_read in H.
  destruct (lim_read n (br_rem br1, s1)) as [[b0 e0] [rem' s0]] eqn:E. injection H as <- <- <- <-.
  destruct (lim_read_spec _ _ _ _ _ _ _ _ _ eq_refl E) as (Hd & He & Heg & Hlb & Hrem & _).
  split; [exact H0|]. exists (j + lenN b0)%N. cbn [br_rem]. split; [lia|].
  rewrite Hd, <- app_assoc in H3.
  assert (L : lenN (ndrop j (src_data s2)) = (lenN b0 + lenN (src_data s0 ++ z))%N) by (rewrite H3; apply lenN_app).
  rewrite ndrop_len in L. split; [lia|]. rewrite <- ndrop_ndrop, H3, ndrop_exact. reflexivity.
Qed.
Lemma ndrop_ext k d z : (k <= lenN d)%N -> ndrop k (d ++ z) = ndrop k d ++ z.
Proof. apply ndrop_le_app. Qed.

Lemma close_sim z st br1 br2 s1 s2 e : 7 < length z -> csim z br1 br2 s1 s2 -> fin s1 = e -> polite s2 ->
  sim z (fst (resume (GWait WReg st) (Some br1) s1)) (fst (resume (GWait WReg st) (Some br2) s2)) e.
Proof.
  intros Hz (H0 & j & H1 & H2 & H3) He Hp. destruct br1 as [len rem1], br2 as [len2 rem2]. cbn [br_len br_rem] in *. subst len2 rem2.
  cbn [resume].
  destruct (br_close (BR len rem1) s1) as [er1 [br1' s1']] eqn:E1. cbn [fst].
  assert (Hdl : lenN (src_data s2) = (j + lenN (src_data s1) + lenN z)%N).
  { assert (L : lenN (ndrop j (src_data s2)) = (lenN (src_data s1) + lenN z)%N) by (rewrite H3; apply lenN_app).
    rewrite ndrop_len in L. lia. }
  (* close on s1 *)
  unfold br_close in E1. cbn [br_rem br_len] in E1.
  destruct (drain_spec (S (S (src_size s1))) rem1 s1 _ _ ltac:(lia) eq_refl)
    as (er & rem' & t1 & D1 & D2 & D3 & D4 & D5 & D6 & D7 & D8 & D9).
  rewrite D1 in E1. destruct er as [er|].
  { injection E1 as <- <- <-. apply stop_sim. intros ->. destruct D5 as [D5|(D5 & D5' & _)]; congruence. }
  destruct (readPadding_spec t1 len _ _ D3) as (t2 & Q1 & Q2 & Q3 & Q4). rewrite Q3 in E1.
  injection E1 as <- <- <-. apply flat_data in D3. destruct D3 as [D3 D3'].
  apply flat_data in Q4. destruct Q4 as [Q4 Q4'].
  destruct (pad_error len (ndrop rem1 (src_data s1)) (fin s1)) as [er|] eqn:Ep.
  { apply stop_sim. intros ->. unfold pad_error in Ep.
    destruct (pad_N len <=? _)%N; [destruct (all_zero _); discriminate|].
    injection Ep as Ep. apply short_error_eof in Ep. congruence. }
  destruct (tok t2 tokenLenMax) as [[t|t] t3] eqn:Et; pose proof (tok_any _ _ _ _ Et) as (F & L & G).
  2:{ apply stop_sim. intros ->. destruct (G eq_refl). congruence. }
  specialize (L _ eq_refl). unfold dlen in L.
  assert (Hlong : (rem1 + pad_N len < lenN (src_data s1))%N).
  { rewrite Q4, ndrop_ndrop in L. unfold ndrop in L. rewrite !skipn_length in L. unfold lenN. lia. }
  rewrite ndrop_ndrop in Q4.
  destruct (br_close_spec len (rem1 + j) s2 _ _ eq_refl) as (u & U1 & U2 & U3 & U4); [lia|left; exact Hp|].
  rewrite U1.
  assert (Ed : ndrop (rem1 + j) (src_data s2) = ndrop rem1 (src_data s1) ++ z).
  { rewrite N.add_comm, <- ndrop_ndrop, H3. apply ndrop_le_app. lia. }
  rewrite Ed. unfold pad_error in *. rewrite lenN_app, ndrop_len in *.
  destruct (N.leb_spec (pad_N len) (lenN (src_data s1) - rem1)) as [Hq|Hq]; [|lia].
  destruct (N.leb_spec (pad_N len) (lenN (src_data s1) - rem1 + lenN z)) as [Hq2|Hq2]; [|lia].
  rewrite ntake_le_app by (rewrite ndrop_len; lia).
  destruct (all_zero (ntake (pad_N len) (ndrop rem1 (src_data s1)))); [|discriminate].
  assert (Hx : ext z t2 u).
  { apply flat_data in U3. destruct U3 as [U3 _]. exists z. split; [|auto]. rewrite U3, Q4, <- ndrop_ndrop, Ed.
    rewrite ndrop_le_app by (rewrite ndrop_len; lia). rewrite ndrop_ndrop. reflexivity. }
  destruct (tok_ext _ _ _ _ _ _ Hz Hx Et) as (u2 & -> & Hx2). cbn [fst].
  pose proof (close_paren_sim z t st t3 u2 e Hx2) as H.
  destruct (close_paren t st t3) as [c' st' a1|h w st' ct a1|er a1] eqn:E.
  - destruct H as (a2 & -> & Ha). apply run_all_sim; auto. apply close_paren_go in E. destruct E as (_ & _ & ->).
    destruct F as (F & _). congruence.
  - unfold close_paren in E. destruct (beq t (bs ")")); discriminate.
  - unfold close_paren in E. destruct (beq t (bs ")")); [discriminate|]. injection E as <- <-. cbn. discriminate.
Qed.
Lemma resume_sim z w st s1 s2 e : 7 < length z -> ext z s1 s2 -> fin s1 = e -> w <> WReg ->
  sim z (fst (resume (GWait w st) None s1)) (fst (resume (GWait w st) None s2)) e.
Proof.
  intros Hz Hx He Hw. destruct w as [| |p]; [congruence| |]; cbn [resume fst].
  - simstep Hz Hx.
    pose proof (close_paren_sim z t st s s0 e Hx) as H.
    destruct (close_paren t st s) as [c' st' a1|h w st' ct a1|er a1] eqn:E.
    + destruct H as (a2 & -> & Ha). apply run_all_sim; auto. apply close_paren_go in E. destruct E as (_ & _ & ->). congruence.
    + unfold close_paren in E. destruct (beq t (bs ")")); discriminate.
    + unfold close_paren in E. destruct (beq t (bs ")")); [discriminate|]. injection E as <- <-. cbn. discriminate.
  - apply run_all_sim; auto.
Qed.

(** * Readers in step *)
Definition rsim (z : bytes) (e : error) (r1 r2 : rd) : Prop :=
  rd_err r1 = None /\ rd_err r2 = None /\ rd_closed r1 = false /\ rd_closed r2 = false /\
  rd_prev r1 = rd_prev r2 /\ rd_gor r1 = rd_gor r2 /\ fin (rd_src r1) = e /\ polite (rd_src r2) /\
  match rd_gor r1 with
  | GFirst => rd_content r1 = None /\ rd_content r2 = None /\ ext z (rd_src r1) (rd_src r2)
  | GWait WReg _ => exists b1 b2, rd_content r1 = Some b1 /\ rd_content r2 = Some b2 /\ csim z b1 b2 (rd_src r1) (rd_src r2)
  | GWait _ _ => rd_content r1 = None /\ rd_content r2 = None /\ ext z (rd_src r1) (rd_src r2)
  | _ => False
  end.
Lemma rsim_read z e r1 r2 n b er r1' : rsim z e r1 r2 -> rd_Read n r1 = (b, er, r1') -> rsim z e r1' r2.
Proof.
  intros (H1 & H2 & H3 & H4 & H5 & H6 & H7 & H8 & H9) H. unfold rd_Read in H.
  destruct (rd_content r1) as [br|] eqn:Hc.
  - destruct (br_read n br (rd_src r1)) as [[b0 e0] [br' s']] eqn:E. injection H as <- <- <-.
    pose proof (br_read_fwd _ _ _ _ _ _ _ E) as (F & _).
    unfold rsim. cbn [rd_err rd_closed rd_prev rd_gor rd_src rd_content].
    repeat (split; [first [assumption|congruence]|]).
    destruct (rd_gor r1) as [|w st| |]; auto.
    + destruct H9; congruence.
    + destruct w; try (destruct H9; congruence).
      destruct H9 as (b1 & b2 & E1 & E2 & E3). exists br', b2. split; [reflexivity|]. split; [exact E2|].
      eapply csim_read; [|exact E]. congruence.
  - injection H as <- <- <-. unfold rsim. rewrite Hc. auto 12.
Qed.
Lemma rsim_reads z e ns : forall r1 r2 l r1', rsim z e r1 r2 -> rd_reads ns r1 = (l, r1') -> rsim z e r1' r2.
Proof.
  induction ns as [|n ns IH]; intros r1 r2 l r1' Hs H; cbn [rd_reads] in H.
  - injection H as <- <-. exact Hs.
  - destruct (rd_Read n r1) as [[b er] r] eqn:E1. destruct (rd_reads ns r) as [l2 r'] eqn:E2.
    injection H as <- <-. eapply IH; [|exact E2]. eapply rsim_read; eassumption.
Qed.
(** What the parser of the complete stream keeps. *)
Lemma polite_fwd s' s : fwd s' s -> polite s -> polite s'.
Proof. intros (H1 & H2 & _). unfold polite. rewrite H1, H2. auto. Qed.
Lemma rsim_next z e r1 r2 : 7 < length z -> rsim z e r1 r2 ->
  match Next r1 with
  | (Ok h, r1') => exists r2', Next r2 = (Ok h, r2') /\ rsim z e r1' r2'
  | (Err er, r1') => er = EEOF -> e = EEOF \/ (exists r2', Next r2 = (Err EEOF, r2') /\ src_data (rd_src r2') <> [])
  | (Panic _, _) => False
  end.
Proof.
  intros Hz (H1 & H2 & H3 & H4 & H5 & H6 & H7 & H8 & H9).
  assert (Hsim : sim z (fst (resume (rd_gor r1) (rd_content r1) (rd_src r1)))
                       (fst (resume (rd_gor r2) (rd_content r2) (rd_src r2))) e).
  { rewrite <- H6. destruct (rd_gor r1) as [|w st| |]; try contradiction.
    - destruct H9 as (-> & -> & H9). cbn [resume fst]. apply run_all_sim; auto.
    - destruct w as [| |p].
      + destruct H9 as (b1 & b2 & -> & -> & H9). apply close_sim; auto.
      + destruct H9 as (-> & -> & H9). apply resume_sim; auto. discriminate.
      + destruct H9 as (-> & -> & H9). apply resume_sim; auto. discriminate. }
  assert (Hy : forall g ct s, match fst (resume g ct s) with
     | PGo _ _ _ => False
     | PYield h w st ct' s' => fwd s' s /\ wait_ok h w ct'
     | PStop _ s' => g <> GExit -> g <> GBlocked -> (match g with GWait WReg _ => exists br, ct = Some br | _ => True end) -> fwd s' s
     end).
  { intros g ct s. set (T := fun _ : bytes => True).
    assert (HF : forall st, Forall (fr_ok T) st) by (intros; apply Forall_forall; intros; exact I).
    assert (HR : forall c st s, yields T T (run_all c st s) s).
    { intros c st s0. apply run_all_ok; [intros; exact I|destruct c; exact I|apply HF]. }
    assert (Htok : forall st s1, fwd s1 s -> yields T T
      (let '(t, s) := tok s1 tokenLenMax in
       match t with
       | inr er => PStop er s
       | inl t => match close_paren t st s with PGo c st s => run_all c st s | r => r end
       end) s).
    { intros st s1 F1. destruct (tok s1 tokenLenMax) as [[t|t] s2] eqn:E; apply tok_any in E; destruct E as (F & L & _).
      2:{ cbn. eauto using fwd_trans. }
      unfold close_paren. destruct (beq t (bs ")")); [|cbn; eauto using fwd_trans].
      assert (F2 : fwd s2 s) by eauto using fwd_trans. apply fwd_len in F2 as L2.
      pose proof (HR CRet st s2) as H.
      destruct (run_all CRet st s2) as [c2 st2 s3|h w2 st2 ct2 s3|e' s3]; cbn [yields] in *; [exact H| |eauto using fwd_trans].
      destruct H as (I1 & I2 & I3 & I4 & I5). repeat (split; [eauto using fwd_trans|]). lia. }
    assert (HC : forall p, yields T T p s -> match p with
       | PGo _ _ _ => False | PYield h w st ct' s' => fwd s' s /\ wait_ok h w ct' | PStop _ s' => fwd s' s end).
    { intros [| |] Hp; cbn [yields] in Hp; tauto. }
    destruct g as [|[| |p] st| |]; cbn [resume].
    - specialize (HC _ (HR (CNode (bs "/")) [] s)). cbn [fst]. destruct (run_all (CNode (bs "/")) [] s); auto.
    - destruct ct as [br|]; cbn [fst].
      + destruct (br_close br s) as [er [br' s']] eqn:E. apply br_close_fwd in E. cbn [fst].
        destruct er; [intros; exact E|]. specialize (HC _ (Htok st s' E)).
        match goal with |- match ?x with _ => _ end => destruct x end; auto.
      + intros _ _ [br Hbr]. discriminate.
    - cbn [fst]. specialize (HC _ (Htok st s (fwd_refl s))).
      match goal with |- match ?x with _ => _ end => destruct x end; auto.
    - cbn [fst]. specialize (HC _ (HR (CLoop p) st s)).
      match goal with |- match ?x with _ => _ end => destruct x end; auto.
    - intros Hx. congruence.
    - intros Hx Hx2. congruence. }
  unfold Next. rewrite H1, H2, H3, H4.
  pose proof (Hy (rd_gor r1) (rd_content r1) (rd_src r1)) as Y1.
  pose proof (Hy (rd_gor r2) (rd_content r2) (rd_src r2)) as Y2. clear Hy.
  destruct (resume (rd_gor r1) (rd_content r1) (rd_src r1)) as [p1 c1].
  destruct (resume (rd_gor r2) (rd_content r2) (rd_src r2)) as [p2 c2]. cbn [fst] in *.
  destruct p1 as [c st s|h w st ct s|er s]; cbn [sim] in Hsim.
  - destruct Y1.
  - destruct Hsim as (s2 & -> & Hx). rewrite <- H5.
    destruct Y1 as [Y1 W1], Y2 as [Y2 W2].
    destruct (PathIsLexicographicallyOrdered (rd_prev r1) (hd_path h)); [|discriminate].
    eexists. split; [reflexivity|]. unfold rsim. cbn [rd_err rd_closed rd_prev rd_gor rd_src rd_content].
    repeat (split; [reflexivity|]). split; [destruct Y1; congruence|]. split; [eapply polite_fwd; eassumption|].
    destruct w as [| |p]; cbn [wait_ok] in W1.
    + destruct W1 as [(_ & br & -> & _) _]. destruct Hx as [[_ Hx]|[_ Hx]]; [discriminate|].
      exists br, br. split; [reflexivity|]. split; [reflexivity|]. split; [reflexivity|].
      exists 0%N. split; [lia|]. split; [lia|]. exact Hx.
    + destruct W1 as [(_ & ->) _]. destruct Hx as [[Hx _]|[Hx _]]; [auto|congruence].
    + destruct W1 as [(_ & _ & ->) _]. destruct Hx as [[Hx _]|[Hx _]]; [auto|congruence].
  - intros ->. destruct (Hsim eq_refl) as [|(s2 & -> & Hx)]; [auto|]. right. eexists. split; [reflexivity|].
    cbn [rd_src]. destruct Hx as (z' & Hd & Hz'). rewrite Hd.
    intros E. apply app_eq_nil in E. destruct E as [_ ->]. destruct Hz' as [<-|[_ Hz']]; cbn in *; lia.
Qed.

(** A session on the truncated stream. *)
Lemma session_err plans : forall r o r' e, rd_err r = Some e -> session plans r = (o, r') ->
  ok_headers o = [] /\ forall x, In x (map fst o) -> x = Err e.
Proof.
  induction plans as [|ns plans IH]; intros r o r' e He H; cbn [session] in H.
  - injection H as <- <-. split; [reflexivity|]. intros x [].
  - unfold Next in H. rewrite He in H. destruct (rd_reads ns r) as [l r2] eqn:E.
    assert (He2 : rd_err r2 = Some e).
    { clear H IH. revert r l He E. induction ns as [|n ns IHn]; intros r l He E; cbn [rd_reads] in E.
      - injection E as <- <-. exact He.
      - destruct (rd_Read n r) as [[b er] r3] eqn:E3. destruct (rd_reads ns r3) as [l3 r4] eqn:E4.
        injection E as <- <-. apply (IHn r3 l3); [|exact E4]. unfold rd_Read in E3.
        destruct (rd_content r) as [br|]; [|congruence].
        destruct (br_read n br (rd_src r)) as [[b0 e0] [br' s']]. injection E3 as <- <- <-. exact He. }
    destruct (session plans r2) as [o1 r3] eqn:E1. injection H as <- <-.
    destruct (IH _ _ _ _ He2 E1) as [I1 I2]. split; [exact I1|].
    intros x [Hx|Hx]; [cbn [fst] in Hx; congruence|auto].
Qed.
Lemma trunc_session z e its : 7 < length z -> e <> EEOF -> forall plans r1 r2 o r1', rsim z e r1 r2 ->
  at_items its [] EEOF r2 -> session plans r1 = (o, r1') ->
  ~ In (Err EEOF) (map fst o) /\ prefix_of (ok_headers o) (map fst its) /\
  (length its < length plans -> exists er, In (Err er) (map fst o)).
Proof.
  intros Hz He plans. revert its. induction plans as [|ns plans IH]; intros its r1 r2 o r1' Hs Hi H; cbn [session] in H.
  - injection H as <- <-. split; [intros []|]. split; [eexists; reflexivity|]. cbn. lia.
  - destruct (Next r1) as [x r1a] eqn:EN. destruct (rd_reads ns r1a) as [l r1b] eqn:ER.
    destruct (session plans r1b) as [o1 r1c] eqn:ES. injection H as <- <-.
    pose proof (rsim_next z e r1 r2 Hz Hs) as HN. rewrite EN in HN.
    destruct x as [h|er|w]; [| |contradiction].
    + destruct HN as (r2' & EN2 & Hs').
      (* the complete reader delivered its next item *)
      destruct Hi as (H1 & H2 & H3 & H4 & H5). unfold Next in EN2. rewrite H1, H2 in EN2.
      destruct (resume (rd_gor r2) (rd_content r2) (rd_src r2)) as [ps ct0] eqn:ER2. cbn [fst snd] in *.
      destruct its as [|[h0 c] its]; cbn [serves] in H4.
      { destruct H4 as (s' & Hf & ->). rewrite run_ret_nil in EN2. discriminate. }
      destruct H4 as (w & st & ct & s & -> & Hc). destruct H3 as [H3 H3']. rewrite H3 in EN2.
      injection EN2 as -> <-.
      assert (Hi' : at_items its [] EEOF (RD s (GWait w st) None (hd_path h) ct false)).
      { split; [reflexivity|]. split; [reflexivity|]. split; [exact H3'|]. cbn [rd_gor rd_content rd_src].
        destruct Hc as [(-> & -> & Hsv & Hct)|(-> & tail & e' & Hfl & Ht & Hsv)].
        - split; [exact Hsv|]. left. exact Hct.
        - destruct (Hsv 0%N s ltac:(lia) Hfl) as [A1 A2]. rewrite N.sub_0_r in A1, A2.
          split; [exact A1|]. right. eauto. }
      pose proof (rsim_reads _ _ _ _ _ _ _ Hs' ER) as Hs2.
      destruct (IH _ _ _ _ _ Hs2 Hi' ES) as (J1 & J2 & J3).
      split; [intros [Hx|Hx]; [discriminate|exact (J1 Hx)]|]. split.
      * destruct J2 as (cc & J2). exists cc. cbn [map fst]. rewrite J2. reflexivity.
      * cbn [length map fst]. intros Hl. destruct (J3 ltac:(lia)) as (er & Her). exists er. right. exact Her.
    + assert (Her : er <> EEOF).
      { intros ->. destruct (HN eq_refl) as [|(r2' & EN2 & Hne)]; [contradiction|].
        destruct Hi as (H1 & H2 & H3 & H4 & H5). unfold Next in EN2. rewrite H1, H2 in EN2.
        destruct (resume (rd_gor r2) (rd_content r2) (rd_src r2)) as [ps ct0] eqn:ER2. cbn [fst snd] in *.
        destruct its as [|[h0 c] its]; cbn [serves] in H4.
        - destruct H4 as (s' & Hf & ->). rewrite run_ret_nil in EN2. injection EN2 as <-. cbn [rd_src] in Hne.
          apply flat_data in Hf. destruct Hf. contradiction.
        - destruct H4 as (w & st & ct & s & -> & Hc). destruct H3 as [H3 H3']. rewrite H3 in EN2. discriminate. }
      apply next_err in EN.
      assert (EN' : rd_err r1b = Some er).
      { assert (HS : session [ns] r1a = ([(Err er, l)], r1b)).
        { cbn [session]. unfold Next. rewrite EN, ER. reflexivity. }
        clear - EN ER. revert r1a l EN ER. induction ns as [|n ns IHn]; intros r l He E; cbn [rd_reads] in E.
        - injection E as <- <-. exact He.
        - destruct (rd_Read n r) as [[b er1] r3] eqn:E3. destruct (rd_reads ns r3) as [l3 r4] eqn:E4.
          injection E as <- <-. apply (IHn r3 l3); [|exact E4]. unfold rd_Read in E3.
          destruct (rd_content r) as [br|]; [|congruence].
          destruct (br_read n br (rd_src r)) as [[b0 e0] [br' s']]. injection E3 as <- <- <-. exact He. }
      destruct (session_err _ _ _ _ _ EN' ES) as [Q1 Q2].
      split; [intros [Hx|Hx]; [cbn [fst] in Hx; congruence|specialize (Q2 _ Hx); congruence]|]. split.
      * exists (map fst its). change (ok_headers ((Err er, l) :: o1)) with (ok_headers o1). rewrite Q1. reflexivity.
      * intros _. exists er. left. reflexivity.
Qed.
Lemma NewReader_data s r s1 : NewReader s = (Ok r, s1) -> r = RD s1 GFirst None [] None false /\
  expectString s narVersionMagic1 = (None, s1).
Proof.
  unfold NewReader. destruct (expectString s narVersionMagic1) as [[[]|] s']; try discriminate.
  intros H. injection H as <- <-. auto.
Qed.
Lemma truncated_session t s z r s1 plans o r' :
  wf_tree reader_name t -> src_data s ++ z = nar t -> 7 < length z -> fin s <> EEOF ->
  NewReader s = (Ok r, s1) -> session plans r = (o, r') ->
  ~ In (Err EEOF) (map fst o) /\ prefix_of (ok_headers o) (map fst (items [] t)) /\
  (nodes t < length plans -> exists er, In (Err er) (map fst o)).
Proof.
  intros Hwf Hd Hz He HN HS. apply NewReader_data in HN. destruct HN as [-> HE].
  set (s2 := Src [nar t] EEOF false).
  assert (Hs2 : flat s2 = (nar t ++ [], EEOF)).
  { unfold flat, s2, src_data. cbn [chunks fin concat]. reflexivity. }
  assert (Hx : ext z s s2).
  { exists z. split; [|auto]. unfold s2, src_data at 1. cbn [chunks concat]. rewrite app_nil_r. auto. }
  destruct (expect_ext _ _ _ _ _ Hz Hx HE) as (t2 & HE2 & Hx2).
  unfold nar in Hs2. rewrite <- app_assoc in Hs2.
  destruct (new_reader_ok _ _ _ Hs2) as (s2' & HN2 & F2).
  apply NewReader_data in HN2. destruct HN2 as [_ HN2]. rewrite HE2 in HN2. injection HN2 as <-.
  pose proof (expect_any _ _ _ _ HE) as (F & _). pose proof (expect_any _ _ _ _ HE2) as (G & _).
  rewrite <- (items_length t []).
  eapply (trunc_session z (fin s) (items [] t) Hz He plans _ (RD t2 GFirst None [] None false)); [| |exact HS].
  - unfold rsim. cbn [rd_err rd_closed rd_prev rd_gor rd_src rd_content]. repeat (split; [reflexivity|]).
    split; [destruct F; congruence|]. split; [|auto].
    eapply polite_fwd; [exact G|]. left. reflexivity.
  - split; [reflexivity|]. split; [reflexivity|]. split; [apply (chained_items _ _ Hwf)|].
    cbn [rd_gor rd_content rd_src resume fst snd]. split; [|left; reflexivity].
    change (bs "/") with (path_of []). apply node_serves; [exact Hwf|constructor|exact F2].
Qed.
