(** A dump always returns and leaves nothing behind. *)
From Verif Require Import Base.Bytes Base.BytesFacts Model.GoIO Model.GoStd Model.Wire Model.Nar
  Model.NarWriter Model.NarDump Model.NarDumpOS Model.Storepath Model.Derivation Model.DrvParser Model.StoreBackends Model.Handles
  Spec.NarSpec Spec.NarDumpSpec Spec.NarDumpOSSpec Spec.HandlesSpec
  Proof.EntryPath Proof.NarDumpProps Proof.NarDumpOSProps.
Ltac Zify.zify_post_hook ::= idtac.

(** * The writer *)
Definition live (r : wr) : Prop :=
  wr_closed r = false /\ match wr_gor r with WFirst => True | WWait _ _ => wr_cw r <> CWNil | WGone => False end.
Definition rest (r : wr) : Prop := wr_closed r = false /\ (wr_gor r = WGone \/ live r).
Definition known (h : header) : Prop := hd_type h = TypeRegular \/ hd_type h = TypeDirectory \/ hd_type h = TypeSymlink.
Definition returns (x : wres) : Prop := x = WOk \/ exists e, x = WErr e.

Lemma emit_head_cw h cw w cw' w' : known h -> emit_head h cw w = (None, (cw', w')) -> cw' <> CWNil.
Proof.
  intros Hk. unfold emit_head. destruct (wstrs _ w) as [[er|] w1]; [discriminate|].
  destruct Hk as [-> | [-> | ->]].
  - change (beq TypeRegular TypeRegular) with true. cbn iota.
    set (M := if hd_exec h then _ else _). destruct M as [[er|] w2]; [discriminate|].
    destruct (WriteString w2 _) as [[er|] w3]; [discriminate|].
    destruct (NewBytesWriter w3 _) as [[bw|e|m] w4]; try discriminate. intros H; inversion H; discriminate.
  - change (beq TypeDirectory TypeRegular) with false. change (beq TypeDirectory TypeSymlink) with false.
    change (beq TypeDirectory TypeDirectory) with true. cbn [orb].
    destruct (NewBytesWriter _ 0) as [[bw|e|m] w4]; try discriminate. intros H; inversion H; discriminate.
  - change (beq TypeSymlink TypeRegular) with false. change (beq TypeSymlink TypeSymlink) with true. cbn [orb].
    destruct (wstrs _ w1) as [[er|] w2]; [discriminate|].
    destruct (NewBytesWriter _ 0) as [[bw|e|m] w4]; try discriminate. intros H; inversion H; discriminate.
Qed.
Lemma handle_cw h : known h -> forall up cur cw w cur' up' cw' w',
  handle cur up h cw w = HWait cur' up' cw' w' -> cw' <> CWNil.
Proof.
  intros Hk. induction up as [|p up IH]; intros cur cw w cur' up' cw' w'; cbn [handle];
    (destruct (PathIsLexicographicallyOrdered _ _); cbn [negb]; [|discriminate]);
    (destruct (goes_up _); [destruct (WriteString w _) as [[er|] w1]; try discriminate|]).
  1,3: destruct (beq (hd_type cur) TypeDirectory); cbn [negb]; try discriminate;
    destruct (IsValidNodeName _); cbn [negb]; try discriminate;
    destruct (wstrs _ w) as [[er|] w1]; try discriminate;
    destruct (emit_head h cw w1) as [[er|] [cw1 w2]] eqn:E; try discriminate;
    intros H; inversion H; subst; eapply emit_head_cw; eauto.
  destruct (WriteString w1 _) as [[er|] w2]; try discriminate. apply IH.
Qed.
Lemma cw_close_some cw w : cw <> CWNil -> exists e cw' w', cw_close cw w = (Some e, (cw', w')).
Proof.
  destruct cw as [|bw|bw b]; [congruence| |]; intros _; cbn [cw_close].
  - destruct (bw_close bw w) as [e [bw' w']]. eauto.
  - destruct (bw_close bw b) as [e [bw' b']]. eauto.
Qed.
Lemma WriteHeader_returns h r x r' : known h -> live r -> WriteHeader h r = (x, r') ->
  (x = WOk /\ live r' /\ wr_cw r' <> CWNil) \/ ((exists e, x = WErr e) /\ rest r').
Proof.
  intros Hk [Hc Hg]. unfold WriteHeader.
  assert (V : (exists e, hd_Validate h = Err e) \/ hd_Validate h = Ok tt).
  { unfold hd_Validate. repeat match goal with |- context [if ?b then _ else _] => destruct b end; eauto. }
  destruct V as [[e ->] | ->].
  - intros H; inversion H; subst. right. split; [eauto|]. split; [exact Hc|]. right. split; assumption.
  - rewrite Hc. destruct (wr_gor r) as [|cur up|] eqn:EG; [| |destruct Hg].
    + destruct (beq (hd_path h) _); cbn [negb].
      * destruct (emit_head h (wr_cw r) (wr_sink r)) as [[er|] [cw w]] eqn:E; intros H; inversion H; subst.
        -- right. split; [eauto|]. split; [reflexivity|left; reflexivity].
        -- left. apply emit_head_cw in E; [|exact Hk]. split; [reflexivity|]. split; [split; [reflexivity|exact E]|exact E].
      * intros H; inversion H; subst. right. split; [eauto|]. split; [reflexivity|left; reflexivity].
    + destruct (cw_close_some _ (wr_sink r) Hg) as (e & cw & w & ->). destruct e as [er|].
      * intros H; inversion H; subst. right. split; [eauto|]. split; [reflexivity|left; reflexivity].
      * destruct (handle cur up h cw w) as [er cw' w'|cur' up' cw' w'] eqn:E; intros H; inversion H; subst.
        -- right. split; [eauto|]. split; [reflexivity|left; reflexivity].
        -- left. apply handle_cw in E; [|exact Hk]. split; [reflexivity|]. split; [split; [reflexivity|exact E]|exact E].
Qed.
Lemma Write_returns b r n x r' : live r -> wr_cw r <> CWNil -> wr_Write b r = ((n, x), r') ->
  returns x /\ live r' /\ wr_cw r' <> CWNil.
Proof.
  intros [Hc Hg] Hn. unfold wr_Write. destruct (wr_cw r) as [|bw|bw b0] eqn:E; [congruence| |].
  - destruct (bw_write bw b (wr_sink r)) as [[k e] [bw' w']]. intros H; inversion H; subst.
    split; [destruct e; [right; eauto|left; reflexivity]|]. split; [|discriminate]. split; [exact Hc|]. cbn.
    destruct (wr_gor r); auto; discriminate.
  - destruct (bw_write bw b b0) as [[k e] [bw' w']]. intros H; inversion H; subst.
    split; [destruct e; [right; eauto|left; reflexivity]|]. split; [|discriminate]. split; [exact Hc|]. cbn.
    destruct (wr_gor r); auto; discriminate.
Qed.
Lemma copy_returns fuel : forall s n r n' x r', src_size s < fuel -> live r -> wr_cw r <> CWNil ->
  io_copy fuel s n r = ((n', x), r') -> returns x /\ live r'.
Proof.
  induction fuel as [|f IH]; intros s n r n' x r' Hf Hl Hn; [lia|]. cbn [io_copy].
  destruct (src_read 32768%N s) as [[b e] s'] eqn:ER. destruct (src_read_32k _ _ _ _ ER) as (_ & _ & _ & Sz & _).
  set (M := match b with [] => _ | _ => _ end). destruct M as [ok [n1 r1]] eqn:EM.
  assert (G : returns ok /\ live r1 /\ wr_cw r1 <> CWNil).
  { subst M. destruct b as [|b0 b].
    - inversion EM; subst. split; [left; reflexivity|auto].
    - destruct (wr_Write (b0 :: b) r) as [[k y] r2] eqn:EW. apply Write_returns in EW; [|assumption..].
      destruct EW as ([-> | [er ->]] & L1 & L2); inversion EM; subst; (split; [|auto]).
      { destruct (Nat.eqb k _); [left; reflexivity|right; eauto]. }
      { right; eauto. } }
  destruct G as ([-> | [er ->]] & L1 & L2).
  - destruct e as [er|].
    + destruct er; intros H; inversion H; subst; split; auto; [left; reflexivity|right; eauto..].
    + apply IH; [specialize (Sz eq_refl); lia|assumption..].
  - intros H; inversion H; subst. split; [right; eauto|exact L1].
Qed.
Lemma Close_ends r x r' : rest r -> wr_Close r = (x, r') -> returns x /\ wr_gor r' = WGone /\ wr_closed r' = true.
Proof.
  intros [Hc Hg]. unfold wr_Close. rewrite Hc.
  assert (G : wr_gor r = WGone \/ wr_gor r = WFirst \/ exists c u, wr_gor r = WWait c u /\ wr_cw r <> CWNil).
  { destruct Hg as [Hg|[_ Hg]]; [auto|]. destruct (wr_gor r) as [|c u|]; [auto|right; right; eauto|destruct Hg]. }
  destruct G as [-> | [-> | (c & u & -> & Hn)]].
  - intros H; inversion H; subst. split; [left; reflexivity|auto].
  - intros H; inversion H; subst. split; [right; eauto|auto].
  - destruct (cw_close_some _ (wr_sink r) Hn) as (e & cw & w & ->). destruct e as [er|].
    + intros H; inversion H; subst. split; [right; eauto|auto].
    + destruct (finish u w) as [[er|] w1]; intros H; inversion H; subst; (split; [|auto]); [right; eauto|left; reflexivity].
Qed.
Lemma NewWriter_cases w : (exists e w', NewWriter w = (Err e, w')) \/ (exists r w', NewWriter w = (Ok r, w') /\ live r).
Proof.
  unfold NewWriter. destruct (WriteString w _) as [[er|] w1]; [left; eauto|right; eexists _, _; split; [reflexivity|]].
  split; [reflexivity|exact I].
Qed.

(** * The dump *)
Lemma oat_app a b : one_at_a_time a -> one_at_a_time b -> one_at_a_time (a ++ b).
Proof. induction 1; intros Hb; cbn [app]; [exact Hb|constructor; auto]. Qed.
Lemma close_one_head p l : close_one p (p :: l) = l.
Proof. cbn [close_one]. rewrite beq_refl. reflexivity. Qed.
Lemma oat_open l : one_at_a_time l -> forall now, open_files l now = now.
Proof. induction 1; intros now; cbn [open_files]; [reflexivity|]. rewrite close_one_head. auto. Qed.

Section OS.
Variable flt : option (bytes -> bytes -> bool).
Variable root : bytes.
Variable W : nat -> bytes -> os_answer.
Definition ev_list (fuel : nat) (subpath : bytes) :=
  fix loop (names : list bytes) (k : nat) (r : wr) : (wres * (nat * wr)) * list event :=
    match names with
    | [] => ((WOk, (k, r)), [])
    | name :: names' =>
        let '((x, (k, r)), evs) := dumpEv flt root W fuel (Join2 subpath name) k r in
        match x with
        | WOk => let '(res, evs') := loop names' k r in (res, evs ++ evs')
        | _ => ((x, (k, r)), evs)
        end
    end.
Lemma ev_erase fuel : forall sub k r, fst (dumpEv flt root W fuel sub k r) = dumpOS flt root W fuel sub k r.
Proof.
  induction fuel as [|fuel IH]; intros sub k r; cbn [dumpEv dumpOS]; [reflexivity|].
  destruct (a_lstat _) as [m s| | | |e]; try reflexivity; destruct (rejects _ _ _); try reflexivity.
  - destruct (WriteHeader _ r) as [[] r1]; try reflexivity. destruct (a_open _); [|reflexivity].
    destruct (io_copy _ _ _ _) as [[n x] r2]. reflexivity.
  - destruct (a_readlink _); [|reflexivity]. destruct (WriteHeader _ r) as [x r1]. reflexivity.
  - destruct (WriteHeader _ r) as [[] r1]; try reflexivity. destruct (a_readdir _) as [ns|]; [|reflexivity].
    fold (ev_list fuel sub). fold (os_list flt root W fuel sub). generalize (S (S k)). revert r1.
    induction ns as [|n ns IHn]; intros r1 k1; [reflexivity|]. cbn [ev_list os_list]. rewrite <- IH.
    destruct (dumpEv flt root W fuel (Join2 sub n) k1 r1) as [[x [k2 r2]] evs]. cbn [fst].
    destruct x; try reflexivity. rewrite <- IHn. destruct (ev_list fuel sub ns k2 r2). reflexivity.
Qed.
Lemma DumpEv_erase fuel w : fst (DumpEv flt root W fuel w) = DumpOS flt root W fuel w.
Proof.
  unfold DumpEv, DumpOS. destruct (NewWriter w) as [[r0|e|m] w1]; try reflexivity.
  rewrite <- ev_erase. destruct (dumpEv flt root W fuel _ 0 r0) as [[x [k r1]] evs]. cbn [fst].
  destruct x; try reflexivity.
  - destruct (wr_Close r1) as [x r2] eqn:E. assert (E2 : forall y r3, wr_Close r2 = (y, r3) -> wr_sink r3 = wr_sink r2).
    { intros y r3. assert (C : wr_closed r2 = true).
      { unfold wr_Close in E. destruct (wr_closed r1) eqn:C1; [inversion E; subst; exact C1|].
        destruct (wr_gor r1) as [|c u|]; [inversion E; reflexivity| |inversion E; reflexivity].
        destruct (cw_close _ _) as [[[er|]|] [cw w2]]; [inversion E; reflexivity| |inversion E; reflexivity].
        destruct (finish u w2). inversion E. reflexivity. }
      unfold wr_Close. rewrite C. intros H; inversion H; reflexivity. }
    destruct x; try reflexivity; destruct (wr_Close r2) as [y r3]; rewrite (E2 _ _ eq_refl); reflexivity.
  - destruct (wr_Close r1) as [x r2]. reflexivity.
Qed.

(** Any file system: no panic but for the depth, nothing blocks, files are closed. *)
Lemma ev_returns fuel : forall sub k r x k' r' evs, live r ->
  dumpEv flt root W fuel sub k r = ((x, (k', r')), evs) ->
  one_at_a_time evs /\ ((x = WOk /\ live r') \/ ((exists e, x = WErr e) /\ rest r') \/ x = WPanic "out of fuel").
Proof.
  induction fuel as [|fuel IH]; intros sub k r x k' r' evs Hl; cbn [dumpEv].
  { intros H; inversion H; subst. split; [constructor|]. auto. }
  assert (R : rest r) by (split; [apply Hl|right; exact Hl]).
  assert (D1 : forall e j, ((WErr e, (j, r)), []) = ((x, (k', r')), evs) -> one_at_a_time evs /\
    ((x = WOk /\ live r') \/ ((exists e, x = WErr e) /\ rest r') \/ x = WPanic "out of fuel")).
  { intros e j H; inversion H; subst. split; [constructor|]. right. left. eauto. }
  assert (D2 : forall j, ((WOk, (j, r)), []) = ((x, (k', r')), evs) -> one_at_a_time evs /\
    ((x = WOk /\ live r') \/ ((exists e, x = WErr e) /\ rest r') \/ x = WPanic "out of fuel")).
  { intros j H; inversion H; subst. split; [constructor|]. left. auto. }
  destruct (a_lstat _) as [m s| | | |e]; try (apply D1); destruct (rejects _ _ _); try (apply D2).
  - destruct (WriteHeader _ r) as [y r1] eqn:E1. apply WriteHeader_returns in E1; [|left; reflexivity|exact Hl].
    destruct E1 as [(-> & L1 & L2)|([e ->] & R1)].
    2:{ intros H; inversion H; subst. split; [constructor|]. right. left. eauto. }
    destruct (a_open _) as [d|e].
    2:{ intros H; inversion H; subst. split; [constructor|]. right. left. split; [eauto|]. split; [apply L1|right; exact L1]. }
    destruct (io_copy _ d 0 r1) as [[n y] r2] eqn:E2. apply copy_returns in E2; [|lia|assumption..].
    destruct E2 as ([-> | [e ->]] & L3); intros H; inversion H; subst; (split; [repeat constructor|]).
    + destruct (Z.eqb n s); [left; auto|right; left]. split; [eauto|]. split; [apply L3|right; exact L3].
    + right; left. split; [eauto|]. split; [apply L3|right; exact L3].
  - destruct (a_readlink _) as [t|e]; [|apply D1].
    destruct (WriteHeader _ r) as [y r1] eqn:E1. apply WriteHeader_returns in E1; [|right; right; reflexivity|exact Hl].
    intros H; inversion H; subst. split; [constructor|]. destruct E1 as [(-> & L1 & L2)|([e ->] & R1)]; [left; auto|right; left; eauto].
  - destruct (WriteHeader _ r) as [y r1] eqn:E1. apply WriteHeader_returns in E1; [|right; left; reflexivity|exact Hl].
    destruct E1 as [(-> & L1 & _)|([e ->] & R1)].
    2:{ intros H; inversion H; subst. split; [constructor|]. right. left. eauto. }
    destruct (a_readdir _) as [ns|e].
    2:{ intros H; inversion H; subst. split; [constructor|]. right. left. split; [eauto|]. split; [apply L1|right; exact L1]. }
    fold (ev_list fuel sub). generalize (S (S k)). clear R D1 D2 Hl r. revert r1 L1 evs.
    induction ns as [|n ns IHn]; intros r1 L1 evs k1; cbn [ev_list].
    { intros H; inversion H; subst. split; [constructor|]. left. auto. }
    destruct (dumpEv flt root W fuel (Join2 sub n) k1 r1) as [[y [k2 r2]] ev1] eqn:E2.
    apply IH in E2; [|exact L1]. destruct E2 as (O1 & [(-> & L2)|[([e ->] & R2)| ->]]).
    + destruct (ev_list fuel sub ns k2 r2) as [res ev2] eqn:E3. intros H; inversion H; subst.
      destruct (IHn _ L2 _ _ E3) as (O2 & G). split; [apply oat_app; assumption|exact G].
    + intros H; inversion H; subst. split; [exact O1|]. right. left. eauto.
    + intros H; inversion H; subst. split; [exact O1|]. auto.
Qed.

(** Enough depth. *)
Lemma ev_deep d : readdir_names W -> no_deeper root W d -> forall fuel cs k r x k' r' evs,
  ecomps cs -> length cs <= d -> d < length cs + fuel ->
  dumpEv flt root W fuel (path_of cs) k r = ((x, (k', r')), evs) -> live r -> x <> WPanic "out of fuel".
Proof.
  intros HN HD. induction fuel as [|fuel IH]; intros cs k r x k' r' evs Hcs Hd Hf; [lia|]. intros E Hl.
  revert E. cbn [dumpEv]. fold (full_path root cs).
  destruct (a_lstat (W k (full_path root cs))) as [m s| | | |e] eqn:EL; try (intros H; inversion H; discriminate);
    destruct (rejects _ _ _); try (intros H; inversion H; discriminate).
  - destruct (WriteHeader _ r) as [y r1] eqn:E1. apply WriteHeader_returns in E1; [|left; reflexivity|exact Hl].
    destruct E1 as [(-> & L1 & L2)|([e ->] & R1)]; [|intros H; inversion H; discriminate].
    destruct (a_open _) as [s0|e]; [|intros H; inversion H; discriminate].
    destruct (io_copy _ s0 0 r1) as [[n y] r2] eqn:E2. apply copy_returns in E2; [|lia|assumption..].
    destruct E2 as ([-> | [e ->]] & L3); intros H; inversion H; subst; [|discriminate]. destruct (Z.eqb n s); discriminate.
  - destruct (a_readlink _) as [t|e]; [|intros H; inversion H; discriminate].
    destruct (WriteHeader _ r) as [y r1] eqn:E1. apply WriteHeader_returns in E1; [|right; right; reflexivity|exact Hl].
    intros H; inversion H; subst. destruct E1 as [(-> & _)|([e ->] & _)]; discriminate.
  - destruct (WriteHeader _ r) as [y r1] eqn:E1. apply WriteHeader_returns in E1; [|right; left; reflexivity|exact Hl].
    destruct E1 as [(-> & L1 & _)|([e ->] & R1)]; [|intros H; inversion H; discriminate].
    destruct (a_readdir _) as [ns|e] eqn:ER; [|intros H; inversion H; discriminate].
    assert (Hlt : length cs < d). { destruct (Nat.eq_dec (length cs) d) as [E|]; [|lia]. exfalso. eapply HD; eauto. }
    specialize (HN _ _ _ ER). fold (ev_list fuel (path_of cs)). generalize (S (S k)). clear ER EL k r Hl. revert r1 L1 evs.
    induction ns as [|n ns IHn]; intros r1 L1 evs k1; cbn [ev_list].
    { intros H; inversion H; discriminate. }
    inversion HN as [|? ? Nn Nr]; subst. rewrite e_Join_path_of by assumption.
    destruct (dumpEv flt root W fuel (path_of (cs ++ [n])) k1 r1) as [[y [k2 r2]] ev1] eqn:E2.
    assert (G1 : y <> WPanic "out of fuel").
    { apply (IH (cs ++ [n]) _ _ _ _ _ _ ltac:(apply Forall_app; split; auto) ltac:(rewrite app_length; cbn [length]; lia) ltac:(rewrite app_length; cbn [length]; lia) E2 L1). }
    apply ev_returns in E2; [|exact L1]. destruct E2 as (_ & [(-> & L2)|[([e ->] & R2)| ->]]).
    + destruct (ev_list fuel (path_of cs) ns k2 r2) as [res ev2] eqn:E3. intros H; inversion H; subst.
      eapply IHn; [exact Nr|exact L2|exact E3].
    + intros H; inversion H; discriminate.
    + congruence.
Qed.

Lemma DumpEv_returns fuel w x k w' evs g : DumpEv flt root W fuel w = ((x, (k, w')), (evs, g)) ->
  one_at_a_time evs /\ ((returns x /\ g <> Running) \/ x = WPanic "out of fuel").
Proof.
  unfold DumpEv. destruct (NewWriter_cases w) as [(e & w1 & ->)|(r & w1 & -> & Hl)].
  { intros H; inversion H; subst. split; [constructor|]. left. split; [right; eauto|discriminate]. }
  destruct (dumpEv flt root W fuel _ 0 r) as [[y [k1 r1]] ev1] eqn:E. apply ev_returns in E; [|exact Hl].
  destruct E as (O & [(-> & L1)|[([e ->] & R1)| ->]]).
  - assert (R1 : rest r1) by (split; [apply L1|right; exact L1]).
    destruct (wr_Close r1) as [y r2] eqn:EC. destruct (Close_ends _ _ _ R1 EC) as (Y & G2 & C2).
    assert (E2 : wr_Close r2 = (WErr (EMsg "already closed"), r2)) by (unfold wr_Close; rewrite C2; reflexivity).
    rewrite E2. assert (Gg : goroutine_of r2 = Ended) by (unfold goroutine_of; rewrite G2; reflexivity). rewrite Gg.
    destruct Y as [-> | [e ->]]; intros H; inversion H; subst; (split; [exact O|]); left; (split; [|discriminate]);
      [left; reflexivity|right; eauto].
  - destruct (wr_Close r1) as [y r2] eqn:EC. destruct (Close_ends _ _ _ R1 EC) as (Y & G2 & C2).
    assert (Gg : goroutine_of r2 = Ended) by (unfold goroutine_of; rewrite G2; reflexivity). rewrite Gg.
    intros H; inversion H; subst. split; [exact O|]. left. split; [right; eauto|discriminate].
  - intros H; inversion H; subst. split; [exact O|]. auto.
Qed.
Lemma DumpEv_all d fuel w x k w' evs g : readdir_names W -> no_deeper root W d -> d < fuel ->
  DumpEv flt root W fuel w = ((x, (k, w')), (evs, g)) -> returns x /\ g <> Running /\ one_at_a_time evs.
Proof.
  intros HN HD Hf E. destruct (DumpEv_returns _ _ _ _ _ _ _ E) as (O & [[G1 G2]|G]); [auto|]. exfalso. subst x.
  revert E. unfold DumpEv. destruct (NewWriter_cases w) as [(e & w1 & ->)|(r & w1 & -> & Hl)]; [discriminate|].
  change (bs "/") with (path_of []).
  destruct (dumpEv flt root W fuel _ 0 r) as [[y [k1 r1]] ev1] eqn:E.
  assert (G : y <> WPanic "out of fuel").
  { eapply (ev_deep d HN HD fuel []); [constructor|cbn; lia|cbn; lia|exact E|exact Hl]. }
  apply ev_returns in E; [|exact Hl]. destruct E as (_ & [(-> & L1)|[([e ->] & R1)| ->]]); [| |congruence].
  - assert (R1 : rest r1) by (split; [apply L1|right; exact L1]).
    destruct (wr_Close r1) as [y r2] eqn:EC. destruct (Close_ends _ _ _ R1 EC) as (Y & _ & _).
    destruct Y as [-> | [e ->]]; destruct (wr_Close r2); discriminate.
  - destruct (wr_Close r1). discriminate.
Qed.
End OS.

(** * The stores *)
Section Stores.
Variable json : bytes -> res (option bytes).
Lemma fs_Get_erase o dir p : fst (fs_Get_ev json o dir p) = fs_Get json o dir p.
Proof. unfold fs_Get_ev, fs_Get. destruct (os_open o _); reflexivity. Qed.
Lemma http_Get_erase ask base p : fst (http_Get_ev json ask base p) = http_Get json ask base p.
Proof. unfold http_Get_ev, http_Get. destruct (ask _); reflexivity. Qed.
Lemma http_Has_erase ask base p : fst (http_Has_ev ask base p) = http_Has ask base p.
Proof. unfold http_Has_ev, http_Has. destruct (ask _); reflexivity. Qed.
Lemma fs_Gets_open o dir ps : forall now, (forall p, In p ps -> exists s, os_open o (getFilepath dir p) = Ok s) ->
  open_files (snd (fs_Gets_ev json o dir ps)) now = rev (map (getFilepath dir) ps) ++ now.
Proof.
  induction ps as [|p ps IH]; intros now H; [reflexivity|]. cbn [fs_Gets_ev].
  destruct (H p (or_introl eq_refl)) as [s Hs]. unfold fs_Get_ev. rewrite Hs.
  destruct (fs_Gets_ev json o dir ps) as [ds e2]. cbn [snd] in *. cbn [app open_files].
  rewrite IH by (intros q Hq; apply H; right; exact Hq). cbn [map rev]. rewrite <- app_assoc. reflexivity.
Qed.
End Stores.
