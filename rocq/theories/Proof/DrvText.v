From Verif Require Import Base.Bytes Base.BytesFacts Model.GoIO Model.GoStd Model.Nixhash Model.Storepath Model.Derivation Model.DrvParser Spec.DerivationSpec
  Proof.StorePathProps Proof.DrvEncode Proof.DrvParse Proof.DrvRound Proof.DrvValidate.
Ltac Zify.zify_post_hook ::= idtac.

(** * Writing to a writer *)
Lemma run_writes_good l : forall w, Forall (eq None) (plan w) -> run_writes l w = (None, Sink (out w ++ concat l) (skipn (length l) (plan w))).
Proof.
  induction l as [|p l IH]; intros [o pl] H; cbn [run_writes out plan concat length].
  - rewrite app_nil_r. reflexivity.
  - unfold wwrite_, wwrite. cbn [plan out]. cbn [plan] in H. destruct pl as [|x pl].
    + rewrite IH by constructor. cbn [out plan]. rewrite <- app_assoc. destruct l; reflexivity.
    + inversion H as [|? ? <- H']; subst. rewrite IH by exact H'. cbn [out plan skipn]. rewrite <- app_assoc. reflexivity.
Qed.
Lemma run_writes_prefix l : forall w e w', run_writes l w = (e, w') ->
  exists p s, concat l = p ++ s /\ out w' = out w ++ p /\ match e with None => s = [] | Some x => x = EIo 1 end.
Proof.
  induction l as [|b l IH]; intros [o pl] e w' H; cbn [run_writes] in H.
  - injection H as <- <-. exists [], []. repeat split; cbn [out concat]; rewrite ?app_nil_r; reflexivity.
  - unfold wwrite_, wwrite in H. cbn [plan out] in *. destruct pl as [|[k|] pl].
    + apply IH in H. destruct H as (p & s & A & B & C). exists (b ++ p), s. cbn [concat out] in *. rewrite A, B, !app_assoc. auto.
    + injection H as <- <-. exists (firstn (Nat.min k (length b)) b), (skipn (Nat.min k (length b)) b ++ concat l).
      cbn [concat out]. rewrite app_assoc, firstn_skipn. auto.
    + apply IH in H. destruct H as (p & s & A & B & C). exists (b ++ p), s. cbn [concat out] in *. rewrite A, B, !app_assoc. auto.
Qed.
Lemma writes_ok d strip : exists l, drv_writes d strip [] = Ok l.
Proof. unfold drv_writes. cbn [rbind]. eauto. Qed.
Lemma write_good d w : wf_maps d -> Forall (eq None) (plan w) ->
  exists t pl, aterm d t /\ WriteDerivation d w = (Ok tt, Sink (out w ++ t) pl).
Proof.
  intros W P. destruct (bytes_aterm d false W) as (t & E & A). unfold WriteDerivation, drv_bytes in *. destruct (drv_writes d false []) as [l|e|m]; cbn [rbind] in E; try discriminate.
  injection E as E. rewrite run_writes_good by exact P. rewrite E. eauto.
Qed.
Lemma write_any d w : wf_maps d -> exists t p s w', aterm d t /\ t = p ++ s /\ out w' = out w ++ p /\
  ((WriteDerivation d w = (Ok tt, w') /\ s = []) \/ WriteDerivation d w = (Err (EIo 1), w')).
Proof.
  intros W. destruct (bytes_aterm d false W) as (t & E & A). unfold WriteDerivation, drv_bytes in *. destruct (drv_writes d false []) as [l|e|m]; cbn [rbind] in E; try discriminate.
  injection E as E. destruct (run_writes l w) as [e w'] eqn:R. destruct (run_writes_prefix l w e w' R) as (p & s & X & Y & Z).
  exists t, p, s, w'. split; [exact A|]. split; [congruence|]. split; [exact Y|]. destruct e as [x|]; [right; subst; reflexivity|left; auto].
Qed.

(** * Reading it back *)
Lemma lits outs ins srcs plat bld args env : Forall literal (raw_strings (drv_of outs ins srcs plat bld args env)) ->
  Forall lit_output outs /\ Forall lit_input ins /\ Forall literal srcs /\ Forall literal args /\ Forall lit_env env.
Proof.
  unfold raw_strings, drv_of. cbn [d_outputs d_inputs d_srcs d_args d_env]. rewrite !Forall_app. intros (A & B & C & D & E).
  repeat split; auto.
  - rewrite Forall_concat, Forall_map in A. apply Forall_impl with (2 := A). intros no H. cbn beta in H. inversion H as [|? ? H1 X1]; subst. inversion X1 as [|? ? H2 X2]; subst.
    inversion X2 as [|? ? H3 X3]; subst. inversion X3 as [|? ? H4 X4]; subst. repeat split; assumption.
  - rewrite Forall_concat, Forall_map in B. apply Forall_impl with (2 := B). intros pn H. cbn beta in H. inversion H; subst. split; assumption.
  - unfold mkeys in E. rewrite Forall_map in E. exact E.
Qed.
Lemma parse_canonical json text plat bld : canonical_text text plat bld -> plain_text plat -> plain_text bld ->
  exists outs ins srcs args env, text = drv_text outs ins srcs plat bld args env /\
    strictly_sorted (map fst outs) /\ strictly_sorted (map fst ins) /\ strictly_sorted (map fst env) /\
    parseDerivation json text = set_name json (drv_of outs ins srcs plat bld args env).
Proof.
  intros (outs & ins & srcs & args & env & -> & L & S1 & S2 & S3 & N1 & N2 & N3) P1 P2. exists outs, ins, srcs, args, env. repeat (split; [assumption || reflexivity|]).
  destruct (lits _ _ _ _ _ _ _ L) as (L1 & L2 & L3 & L4 & L5). rewrite parse_text by assumption. rewrite !escaped_plain by assumption. reflexivity.
Qed.
Lemma set_name_ok json d d' : set_name json d = Ok d' -> d' = Drv (d_name d') (d_outputs d) (d_srcs d) (d_inputs d) (d_platform d) (d_builder d) (d_args d) (d_env d).
Proof.
  unfold set_name. destruct (mget (d_env d) (bs "__json")) as [j|]; [|intros H; injection H as <-; destruct d; reflexivity].
  destruct (json j) as [[n|]|e|w]; cbn [rbind]; try discriminate. intros H. injection H as <-. reflexivity.
Qed.
Lemma canonical_lossless json r text plat bld d : canonical_text text plat bld -> plain_text plat -> plain_text bld -> src_data r = text ->
  ReadDerivation json r = Ok d -> forall w, Forall (eq None) (plan w) -> exists pl, WriteDerivation d w = (Ok tt, Sink (out w ++ text) pl).
Proof.
  intros C P1 P2 E H w G. destruct (parse_canonical json text plat bld C P1 P2) as (outs & ins & srcs & args & env & T & S1 & S2 & S3 & HP).
  unfold ReadDerivation, ReadAll in H. rewrite E in H. destruct (fin r); cbn [rbind] in H; try discriminate. rewrite HP in H.
  destruct (set_name json _) as [d0|e|m] eqn:SN; cbn [rbind] in H; try discriminate.
  destruct (drv_Validate d0); cbn [rbind] in H; try discriminate. injection H as <-. apply set_name_ok in SN. unfold drv_of in SN. cbn in SN.
  rewrite SN. set (d' := Drv (d_name d0) outs srcs ins plat bld args env).
  assert (W : wf_maps d') by (unfold wf_maps, mkeys, d'; cbn; repeat split; apply strict_sorted_nodup; assumption).
  destruct (write_good d' w W G) as (t & pl & A & HW). exists pl. rewrite HW. do 2 f_equal. f_equal.
  apply (aterm_unique d'); [exact A|]. exists outs, ins, env. unfold d'; cbn. repeat split; auto; apply Permutation_refl.
Qed.
Lemma escaped_len s : length s <= length (escaped s).
Proof. unfold escaped. induction s as [|c s IH]; [cbn; lia|]. cbn [map concat]. rewrite app_length. cbn [length]. assert (1 <= length (escaped_char c)) by (destruct c; cbn; lia). lia. Qed.
Lemma escaped_len_eq s : length (escaped s) = length s -> plain_text s.
Proof.
  intros E. apply escaped_fixed. induction s as [|c s IH]; [reflexivity|]. pose proof (escaped_len s) as L.
  unfold escaped in *. cbn [map concat length] in *. rewrite app_length in E.
  assert (K : length (escaped_char c) = 1) by (assert (1 <= length (escaped_char c)) by (destruct c; cbn; lia); lia).
  rewrite IH by lia. destruct c; try discriminate K; reflexivity.
Qed.
Lemma plain_of_escaped s : plain_text (escaped s) -> plain_text s.
Proof.
  intros H. apply escaped_fixed. induction s as [|c s IH]; [reflexivity|]. unfold escaped in *. cbn [map concat] in *.
  rewrite IH by (intros x X; apply H; apply in_or_app; auto).
  destruct c; try reflexivity; exfalso; (eapply H; [apply in_or_app; left; left; reflexivity|]); cbn; auto 10.
Qed.
Lemma drv_text_len outs ins srcs p b p' b' args env :
  length (drv_text outs ins srcs p b args env) + length (escaped p') + length (escaped b') =
  length (drv_text outs ins srcs p' b' args env) + length (escaped p) + length (escaped b).
Proof.
  unfold drv_text, parens. cbn [join_byte]. assert (Q : forall s, length (quoted s) = S (S (length s))) by (intros s; unfold quoted; rewrite !app_length; cbn; lia).
  repeat (rewrite !app_length || cbn [length]). rewrite !Q. lia.
Qed.
(** Reading a canonical text and writing it again, exactly. *)
Lemma canonical_exact json r text plat bld d : canonical_text text plat bld -> src_data r = text ->
  ReadDerivation json r = Ok d -> forall w, Forall (eq None) (plan w) ->
  d_platform d = escaped plat /\ d_builder d = escaped bld /\
  exists t pl, WriteDerivation d w = (Ok tt, Sink (out w ++ t) pl) /\ (t = text <-> plain_text plat /\ plain_text bld).
Proof.
  intros (outs & ins & srcs & args & env & -> & L & S1 & S2 & S3 & N1 & N2 & N3) E H w G.
  destruct (lits _ _ _ _ _ _ _ L) as (L1 & L2 & L3 & L4 & L5).
  unfold ReadDerivation, ReadAll in H. rewrite E in H. destruct (fin r); cbn [rbind] in H; try discriminate. rewrite parse_text in H by assumption.
  destruct (set_name json _) as [d0|e|m] eqn:SN; cbn [rbind] in H; try discriminate.
  destruct (drv_Validate d0); cbn [rbind] in H; try discriminate. injection H as <-. apply set_name_ok in SN. cbn in SN.
  rewrite SN. set (d' := Drv (d_name d0) outs srcs ins (escaped plat) (escaped bld) args env).
  split; [reflexivity|]. split; [reflexivity|].
  assert (W : wf_maps d') by (unfold wf_maps, mkeys, d'; cbn; repeat split; apply strict_sorted_nodup; assumption).
  destruct (write_good d' w W G) as (t & pl & A & HW). exists t, pl. split; [exact HW|].
  assert (T : t = drv_text outs ins srcs (escaped plat) (escaped bld) args env).
  { apply (aterm_unique d'); [exact A|]. exists outs, ins, env. unfold d'; cbn. repeat split; auto; apply Permutation_refl. }
  rewrite T. split.
  - intros X. pose proof (drv_text_len outs ins srcs (escaped plat) (escaped bld) plat bld args env) as Y. rewrite X in Y.
    pose proof (escaped_len (escaped plat)). pose proof (escaped_len (escaped bld)).
    split; apply plain_of_escaped, escaped_len_eq; lia.
  - intros [P1 P2]. rewrite !(escaped_plain plat), !(escaped_plain bld) by assumption. reflexivity.
Qed.
Lemma raw_perm d outs ins env : Permutation (d_outputs d) outs -> Permutation (d_inputs d) ins -> Permutation (d_env d) env ->
  Forall literal (raw_strings d) -> Forall literal (raw_strings (drv_of outs ins (d_srcs d) (d_platform d) (d_builder d) (d_args d) env)).
Proof.
  intros P1 P2 P3. unfold raw_strings, drv_of. cbn [d_outputs d_inputs d_srcs d_args d_env]. rewrite !Forall_app, !Forall_concat, !Forall_map.
  intros (A & B & C & D & E). unfold mkeys in *. rewrite Forall_map in *. repeat split; auto; eapply Permutation_Forall; eauto.
Qed.
Lemma round_trip json d : wf_maps d -> drv_Validate d = Ok tt -> ~ ambiguous d -> printable d -> json_consistent json d ->
  forall t, aterm d t -> forall r, src_data r = t -> fin r = EEOF -> exists d', ReadDerivation json r = Ok d' /\ same_drv d d'.
Proof.
  intros W V NA (PL & PP & PB) J t (outs & ins & env & (O1 & O2) & (I1 & I2) & (E1 & E2) & ->) r HR HF.
  pose proof (Validate_needs d V) as (VO & VI & _ & _ & _ & _ & VE & _).
  destruct (lits _ _ _ _ _ _ _ (raw_perm d outs ins env O1 I1 E1 PL)) as (L1 & L2 & L3 & L4 & L5).
  set (d' := Drv (d_name d) outs (d_srcs d) ins (d_platform d) (d_builder d) (d_args d) env).
  assert (S : same_drv d d') by (unfold same_drv, d'; cbn; repeat split; auto).
  exists d'. split; [|exact S].
  assert (NO : ~ In [] (map fst outs)).
  { intros X. assert (Y : In [] (mkeys (d_outputs d))) by (eapply Permutation_in; [apply Permutation_map; symmetry; exact O1|exact X]).
      unfold mkeys in Y. apply in_map_iff in Y. destruct Y as ([n o] & Y1 & Y2). cbn in Y1. subst n. destruct VO as [(o' & VO & _)|(_ & VO)].
      + rewrite VO in Y2. destruct Y2 as [Y2|[]]. discriminate.
      + rewrite Forall_forall in VO. destruct (VO _ Y2) as (Z & _). apply Z. reflexivity. }
  assert (NI : ~ In [] (map fst ins)).
  { intros X. assert (Y : In [] (mkeys (d_inputs d))) by (eapply Permutation_in; [apply Permutation_map; symmetry; exact I1|exact X]).
      unfold mkeys in Y. apply in_map_iff in Y. destruct Y as ([n o] & Y1 & Y2). cbn in Y1. subst n. unfold valid_inputs in VI. rewrite Forall_forall in VI. destruct (VI _ Y2) as (Z & _). discriminate Z. }
  assert (NE : ~ In [] (map fst env)).
  { intros X. apply VE. eapply Permutation_in; [apply Permutation_map; symmetry; exact E1|exact X]. }
  unfold ReadDerivation, ReadAll. rewrite HF, HR. cbn [rbind]. rewrite parse_text by assumption. rewrite !escaped_plain by assumption.
  replace (set_name json (Drv [] outs (d_srcs d) ins (d_platform d) (d_builder d) (d_args d) env)) with (Ok d').
  - cbn [rbind]. replace (drv_Validate d') with (Ok tt); [reflexivity|]. symmetry. apply Validate_iff; [intros X; apply NA; eapply same_ambiguous; [apply same_sym; exact S|exact X]|].
    apply (same_valid d d' S). apply Validate_iff; assumption.
  - unfold set_name, d'. cbn [d_env d_name d_outputs d_srcs d_inputs d_platform d_builder d_args]. unfold json_consistent in J.
    rewrite <- (same_mget (d_env d) env _ (proj2 (proj2 W)) E1). destruct (mget (d_env d) (bs "__json")) as [j|]; [rewrite J; reflexivity|rewrite J; reflexivity].
Qed.
