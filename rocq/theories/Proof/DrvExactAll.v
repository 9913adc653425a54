(** What can be read back, whatever the order in which Go walks the maps of the original (C49, C60). *)
From Verif Require Import Base.Bytes Base.BytesFacts Model.GoIO Model.Nixhash Model.Storepath Model.Derivation Model.DrvParser
  Spec.StorePathSpec Spec.DerivationSpec Spec.RoundSpec Spec.ValidSpec Proof.DrvEncode Proof.DrvValidate Proof.DrvAccept Proof.DrvText Proof.DrvAny Proof.DrvExact Proof.DrvValidOrder.
Ltac Zify.zify_post_hook ::= idtac.

(** In the order of the keys "__json" comes before "name". *)
Lemma sorted_named name env : strictly_sorted (map fst env) -> has_key "name" env \/ (has_key "__json" env /\ name <> []) -> named_in name env.
Proof.
  intros S [N|(J & N)]; [|left; auto].
  right. apply in_map_iff in N. destruct N as ([k v] & E & I). cbn [fst] in E. subst k. apply List.in_split in I. destruct I as (b & a & E). exists b, v, a. split; [exact E|].
  intros X. rewrite E, map_app in S. cbn [map fst] in S. apply strict_after in S. rewrite Forall_forall in S. apply S in X. vm_compute in X. discriminate X.
Qed.
Theorem read_back_all json d t r : wf_maps d -> aterm d t -> src_data r = t -> fin r = EEOF ->
  (exists d', ReadDerivation json r = Ok d' /\ same_drv d d') <->
  (in_shape d /\ (has_key "name" (d_env d) \/ (has_key "__json" (d_env d) /\ d_name d <> []))) /\ json_consistent json d /\ plain_text (d_platform d) /\ plain_text (d_builder d) /\ neat_drv d.
Proof.
  intros (W1 & W2 & W3) T HR HF. split.
  - intros (d' & R & S). apply accept_iff in R. destruct R as (_ & R & V). rewrite HR in R.
    assert (V0 : in_shape d /\ (has_key "name" (d_env d) \/ (has_key "__json" (d_env d) /\ d_name d <> []))) by (apply some_order; exists d'; auto).
    split; [exact V0|]. assert (RC := R). destruct RC as (body & f0 & f1 & f2 & f5 & f6 & os & is & es & _ & _ & _ & _ & O & _ & _ & I & _ & _ & _ & _ & E & J).
    pose proof (same_aterm _ _ _ S T) as (outs & ins & env & O1 & I1 & E1 & ET).
    assert (EO : outs = d_outputs d') by (apply (in_order_unique (d_outputs d')); [exact O1|split; [reflexivity|exact O]]). assert (EI : ins = d_inputs d') by (apply (in_order_unique (d_inputs d')); [exact I1|split; [reflexivity|exact I]]).
    assert (EE : env = d_env d') by (apply (in_order_unique (d_env d')); [exact E1|split; [reflexivity|exact E]]). subst outs ins env. rewrite ET in R.
    apply read_back in R. destruct R as (PP & PB & A). assert (N : neat_drv d') by (apply arrays_neat; apply A). apply (neat_same _ _ (same_sym _ _ S)) in N.
    destruct S as (Q1 & _ & _ & _ & Q5 & Q6 & _ & Q8). rewrite Q5, Q6. split; [|split; [exact PP|split; [exact PB|exact N]]]. unfold json_consistent in *. rewrite (same_mget _ _ (bs "__json") W3 Q8), Q1. exact J.
  - intros (V & J & PP & PB & N). destruct T as (outs & ins & env & (O1 & O2) & (I1 & I2) & (E1 & E2) & ->).
    set (d' := Drv (d_name d) outs (d_srcs d) ins (d_platform d) (d_builder d) (d_args d) env). assert (S : same_drv d d') by (unfold same_drv, d'; cbn; repeat split; auto). exists d'. split; [|exact S].
    assert (V' : drv_Validate d' = Ok tt).
    { destruct V as (V & VN). apply valid_order. split; [exact (same_shape _ _ S V)|]. apply sorted_named; [exact E2|]. cbn [d' d_env d_name].
      assert (KK : forall k, In k (mkeys (d_env d)) -> In k (mkeys env)) by (intros k X; eapply Permutation_in; [apply Permutation_map; exact E1|exact X]).
      unfold has_key in *. destruct VN as [VN|(VN & VM)]; [left|right]; auto. }
    pose proof (Validate_needs d' V') as (VO & VI & _ & _ & _ & _ & VE & _). apply accept_iff. split; [exact HF|]. split; [|exact V']. rewrite HR. apply (neat_reads json d' (neat_same _ _ S N) PP PB); [|exact O2|exact I2|exact E2| | |exact VE].
    + unfold json_consistent in *. unfold d' at 1 2. cbn [d_env d_name]. rewrite <- (same_mget _ _ (bs "__json") W3 E1). exact J.
    + intros X. apply in_map_iff in X. destruct X as (p & X & Y). destruct VO as [(o & VO & _)|(_ & VO)]; [rewrite VO in Y; destruct Y as [<-|[]]; discriminate X|]. rewrite Forall_forall in VO. exact (proj1 (VO p Y) X).
    + intros X. apply in_map_iff in X. destruct X as (p & X & Y). unfold valid_inputs in VI. rewrite Forall_forall in VI. destruct (VI p Y) as (Z & _). rewrite X in Z. discriminate Z.
Qed.


(** * A text says one derivation *)
Lemma quoted_inj a b : quoted a = quoted b -> a = b.
Proof. unfold quoted. cbn [app]. intros E. assert (E2 : a ++ [x22] = b ++ [x22]) by congruence. apply app_inj_tail in E2. apply E2. Qed.
Lemma quoted_map_inj a b : map quoted a = map quoted b -> a = b.
Proof. revert b. induction a as [|x a IH]; intros [|y b]; cbn [map]; intros E; try discriminate E; [reflexivity|]. f_equal; [apply quoted_inj; congruence|apply IH; congruence]. Qed.
Lemma fst_ext {A B} (x y : A * B) : fst x = fst y -> snd x = snd y -> x = y.
Proof. destruct x, y. cbn. congruence. Qed.
Lemma padded (items r1 r2 : list bytes) l1 l2 : items ++ r1 = map quoted l1 -> items ++ r2 = map quoted l2 -> length l1 = length l2 ->
  Forall (fun x => x = quoted []) r1 -> Forall (fun x => x = quoted []) r2 -> l1 = l2.
Proof.
  intros E1 E2 L F1 F2. apply quoted_map_inj. rewrite <- E1, <- E2. f_equal. assert (LR : length r1 = length r2).
  { apply (f_equal (@length bytes)) in E1, E2. rewrite app_length, map_length in E1, E2. lia. }
  clear - LR F1 F2. revert r2 LR F2. induction F1 as [|x r1 -> F1 IH]; intros [|y r2] L F2; try discriminate L; [reflexivity|]. inversion F2; subst. f_equal. apply IH; auto.
Qed.
Lemma output_fun v a b : reads_output v a -> reads_output v b -> a = b.
Proof.
  intros (_ & i1 & r1 & A1 & E1 & _ & F1) (_ & i2 & r2 & A2 & E2 & _ & F2). rewrite (array_unique _ _ _ A2 A1) in E2.
  pose proof (padded _ _ _ _ _ E1 E2 eq_refl F1 F2) as X. destruct a as [n [p al h]], b as [n' [p' al' h']]. cbn [fst snd o_path o_algo o_hash] in X. congruence.
Qed.
Lemma input_fun v a b : reads_input v a -> reads_input v b -> a = b.
Proof.
  intros (_ & w1 & H1) (_ & w2 & H2). destruct H1 as [(A1 & B1)|(A1 & B1)], H2 as [(A2 & B2)|(A2 & B2)]; pose proof (array_unique _ _ _ A1 A2) as E; try discriminate E.
  - assert (w1 = w2) by congruence. subst w2. apply fst_ext; [apply quoted_inj; congruence|apply quoted_map_inj, (array_unique _ _ _ B1 B2)].
  - apply fst_ext; [apply quoted_inj; congruence|congruence].
Qed.
Lemma env_fun v a b : reads_env v a -> reads_env v b -> a = b.
Proof.
  intros (_ & w1 & S1 & H1) (_ & w2 & S2 & H2). destruct H1 as [A1|(A1 & B1)], H2 as [A2|(A2 & B2)]; pose proof (array_unique _ _ _ A1 A2) as E; try discriminate E.
  - apply fst_ext; [apply quoted_inj; congruence|]. rewrite S1, S2. f_equal. apply quoted_inj. congruence.
  - apply fst_ext; [apply quoted_inj; congruence|]. rewrite S1, S2, B1, B2. reflexivity.
Qed.
Lemma forall2_fun {A B} (R : A -> B -> Prop) l a b : (forall x y z, R x y -> R x z -> y = z) -> Forall2 R l a -> Forall2 R l b -> a = b.
Proof. intros H X. revert b. induction X as [|x y l a XY X IH]; intros b Y; inversion Y; subst; [reflexivity|]. f_equal; [eapply H; eauto|apply IH; assumption]. Qed.
(** Whatever the names. *)
Lemma reads_fun j1 j2 text d e : reads_drv j1 text d -> reads_drv j2 text e ->
  d_outputs d = d_outputs e /\ d_inputs d = d_inputs e /\ d_srcs d = d_srcs e /\ d_platform d = d_platform e /\ d_builder d = d_builder e /\ d_args d = d_args e /\ d_env d = d_env e.
Proof.
  intros (b & f0 & f1 & f2 & f5 & f6 & os & is & es & T & A & A0 & O & _ & A1 & I & _ & A2 & A5 & A6 & E & _)
    (b' & g0 & g1 & g2 & g5 & g6 & os' & is' & es' & T' & A' & A0' & O' & _ & A1' & I' & _ & A2' & A5' & A6' & E' & _).
  assert (b = b') by (apply (app_inv_head (bs "Derive")); congruence). subst b'. pose proof (array_unique _ _ _ A A') as X.
  assert (f0 = g0 /\ f1 = g1 /\ f2 = g2 /\ f5 = g5 /\ f6 = g6 /\ quoted (d_platform d) = quoted (d_platform e) /\ quoted (d_builder d) = quoted (d_builder e)) as (<- & <- & <- & <- & <- & P & B) by (repeat split; congruence).
  rewrite (array_unique _ _ _ A0' A0) in O'. rewrite (array_unique _ _ _ A1' A1) in I'. rewrite (array_unique _ _ _ A6' A6) in E'.
  split; [exact (forall2_fun _ _ _ _ output_fun O O')|]. split; [exact (forall2_fun _ _ _ _ input_fun I I')|].
  split; [apply quoted_map_inj, (array_unique _ _ _ A2 A2')|]. split; [apply quoted_inj, P|]. split; [apply quoted_inj, B|].
  split; [apply quoted_map_inj, (array_unique _ _ _ A5 A5')|exact (forall2_fun _ _ _ _ env_fun E E')].
Qed.
Theorem unchanged_iff json r d : ReadDerivation json r = Ok d ->
  exists t, (forall w, Forall (eq None) (plan w) -> exists pl, WriteDerivation d w = (Ok tt, Sink (out w ++ t) pl)) /\
    (t = src_data r <-> neat_text (src_data r)).
Proof.
  intros R. destruct (again_iff json r d R) as (t0 & _ & _). destruct (read_facts json r d R) as (W & J & V & SO & SI & SE & NO & NI & NE).
  set (t := drv_text (d_outputs d) (d_inputs d) (d_srcs d) (d_platform d) (d_builder d) (d_args d) (d_env d)). exists t.
  assert (T : forall t', aterm d t' -> t' = t).
  { intros t' (os & is & es & O & I & E & ->). unfold t. f_equal; [apply (in_order_unique (d_outputs d)); [exact O|]|apply (in_order_unique (d_inputs d)); [exact I|]|apply (in_order_unique (d_env d)); [exact E|]]; split; auto. }
  split. { intros w G. destruct (write_good d w W G) as (t' & pl & A & E). exists pl. rewrite <- (T t' A). exact E. }
  apply accept_iff in R. destruct R as (_ & R & _). split.
  - intros E. rewrite <- E in R |- *. pose proof R as X. apply read_back in X. destruct X as (PP & PB & X). assert (Y : neat_drv d) by (apply arrays_neat; apply X).
    exists (d_outputs d), (d_inputs d), (d_srcs d), (d_platform d), (d_builder d), (d_args d), (d_env d). unfold mkeys in *. split; [reflexivity|]. repeat (split; [assumption|]). exact Y.
  - intros (os & is & srcs & pl & bl & args & env & E & S0 & S1 & S6 & K0 & K1 & K6 & PP & PB & N).
    pose proof (neat_reads (fun _ => Ok (Some [])) (drv_of os is srcs pl bl args env) N PP PB) as X. cbn [drv_of d_outputs d_inputs d_srcs d_platform d_builder d_args d_env] in X. rewrite <- E in X.
    assert (JC : json_consistent (fun _ => Ok (Some [])) (drv_of os is srcs pl bl args env)) by (unfold json_consistent; destruct (mget _ _); reflexivity).
    specialize (X JC S0 S1 S6 K0 K1 K6). destruct (reads_fun _ _ _ _ _ R X) as (E1 & E2 & E3 & E4 & E5 & E6 & E7). unfold t. rewrite E1, E2, E3, E4, E5, E6, E7, E. reflexivity.
Qed.
