From Verif Require Import Base.Bytes Base.BytesFacts Model.GoIO Model.GoStd Model.Nixhash Model.Storepath Model.Derivation Model.DrvParser Spec.DerivationSpec
  Proof.StorePathProps Proof.DrvEncode.
Ltac Zify.zify_post_hook ::= idtac.

Lemma sorted_one x : sortedb [x].
Proof. constructor; constructor. Qed.
Lemma outputs_iff_gen n l : n <> 1 -> validate_outputs n l = Ok tt <->
  Forall (fun no => fst no <> [] /\ ~ fixed_output (snd no) /\ Validate (o_path (snd no)) = Ok tt) l.
Proof.
  intros Hn. induction l as [|[name o] l IH]; cbn [validate_outputs]; [split; auto|].
  destruct name as [|c name].
  { split; [discriminate|]. intros H. inversion H as [|? ? (X & _) _]; subst. cbn in X. congruence. }
  destruct (beq_spec (o_algo o) []) as [E|E]; cbn [negb].
  - destruct (Validate (o_path o)) as [[]|e|w] eqn:EV.
    + rewrite IH. split; intros H; [constructor; [cbn; unfold fixed_output; split; [discriminate|split; [congruence|exact EV]]|exact H]|inversion H; assumption].
    + split; [discriminate|]. intros H. inversion H as [|? ? (_ & _ & X) _]; subst. cbn in X. congruence.
    + split; [discriminate|]. intros H. inversion H as [|? ? (_ & _ & X) _]; subst. cbn in X. congruence.
  - replace (n =? 1) with false by (symmetry; apply Nat.eqb_neq; exact Hn). cbn [negb]. split; [discriminate|].
    intros H. inversion H as [|? ? (_ & X & _) _]; subst. exfalso. apply X. exact E.
Qed.
Lemma outputs_iff l : l <> [] -> validate_outputs (length l) l = Ok tt <-> valid_outputs l.
Proof.
  intros NE. destruct l as [|[name o] [|x l]]; [congruence| |].
  - cbn [length validate_outputs Nat.eqb negb]. unfold valid_outputs. destruct name as [|c name].
    { split; [discriminate|]. intros [(o' & X & _)|(_ & X)]; [discriminate|]. inversion X as [|? ? (Y & _) _]; subst. cbn in Y. congruence. }
    destruct (beq_spec (o_algo o) []) as [E|E]; cbn [negb].
    + destruct (Validate (o_path o)) as [[]|e|w] eqn:EV.
      * split; [intros _; right; split; [discriminate|]; constructor; [|constructor]; cbn; unfold fixed_output; split; [discriminate|split; [congruence|exact EV]]|reflexivity].
      * split; [discriminate|]. intros [(o' & X & F)|(_ & X)].
        -- assert (Z : o = o') by congruence. subst o'. exfalso. exact (F E).
        -- inversion X as [|? ? (_ & _ & Y) _]; subst. cbn in Y. congruence.
      * split; [discriminate|]. intros [(o' & X & F)|(_ & X)].
        -- assert (Z : o = o') by congruence. subst o'. exfalso. exact (F E).
        -- inversion X as [|? ? (_ & _ & Y) _]; subst. cbn in Y. congruence.
    + destruct (beq_spec (c :: name) (bs "out")) as [E2|E2]; cbn [negb].
      * split; [|reflexivity]. intros _. left. exists o. split; [congruence|exact E].
      * split; [discriminate|]. intros [(o' & X & F)|(_ & X)].
        -- exfalso. apply E2. congruence.
        -- inversion X as [|? ? (_ & Y & _) _]; subst. exfalso. exact (Y E).
  - rewrite outputs_iff_gen by discriminate. unfold valid_outputs. split; [intros H; right; split; [discriminate|exact H]|].
    intros [(o' & X & _)|(_ & X)]; [discriminate|exact X].
Qed.
Lemma sorted_cons x y l : sortedb (x :: y :: l) <-> ble x y = true /\ sortedb (y :: l).
Proof.
  split.
  - intros H. inversion H as [|? ? S F]; subst. inversion F; subst. auto.
  - intros [A B]. constructor; [exact B|]. inversion B as [|? ? S F]; subst. constructor; [exact A|].
    apply Forall_impl with (2 := F). intros z Hz. eapply ble_trans; eauto.
Qed.
Lemma names_iff l : forall prev, validate_names prev l = Ok tt <-> sortedb (match prev with Some p => p :: l | None => l end) /\ ~ In [] l.
Proof.
  induction l as [|o l IH]; intros prev; cbn [validate_names].
  - destruct prev; split; auto; intros _; (split; [try apply sorted_one; constructor|intros []]).
  - destruct prev as [p|].
    + rewrite sorted_cons, ble_not_blt. destruct (blt o p); cbn [negb]; [split; [discriminate|intros [[X _] _]; discriminate]|].
      destruct o as [|c o]; [split; [discriminate|intros [_ X]; exfalso; apply X; left; reflexivity]|]. rewrite IH. cbn [In].
      split; [intros [A B]; repeat split; auto; intros [X|X]; [discriminate|exact (B X)]|intros [[_ A] B]; split; [exact A|intros X; apply B; right; exact X]].
    + destruct o as [|c o]; [split; [discriminate|intros [_ X]; exfalso; apply X; left; reflexivity]|]. rewrite IH. cbn [In].
      split; [intros [A B]; repeat split; auto; intros [X|X]; [discriminate|exact (B X)]|intros [A B]; split; [exact A|intros X; apply B; right; exact X]].
Qed.
Lemma inputs_iff l : validate_inputs l = Ok tt <-> valid_inputs l.
Proof.
  unfold valid_inputs. induction l as [|[p names] l IH]; cbn [validate_inputs]; [split; auto|].
  destruct (Validate p) as [[]|e|w] eqn:EV; cbn [rbind].
  - destruct names as [|x names].
    { split; [discriminate|]. intros H. inversion H as [|? ? (_ & X & _) _]; subst. cbn in X. congruence. }
    pose proof (names_iff (x :: names) None) as HN. destruct (validate_names None (x :: names)) as [[]|e|w]; cbn [rbind].
    + rewrite IH. split; intros H; [constructor; [cbn; split; [exact EV|split; [discriminate|apply HN; reflexivity]]|exact H]|inversion H; assumption].
    + split; [discriminate|]. intros H. inversion H as [|? ? (_ & _ & X) _]; subst. apply HN in X. discriminate.
    + split; [discriminate|]. intros H. inversion H as [|? ? (_ & _ & X) _]; subst. apply HN in X. discriminate.
  - split; [discriminate|]. intros H. inversion H as [|? ? (X & _) _]; subst. cbn in X. congruence.
  - split; [discriminate|]. intros H. inversion H as [|? ? (X & _) _]; subst. cbn in X. congruence.
Qed.
Lemma srcs_iff l : forall prev, validate_srcs prev l = Ok tt <->
  Forall (fun s => Validate s = Ok tt) l /\ sortedb (match prev with Some p => p :: l | None => l end).
Proof.
  induction l as [|s l IH]; intros prev; cbn [validate_srcs].
  - destruct prev; split; auto; intros _; (split; [constructor|try apply sorted_one; constructor]).
  - destruct (Validate s) as [[]|e|w] eqn:EV.
    + destruct prev as [p|].
      * rewrite sorted_cons, ble_not_blt. destruct (blt s p); cbn [negb]; [split; [discriminate|intros [_ [X _]]; discriminate]|].
        rewrite IH. split; [intros [A B]; auto|intros [A [_ B]]; inversion A; auto].
      * rewrite IH. split; [intros [A B]; auto|intros [A B]; inversion A; auto].
    + split; [discriminate|]. intros [H _]. inversion H; congruence.
    + split; [discriminate|]. intros [H _]. inversion H; congruence.
Qed.
(** The env loop. *)
Definition last_flag (dname : bytes) (has : bool) (l : list (bytes * bytes)) : bool :=
  fold_left (fun h kv => if beq (fst kv) (bs "__json") then negb (beq dname []) else if beq (fst kv) (bs "name") then true else h) l has.
Lemma env_eq dname l : forall has, validate_env dname has l =
  if existsb (beq []) (mkeys l) then Err (EMsg "empty environment variable key") else Ok (last_flag dname has l).
Proof.
  induction l as [|[k v] l IH]; intros has; cbn [validate_env mkeys map existsb fst]; [reflexivity|].
  destruct k as [|c k]; [reflexivity|]. change (beq [] (c :: k)) with false. rewrite IH. cbn [orb]. unfold mkeys. destruct (existsb _ _); [reflexivity|].
  unfold last_flag. cbn [fold_left fst]. destruct (beq (c :: k) (bs "__json")), (beq (c :: k) (bs "name")); reflexivity.
Qed.
Lemma last_flag_unambiguous dname l : ~ (has_key "name" l /\ has_key "__json" l /\ dname = []) ->
  (last_flag dname false l = true <-> (has_key "__json" l -> dname <> []) /\ (~ has_key "__json" l -> has_key "name" l)).
Proof.
  intros NA. assert (G : forall l has,
    (has_key "__json" l -> dname <> [] -> has = true \/ True -> last_flag dname has l = true) /\
    (~ has_key "__json" l -> last_flag dname has l = true <-> has = true \/ has_key "name" l) /\
    (dname = [] -> ~ has_key "name" l -> has_key "__json" l \/ has = false -> last_flag dname has l = false)).
  { clear. unfold has_key, mkeys, last_flag. induction l as [|[k v] l IH]; intros has; cbn [map fst fold_left In].
    - split; [intros []|]. split; [intros _; tauto|]. intros _ _ [[]|H]; exact H.
    - destruct (beq_spec k (bs "__json")) as [->|NJ].
      + destruct (IH (negb (beq dname []))) as (I1 & I2 & I3). split; [|split].
        * intros _ HD _. destruct (in_dec (list_eq_dec Byte.byte_eq_dec) (bs "__json") (map fst l)) as [X|X]; [apply I1; auto|].
          apply I2; [exact X|]. left. destruct dname; [congruence|reflexivity].
        * intros X. exfalso. apply X. left. reflexivity.
        * intros HD HN _. apply I3; [exact HD|intros X; apply HN; right; exact X|]. right. subst dname. reflexivity.
      + destruct (beq_spec k (bs "name")) as [->|NN].
        * destruct (IH true) as (I1 & I2 & I3). split; [|split].
          -- intros [X|X] HD _; [congruence|]. apply I1; auto.
          -- intros X. rewrite I2 by tauto. tauto.
          -- intros HD HN. exfalso. apply HN. left. reflexivity.
        * destruct (IH has) as (I1 & I2 & I3). split; [|split].
          -- intros [X|X] HD _; [congruence|]. apply I1; auto.
          -- intros X. rewrite I2 by tauto. intuition congruence.
          -- intros HD HN HJ. apply I3; [exact HD|tauto|]. intuition congruence. }
  destruct (G l false) as (G1 & G2 & G3). destruct (in_dec (list_eq_dec Byte.byte_eq_dec) (bs "__json") (mkeys l)) as [J|J].
  - destruct (list_eq_dec Byte.byte_eq_dec dname []) as [D|D].
    + rewrite G3; [|exact D|intros X; apply NA; repeat split; auto|left; exact J]. split; [discriminate|]. intros [A _]. exfalso. exact (A J D).
    + rewrite G1 by auto. split; [intros _|reflexivity]. split; [intros _; exact D|]. intros X. contradiction.
  - rewrite G2 by exact J. split; [intros [X|X]; [discriminate|split; [intros Y; contradiction|intros _; exact X]]|intros [_ A]; right; exact (A J)].
Qed.
Lemma existsb_nil_iff l : existsb (beq []) l = true <-> In [] l.
Proof. rewrite existsb_exists. split; [intros (x & A & B); apply beq_eq in B; subst; exact A|intros H; exists []; split; [exact H|reflexivity]]. Qed.
Lemma Validate_split d : drv_Validate d = Ok tt <->
  valid_outputs (d_outputs d) /\ valid_inputs (d_inputs d) /\
  Forall (fun s => Validate s = Ok tt) (d_srcs d) /\ sortedb (d_srcs d) /\
  d_platform d <> [] /\ d_builder d <> [] /\ ~ In [] (mkeys (d_env d)) /\ last_flag (d_name d) false (d_env d) = true.
Proof.
  unfold drv_Validate. destruct (d_outputs d) as [|x outs] eqn:EO.
  { split; [discriminate|]. intros ([(o & X & _)|(X & _)] & _); [discriminate|congruence]. }
  pose proof (outputs_iff (x :: outs)) as HO. destruct (validate_outputs _ _) as [[]|e|w]; cbn [rbind].
  2,3: split; [discriminate|]; intros (X & _); apply HO in X; [discriminate|discriminate].
  pose proof (inputs_iff (d_inputs d)) as HI. destruct (validate_inputs _) as [[]|e|w]; cbn [rbind].
  2,3: split; [discriminate|]; intros (_ & X & _); apply HI in X; discriminate.
  pose proof (srcs_iff (d_srcs d) None) as HS. destruct (validate_srcs _ _) as [[]|e|w]; cbn [rbind].
  2,3: split; [discriminate|]; intros (_ & _ & X & Y & _); assert (Z : Forall (fun s => Validate s = Ok tt) (d_srcs d) /\ sortedb (d_srcs d)) by auto; apply HS in Z; discriminate.
  destruct (beq_spec (d_platform d) []) as [EP|EP]; [split; [discriminate|]; intros (_ & _ & _ & _ & X & _); contradiction|].
  destruct (beq_spec (d_builder d) []) as [EB|EB]; [split; [discriminate|]; intros (_ & _ & _ & _ & _ & X & _); contradiction|].
  rewrite env_eq. destruct (existsb (beq []) (mkeys (d_env d))) eqn:EE.
  - cbn [rbind]. split; [discriminate|]. intros (_ & _ & _ & _ & _ & _ & X & _). apply existsb_nil_iff in EE. contradiction.
  - cbn [rbind]. assert (NE : ~ In [] (mkeys (d_env d))) by (intros X; apply existsb_nil_iff in X; congruence).
    destruct (last_flag _ _ _) eqn:EL.
    + split; [intros _|reflexivity]. split; [apply HO; [discriminate|reflexivity]|]. split; [apply HI; reflexivity|]. destruct (proj1 HS eq_refl) as [A B]. auto 10.
    + split; [discriminate|]. intros (_ & _ & _ & _ & _ & _ & _ & X). congruence.
Qed.
Lemma Validate_iff d : ~ ambiguous d -> drv_Validate d = Ok tt <-> valid_drv d.
Proof.
  intros NA. rewrite Validate_split. unfold valid_drv. rewrite (last_flag_unambiguous (d_name d) (d_env d)) by (unfold ambiguous in NA; tauto). tauto.
Qed.
(** Without a side condition. *)
Lemma Validate_needs d : drv_Validate d = Ok tt ->
  valid_outputs (d_outputs d) /\ valid_inputs (d_inputs d) /\ Forall (fun s => Validate s = Ok tt) (d_srcs d) /\ sortedb (d_srcs d) /\
  d_platform d <> [] /\ d_builder d <> [] /\ ~ In [] (mkeys (d_env d)) /\ (has_key "name" (d_env d) \/ (has_key "__json" (d_env d) /\ d_name d <> [])).
Proof.
  intros H. apply Validate_split in H. destruct H as (A & B & C & D & E & F & G & H). repeat (split; [assumption|]).
  destruct (in_dec (list_eq_dec Byte.byte_eq_dec) (bs "name") (mkeys (d_env d))) as [N|N]; [left; exact N|].
  apply last_flag_unambiguous in H; [|unfold has_key; tauto]. destruct H as [H1 H2].
  destruct (in_dec (list_eq_dec Byte.byte_eq_dec) (bs "__json") (mkeys (d_env d))) as [J|J]; [right; split; [exact J|exact (H1 J)]|left; exact (H2 J)].
Qed.
Lemma same_valid d e : same_drv d e -> valid_drv d -> valid_drv e.
Proof.
  intros (S1 & S2 & S3 & S4 & S5 & S6 & S7 & S8) (A & B & C & D & E & F & G & H & I1). unfold valid_drv, has_key, mkeys in *. rewrite <- S1, <- S3, <- S5, <- S6.
  assert (K : forall k, In k (map fst (d_env e)) <-> In k (map fst (d_env d))).
  { intros k. split; intros X; eapply Permutation_in; [apply Permutation_map; symmetry; exact S8|exact X|apply Permutation_map; exact S8|exact X]. }
  repeat split; auto.
  - destruct A as [(o & X & Y)|(X & Y)].
    + left. exists o. rewrite X in S2. apply Permutation_length_1_inv in S2. auto.
    + right. split; [intros Z; rewrite Z in S2; symmetry in S2; apply Permutation_nil in S2; contradiction|]. eapply Permutation_Forall; eauto.
  - unfold valid_inputs in *. eapply Permutation_Forall; eauto.
  - rewrite K. exact G.
  - rewrite K. exact H.
  - rewrite !K. exact I1.
Qed.
Lemma same_ambiguous d e : same_drv d e -> ambiguous d -> ambiguous e.
Proof.
  intros (S1 & S2 & S3 & S4 & S5 & S6 & S7 & S8) (A & B & C). unfold ambiguous, has_key, mkeys in *. rewrite <- S1.
  repeat split; auto; eapply Permutation_in; [apply Permutation_map; exact S8|assumption|apply Permutation_map; exact S8|assumption].
Qed.
Lemma Validate_no_panic d : is_panic (drv_Validate d) = false.
Proof.
  assert (O : forall n l, is_panic (validate_outputs n l) = false).
  { intros n. induction l as [|[name o] l IH]; cbn [validate_outputs]; [reflexivity|]. destruct name; [reflexivity|].
    destruct (negb (beq (o_algo o) [])); [destruct (negb (n =? 1)); [reflexivity|]; destruct (negb _); reflexivity|].
    pose proof (StorePathProps.Validate_no_panic (o_path o)) as P. destruct (Validate (o_path o)); [exact IH|reflexivity|discriminate]. }
  assert (N : forall l p, is_panic (validate_names p l) = false).
  { induction l as [|o l IH]; intros p; cbn [validate_names]; [reflexivity|]. destruct (match p with Some _ => _ | None => _ end); [reflexivity|]. destruct o; [reflexivity|apply IH]. }
  assert (I1 : forall l, is_panic (validate_inputs l) = false).
  { induction l as [|[p names] l IH]; cbn [validate_inputs]; [reflexivity|]. pose proof (StorePathProps.Validate_no_panic p) as P.
    destruct (Validate p); cbn [rbind]; [|reflexivity|discriminate]. destruct names; [reflexivity|]. pose proof (N (b :: names) None) as Q.
    destruct (validate_names None (b :: names)); cbn [rbind]; [exact IH|reflexivity|discriminate]. }
  assert (R : forall l p, is_panic (validate_srcs p l) = false).
  { induction l as [|o l IH]; intros p; cbn [validate_srcs]; [reflexivity|]. pose proof (StorePathProps.Validate_no_panic o) as P.
    destruct (Validate o); [|reflexivity|discriminate]. destruct (match p with Some _ => _ | None => _ end); [reflexivity|]. apply IH. }
  unfold drv_Validate. destruct (d_outputs d) as [|x outs]; [reflexivity|].
  pose proof (O (length (x :: outs)) (x :: outs)) as P1. destruct (validate_outputs _ _); cbn [rbind]; [|reflexivity|discriminate].
  pose proof (I1 (d_inputs d)) as P2. destruct (validate_inputs _); cbn [rbind]; [|reflexivity|discriminate].
  pose proof (R (d_srcs d) None) as P3. destruct (validate_srcs _ _); cbn [rbind]; [|reflexivity|discriminate].
  destruct (beq (d_platform d) []); [reflexivity|]. destruct (beq (d_builder d) []); [reflexivity|].
  rewrite env_eq. destruct (existsb _ _); cbn [rbind]; [reflexivity|]. destruct (last_flag _ _ _); reflexivity.
Qed.
