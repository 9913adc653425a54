(** Validate for each order of the variables (C53). *)
From Verif Require Import Base.Bytes Base.BytesFacts Model.Storepath Model.Derivation Spec.StorePathSpec Spec.DerivationSpec Spec.ValidSpec
  Proof.StorePathProps Proof.DrvEncode Proof.DrvValidate.
Ltac Zify.zify_post_hook ::= idtac.

Lemma like_iff s : Validate s = Ok tt <-> like_store_path s.
Proof.
  rewrite validate_exact. split.
  - intros (c & h & sep & n & E & H & N). exists c, h, (sep :: n). split; [exact E|]. split; [exact H|]. split; [discriminate|exact N].
  - intros (c & h & [|sep n] & E & H & N & F); [contradiction|]. exists c, h, sep, n. auto.
Qed.
Lemma first_other (k v n w : bytes) l b a : (k, v) :: l = b ++ (n, w) :: a -> k <> n -> exists b', l = b' ++ (n, w) :: a.
Proof. destruct b as [|y b]; cbn [app]; intros E N; [congruence|]. exists b. congruence. Qed.
Lemma json_name : bs "__json" <> bs "name".
Proof. vm_compute. discriminate. Qed.
Lemma flag_last name : forall l has, last_flag name has l = true <->
  (name <> [] /\ (In (bs "name") (map fst l) \/ In (bs "__json") (map fst l))) \/
  (exists before v after, l = before ++ (bs "name", v) :: after /\ ~ In (bs "__json") (map fst after)) \/
  (has = true /\ ~ In (bs "__json") (map fst l)).
Proof.
  unfold last_flag. induction l as [|[k v] l IH]; intros has; cbn [map fst fold_left In].
  - split; [intros H; right; right; auto|]. intros [(_ & [[]|[]])|[(b & v & a & E & _)|[H _]]]; [destruct b; discriminate E|exact H].
  - rewrite IH. destruct (beq_spec k (bs "__json")) as [->|NJ].
    + destruct name as [|x name]; cbn [beq negb].
      * split.
        -- intros [(X & _)|[(b & w & a & -> & N)|(X & _)]]; [congruence| |discriminate X]. right. left. exists ((bs "__json", v) :: b), w, a. auto.
        -- intros [(X & _)|[(b & w & a & E & N)|(_ & N)]]; [congruence| |elim N; auto].
           right. left. destruct (first_other _ _ _ _ _ _ _ E json_name) as (b' & E2). exists b', w, a. auto.
      * split; [intros _; left; split; [discriminate|auto]|]. intros _. destruct (in_dec (list_eq_dec Byte.byte_eq_dec) (bs "__json") (map fst l)) as [J|J].
        -- left. split; [discriminate|auto].
        -- right. right. auto.
    + destruct (beq_spec k (bs "name")) as [->|NN].
      * split.
        -- intros [(X & Y)|[(b & w & a & -> & N)|(_ & N)]]; [left; auto| |].
           ++ right. left. exists ((bs "name", v) :: b), w, a. auto.
           ++ right. left. exists [], v, l. auto.
        -- intros H. destruct (in_dec (list_eq_dec Byte.byte_eq_dec) (bs "__json") (map fst l)) as [J|J]; [|auto].
           destruct H as [(X & _)|[(b & w & a & E & N)|(_ & N)]]; [left; auto| |elim N; auto].
           right. left. destruct b as [|y b]; cbn [app] in E; [assert (a = l) by congruence; subst a; contradiction|].
           assert (E2 : l = b ++ (bs "name", w) :: a) by congruence. exists b, w, a. auto.
      * split.
        -- intros [(X & Y)|[(b & w & a & -> & N)|(X & N)]]; [left; tauto| |right; right; split; [exact X|intros [Y|Y]; congruence]].
           right. left. exists ((k, v) :: b), w, a. auto.
        -- intros [(X & Y)|[(b & w & a & E & N)|(X & N)]]; [left; split; [exact X|destruct Y as [[Y|Y]|[Y|Y]]; auto; congruence]| |right; right; auto].
           right. left. destruct b as [|y b]; cbn [app] in E; [congruence|]. assert (E2 : l = b ++ (bs "name", w) :: a) by congruence. exists b, w, a. auto.
Qed.
Lemma named_flag name l : last_flag name false l = true <-> named_in name l.
Proof. rewrite flag_last. unfold named_in. intuition congruence. Qed.
Lemma shape_iff d : in_shape d <-> valid_outputs (d_outputs d) /\ valid_inputs (d_inputs d) /\
  Forall (fun s => Validate s = Ok tt) (d_srcs d) /\ sortedb (d_srcs d) /\
  d_platform d <> [] /\ d_builder d <> [] /\ ~ In [] (mkeys (d_env d)).
Proof.
  unfold in_shape, valid_outputs, valid_inputs, fixed_output, mkeys. rewrite !Forall_forall.
  assert (O : (forall x, In x (d_outputs d) -> fst x <> [] /\ ~ o_algo (snd x) <> [] /\ Validate (o_path (snd x)) = Ok tt) <->
    (forall n o, In (n, o) (d_outputs d) -> n <> [] /\ o_algo o = [] /\ like_store_path (o_path o))).
  { split.
    - intros H n o I. destruct (H (n, o) I) as (A & B & C). cbn [fst snd] in *. split; [exact A|]. split; [destruct (o_algo o); [reflexivity|elim B; discriminate]|apply like_iff, C].
    - intros H [n o] I. destruct (H n o I) as (A & B & C). cbn [fst snd]. rewrite B. split; [exact A|]. split; [congruence|apply like_iff, C]. }
  assert (I1 : (forall x, In x (d_inputs d) -> Validate (fst x) = Ok tt /\ snd x <> [] /\ sortedb (snd x) /\ ~ In [] (snd x)) <->
    (forall p names, In (p, names) (d_inputs d) -> like_store_path p /\ names <> [] /\ ~ In [] names /\ sortedb names)).
  { split.
    - intros H p l I. destruct (H (p, l) I) as (A & B & C & D). cbn [fst snd] in *. rewrite <- like_iff. auto.
    - intros H [p l] I. destruct (H p l I) as (A & B & C & D). cbn [fst snd]. rewrite like_iff. auto. }
  assert (S : (forall x, In x (d_srcs d) -> Validate x = Ok tt) <-> (forall s, In s (d_srcs d) -> like_store_path s)).
  { split; intros H s I; apply like_iff, H, I. }
  rewrite O, I1, S. tauto.
Qed.
Lemma valid_order d : drv_Validate d = Ok tt <-> in_shape d /\ named_in (d_name d) (d_env d).
Proof. rewrite Validate_split, shape_iff, named_flag. tauto. Qed.

Lemma same_shape d e : same_drv d e -> in_shape d -> in_shape e.
Proof.
  intros (S1 & S2 & S3 & S4 & S5 & S6 & S7 & S8) (A & B & C & D & E & F & G). unfold in_shape. rewrite <- S3, <- S5, <- S6.
  split; [|split; [|split; [|split; [|split; [|split]]]]]; auto.
  - destruct A as [(o & X & Y)|(X & Y)].
    + left. exists o. rewrite X in S2. apply Permutation_length_1_inv in S2. auto.
    + right. split; [intros Z; rewrite Z in S2; symmetry in S2; apply Permutation_nil in S2; contradiction|]. intros n o I. apply Y. eapply Permutation_in; [symmetry; exact S2|exact I].
  - intros p l I. apply B. eapply Permutation_in; [symmetry; exact S4|exact I].
  - intros X. apply G. eapply Permutation_in; [apply Permutation_map; symmetry; exact S8|exact X].
Qed.
(** With the variables in another order. *)
Definition env_as (d : drv) (env : list (bytes * bytes)) : drv :=
  Drv (d_name d) (d_outputs d) (d_srcs d) (d_inputs d) (d_platform d) (d_builder d) (d_args d) env.
Lemma env_as_same d env : Permutation (d_env d) env -> same_drv d (env_as d env).
Proof. intros P. unfold same_drv, env_as. cbn. auto 10. Qed.
Lemma to_end {V} (m : amap V) k : In k (mkeys m) -> exists v l, Permutation m (l ++ [(k, v)]).
Proof.
  unfold mkeys. intros I. apply in_map_iff in I. destruct I as ([k' v] & E & I). cbn [fst] in E. subst k'. apply in_split in I. destruct I as (a & b & ->).
  exists v, (a ++ b). rewrite <- app_assoc. apply Permutation_app_head. apply Permutation_cons_append.
Qed.
Lemma every_order d : (forall e, same_drv d e -> drv_Validate e = Ok tt) <-> valid_drv d.
Proof.
  split.
  - intros H. assert (V := H d). assert (SD : same_drv d d) by (unfold same_drv; auto 10). specialize (V SD). apply Validate_split in V.
    destruct V as (A & B & C & D & E & F & G & _). unfold valid_drv. repeat (split; [assumption|]). split.
    + intros J N. destruct (to_end (d_env d) (bs "__json") J) as (v & l & P). pose proof (H _ (env_as_same d _ P)) as X. apply valid_order in X. destruct X as (_ & X).
      cbn [env_as d_name d_env] in X. destruct X as [(X & _)|(b & w & a & X & Y)]; [contradiction|].
      destruct a as [|z a _] using rev_ind; [apply app_inj_tail in X; destruct X as (_ & X); elim json_name; congruence|].
      rewrite app_comm_cons, app_assoc in X. apply app_inj_tail in X. destruct X as (_ & <-). apply Y. rewrite map_app, in_app_iff. right. left. reflexivity.
    + intros NJ. pose proof (H d SD) as X. apply valid_order in X. destruct X as (_ & [(_ & [X|X])|(b & v & a & X & _)]); [exact X|contradiction|].
      unfold has_key, mkeys. rewrite X, map_app, in_app_iff. right. left. reflexivity.
  - intros V e S. apply Validate_iff.
    + intros (_ & J & N). pose proof (same_valid d e S V) as (_ & _ & _ & _ & _ & _ & _ & X & _). exact (X J N).
    + exact (same_valid d e S V).
Qed.
Lemma some_order d : (exists e, same_drv d e /\ drv_Validate e = Ok tt) <->
  in_shape d /\ (has_key "name" (d_env d) \/ (has_key "__json" (d_env d) /\ d_name d <> [])).
Proof.
  split.
  - intros (e & S & V). apply valid_order in V. destruct V as (V & N). split; [exact (same_shape _ _ (same_sym _ _ S) V)|].
    destruct S as (S1 & _ & _ & _ & _ & _ & _ & S8). rewrite S1.
    assert (K : forall k, In k (map fst (d_env e)) -> In k (mkeys (d_env d))) by (intros k X; eapply Permutation_in; [apply Permutation_map; symmetry; exact S8|exact X]).
    unfold has_key. destruct N as [(N & [X|X])|(b & v & a & X & _)]; [left; apply K, X|right; split; [apply K, X|exact N]|].
    left. apply K. rewrite X, map_app, in_app_iff. right. left. reflexivity.
  - intros (V & N). destruct N as [N|(J & N)].
    + destruct (to_end (d_env d) (bs "name") N) as (v & l & P). exists (env_as d (l ++ [(bs "name", v)])). pose proof (env_as_same d _ P) as S. split; [exact S|].
      apply valid_order. split; [exact (same_shape _ _ S V)|]. right. exists l, v, []. split; [reflexivity|intros []].
    + exists d. split; [unfold same_drv; auto 10|]. apply valid_order. split; [exact V|]. left. split; [exact N|right; exact J].
Qed.
Lemma strict_after l x r : strictly_sorted (l ++ x :: r) -> Forall (fun y => blt x y = true) r.
Proof.
  intros H. induction l as [|y l IH]; cbn [app] in H; inversion H; subst; [assumption|apply IH; assumption].
Qed.
