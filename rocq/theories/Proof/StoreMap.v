(** The MapStore (C61, C62). *)
From Verif Require Import Base.Bytes Base.BytesFacts Model.GoIO Model.GoStd Model.Nixhash Model.Storepath Model.Derivation Model.DrvParser Model.DrvStore
  Spec.DerivationSpec Spec.StoreSpec Proof.DrvEncode Proof.DrvText Proof.DrvHash.
Ltac Zify.zify_post_hook ::= idtac.

(** * Only the entries of the inputs matter *)
Definition covers (repl : amap bytes) (d : drv) : Prop := forall q, In q (mkeys (d_inputs d)) -> mget repl q <> None.
Lemma replace_agree repl repl' l : forall acc, (forall q, In q (map fst l) -> mget repl q = mget repl' q) -> replace_inputs repl acc l = replace_inputs repl' acc l.
Proof.
  induction l as [|[q ns] l IH]; intros acc H; [reflexivity|]. cbn [replace_inputs]. rewrite <- (H q (or_introl eq_refl)). destruct (mget repl q); [|reflexivity].
  apply IH. intros z Hz. apply H. right. exact Hz.
Qed.
Lemma inputs_nil repl d : covers repl d -> repl = [] -> d_inputs d = [].
Proof. intros C ->. unfold covers in C. destruct (d_inputs d) as [|[q ns] l]; [reflexivity|]. exfalso. apply (C q); [left; reflexivity|reflexivity]. Qed.
Definition step_inputs (repl : amap bytes) (d : drv) : res (amap (list bytes)) :=
  match repl with [] => Ok (d_inputs d) | _ => replace_inputs repl [] (d_inputs d) end.
Lemma step_full repl d : covers repl d -> step_inputs repl d = replace_inputs repl [] (d_inputs d).
Proof. intros C. unfold step_inputs. destruct repl as [|x m]; [|reflexivity]. rewrite (inputs_nil [] d C eq_refl). reflexivity. Qed.
Lemma step_agree repl repl' d : covers repl d -> (forall q, In q (mkeys (d_inputs d)) -> mget repl q = mget repl' q) -> step_inputs repl d = step_inputs repl' d.
Proof.
  intros C A. rewrite !step_full; [apply replace_agree; exact A|intros q Hq; rewrite <- A by exact Hq; exact (C q Hq)|exact C].
Qed.
Lemma bytes_agree d strip repl repl' : covers repl d -> (forall q, In q (mkeys (d_inputs d)) -> mget repl q = mget repl' q) -> drv_bytes d strip repl = drv_bytes d strip repl'.
Proof. intros C A. unfold drv_bytes, drv_writes. fold (step_inputs repl d). fold (step_inputs repl' d). rewrite (step_agree repl repl' d C A). reflexivity. Qed.
Lemma replace_ok repl l : forall acc, (forall q, In q (map fst l) -> mget repl q <> None) -> exists m, replace_inputs repl acc l = Ok m.
Proof.
  induction l as [|[q ns] l IH]; intros acc H; [eexists; reflexivity|]. cbn [replace_inputs]. pose proof (H q (or_introl eq_refl)) as Hq. destruct (mget repl q); [|congruence].
  apply IH. intros z Hz. apply H. right. exact Hz.
Qed.
Lemma bytes_covered d strip repl : covers repl d -> exists b, drv_bytes d strip repl = Ok b.
Proof.
  intros C. unfold drv_bytes, drv_writes. fold (step_inputs repl d). rewrite (step_full repl d C). destruct (replace_ok repl (d_inputs d) [] C) as (m & ->). cbn [rbind]. eauto.
Qed.
Section Sha.
Variable sha : bytes -> bytes.
Lemma Calc_agree d repl repl' : covers repl d -> (forall q, In q (mkeys (d_inputs d)) -> mget repl q = mget repl' q) ->
  CalculateOutputPaths sha d repl = CalculateOutputPaths sha d repl'.
Proof. intros C A. rewrite !Calc_eq, (bytes_agree d true repl repl' C A). reflexivity. Qed.
Lemma Repl_agree d repl repl' : covers repl d -> (forall q, In q (mkeys (d_inputs d)) -> mget repl q = mget repl' q) ->
  CalculateDrvReplacement sha d repl = CalculateDrvReplacement sha d repl'.
Proof. intros C A. rewrite ?CalculateDrvReplacement_def. cbn zeta. rewrite (bytes_agree d false repl repl' C A). reflexivity. Qed.
Lemma Repl_covered d repl : covers repl d -> exists x, CalculateDrvReplacement sha d repl = Ok x.
Proof.
  intros C. rewrite ?CalculateDrvReplacement_def. cbn zeta. destruct (bytes_covered d false repl C) as (b & ->). cbn [rbind].
  destruct (length (d_outputs d) =? 1); [|eauto]. destruct (mget (d_outputs d) (bs "out")); [|eauto]. destruct (negb _); eauto.
Qed.

(** * The checks *)
Lemma check_inputs_ok has l : check_inputs has l = Ok tt <-> forall q, In q l -> has q = Ok true.
Proof.
  induction l as [|p l IH]; cbn [check_inputs]; [split; [intros _ q []|reflexivity]|]. destruct (has p) as [[|]|e|w] eqn:E.
  - rewrite IH. split; [intros H q [<-|Hq]; auto|intros H q Hq; apply H; right; exact Hq].
  - split; [discriminate|intros H; specialize (H p (or_introl eq_refl)); congruence].
  - split; [discriminate|intros H; specialize (H p (or_introl eq_refl)); congruence].
  - split; [discriminate|intros H; specialize (H p (or_introl eq_refl)); congruence].
Qed.
Lemma validate_in_ok d has : validateDerivationInStore d has = Ok tt <-> drv_Validate d = Ok tt /\ forall q, In q (mkeys (d_inputs d)) -> has q = Ok true.
Proof.
  unfold validateDerivationInStore. destruct (drv_Validate d) as [[]|e|w]; [rewrite check_inputs_ok; tauto|split; [discriminate|intros [H _]; discriminate]..].
Qed.
Lemma compare_ok outs l : compare_paths outs l = Ok tt <-> forall n p, In (n, p) l -> exists o, mget outs n = Some o /\ p = o_path o.
Proof.
  induction l as [|[n p] l IH]; cbn [compare_paths]; [split; [intros _ n p []|reflexivity]|]. destruct (mget outs n) as [o|] eqn:E.
  - destruct (beq_spec p (o_path o)) as [Q|Q].
    + rewrite IH. split; [intros H n' p' [X|X]; [injection X as <- <-; eauto|eauto]|intros H n' p' X; apply H; right; exact X].
    + split; [discriminate|]. intros H. destruct (H n p (or_introl eq_refl)) as (o' & A & B). congruence.
  - split; [discriminate|]. intros H. destruct (H n p (or_introl eq_refl)) as (o' & A & B). congruence.
Qed.
Lemma Calc_keys d repl paths : wf_maps d -> CalculateOutputPaths sha d repl = Ok paths -> Permutation (mkeys paths) (mkeys (d_outputs d)).
Proof.
  intros W. rewrite Calc_eq. destruct (drv_Name d) as [|c nm]; [discriminate|].
  assert (G : forall l acc paths, NoDup (mkeys acc ++ map fst l) -> opaths sha (c :: nm) (drv_bytes d true repl) acc l = Ok paths -> mkeys paths = mkeys acc ++ map fst l).
  { induction l as [|[n o] l IH]; intros acc ps N; cbn [opaths map fst]; [intros H; injection H as <-; rewrite app_nil_r; reflexivity|].
    destruct (opath _ _ _ n o) as [p|e|w]; cbn [rbind]; try discriminate. cbn [map fst] in N. intros H.
    assert (F : ~ In n (mkeys acc)) by (apply NoDup_remove_2 in N; rewrite in_app_iff in N; tauto).
    rewrite (mset_fresh acc n p F) in H. apply IH in H.
    - rewrite H. unfold mkeys. rewrite map_app, <- app_assoc. reflexivity.
    - unfold mkeys. rewrite map_app, <- app_assoc. exact N. }
  intros H. apply G in H; [|exact (proj1 W)]. rewrite H. reflexivity.
Qed.
Lemma check_ok d repl : wf_maps d -> checkOutputPaths sha d repl = Ok tt <-> right_paths sha d repl.
Proof.
  intros W. unfold checkOutputPaths, right_paths. destruct (CalculateOutputPaths sha d repl) as [paths|e|w] eqn:E.
  2,3: split; [discriminate|intros (x & H & _); discriminate].
  pose proof (Calc_keys d repl paths W E) as K. assert (N : NoDup (mkeys paths)) by (eapply Permutation_NoDup; [symmetry; exact K|exact (proj1 W)]).
  rewrite compare_ok. split.
  - intros H. exists paths. split; [reflexivity|]. intros n o Hno.
    assert (In n (mkeys paths)) as Hk by (eapply Permutation_in; [symmetry; exact K|apply in_map_iff; exists (n, o); auto]).
    apply mget_some_key in Hk. destruct Hk as (p & Hp). destruct (H n p (mget_in _ _ _ Hp)) as (o' & A & B). rewrite (in_mget _ _ _ (proj1 W) Hno) in A. injection A as <-. rewrite Hp. congruence.
  - intros (x & H & R) n p Hp. injection H as <-. assert (Hk : In n (mkeys (d_outputs d))) by (eapply Permutation_in; [exact K|apply in_map_iff; exists (n, p); auto]).
    apply mget_some_key in Hk. destruct Hk as (o & Ho). exists o. split; [exact Ho|]. specialize (R n o (mget_in _ _ _ Ho)). rewrite (in_mget _ _ _ N Hp) in R. congruence.
Qed.
Lemma check_name d repl : checkOutputPaths sha d repl = Ok tt -> drv_Name d <> [].
Proof. unfold checkOutputPaths. rewrite Calc_eq. destruct (drv_Name d); [discriminate|discriminate]. Qed.
Lemma right_name d repl : right_paths sha d repl -> drv_Name d <> [].
Proof. intros (x & H & _). rewrite Calc_eq in H. destruct (drv_Name d); discriminate. Qed.

(** * The unconditional invariant *)
Definition map_inv (s : mstore) : Prop :=
  (forall p, mget (ms_drvs s) p <> None <-> mget (ms_repl s) p <> None) /\
  (forall p d, mget (ms_drvs s) p = Some d -> drv_Validate d = Ok tt /\ DrvPath sha d = Ok p /\ forall q, In q (mkeys (d_inputs d)) -> mget (ms_drvs s) q <> None).
Lemma has_true s q : map_Has s q = Ok true <-> mget (ms_drvs s) q <> None.
Proof. unfold map_Has. destruct (mget (ms_drvs s) q); split; intros; congruence. Qed.
Lemma put_cases s d : map_inv s ->
  (exists p x, map_Put sha s d = (Ok p, MStore (mset (ms_drvs s) p d) (mset (ms_repl s) p x)) /\ validateDerivationInStore d (map_Has s) = Ok tt /\
     checkOutputPaths sha d (ms_repl s) = Ok tt /\ DrvPath sha d = Ok p /\ CalculateDrvReplacement sha d (ms_repl s) = Ok x) \/
  (snd (map_Put sha s d) = s /\ is_ok (fst (map_Put sha s d)) = false /\
     ~ (validateDerivationInStore d (map_Has s) = Ok tt /\ checkOutputPaths sha d (ms_repl s) = Ok tt /\ is_ok (DrvPath sha d) = true)).
Proof.
  intros (K & _). unfold map_Put. destruct (validateDerivationInStore d (map_Has s)) as [[]|e|w] eqn:V;
    [|right; cbn [fst snd is_ok]; split; [reflexivity|split; [reflexivity|intros [X _]; discriminate]]..].
  destruct (checkOutputPaths sha d (ms_repl s)) as [[]|e|w] eqn:C; [|right; cbn [fst snd is_ok]; split; [reflexivity|split; [reflexivity|intros (_ & X & _); discriminate]]..].
  destruct (DrvPath sha d) as [p|e|w] eqn:P; [|right; cbn [fst snd is_ok]; split; [reflexivity|split; [reflexivity|intros (_ & _ & X); discriminate]]..].
  left. cbn zeta. cbn [ms_drvs ms_repl]. destruct (Repl_covered d (ms_repl s)) as (x & X).
  { intros q Hq. apply K, has_true. apply validate_in_ok in V. exact (proj2 V q Hq). }
  rewrite X. exists p, x. auto.
Qed.
Lemma put_inv s d : map_inv s -> map_inv (snd (map_Put sha s d)).
Proof.
  intros I. destruct (put_cases s d I) as [(p & x & E & V & _ & P & _)|(E & _)]; rewrite E; [|exact I]. cbn [snd]. destruct I as (K & I). apply validate_in_ok in V. destruct V as (V1 & V2).
  assert (M : forall q, mget (ms_drvs s) q <> None -> mget (mset (ms_drvs s) p d) q <> None).
  { intros q Hq. rewrite mget_mset. destruct (beq p q); [discriminate|exact Hq]. }
  split; cbn [ms_drvs ms_repl].
  - intros q. rewrite !mget_mset. destruct (beq p q); [split; discriminate|apply K].
  - intros q e. rewrite mget_mset. destruct (beq_spec p q) as [<-|Ne].
    + intros H. injection H as <-. split; [exact V1|]. split; [exact P|]. intros z Hz. apply M. apply has_true. exact (V2 z Hz).
    + intros H. destruct (I q e H) as (A & B & C). split; [exact A|]. split; [exact B|]. intros z Hz. apply M, C, Hz.
Qed.
Lemma new_inv : map_inv NewMapStore.
Proof. split; [intros p; split; intros H; exfalso; apply H; reflexivity|discriminate]. Qed.
Lemma fold_inv h : forall s, map_inv s -> map_inv (fold_left (fun s d => snd (map_Put sha s d)) h s).
Proof. induction h as [|d h IH]; intros s I; [exact I|]. apply IH, put_inv, I. Qed.
Lemma run_inv h : map_inv (map_run sha h).
Proof. apply fold_inv, new_inv. Qed.

(** * Hash modulo inputs *)
Lemma modulo_fun get p x : modulo sha get p x -> forall y, modulo sha get p y -> x = y.
Proof.
  induction 1 as [p d r repl x G M IH R X]. intros y Hy. inversion Hy as [p' d' r' repl' y' G' M' R' X']; subst.
  rewrite G in G'. injection G' as <-. assert (A : forall q, In q (mkeys (d_inputs d)) -> mget repl q = mget repl' q).
  { intros q Hq. rewrite R, R' by exact Hq. f_equal. apply IH; [exact Hq|exact (M' q Hq)]. }
  rewrite (Repl_agree d repl repl') in X; [congruence| |exact A]. intros q Hq. rewrite R by exact Hq. discriminate.
Qed.
(** Storing an interchangeable derivation keeps it. *)
Lemma modulo_grow get get' : (forall q e, get q = Some e -> exists e', get' q = Some e' /\ (forall z, In z (mkeys (d_inputs e)) <-> In z (mkeys (d_inputs e'))) /\
    forall repl, (forall z, In z (mkeys (d_inputs e)) -> exists y, mget repl z = Some y /\ modulo sha get z y) ->
      CalculateDrvReplacement sha e repl = CalculateDrvReplacement sha e' repl) ->
  forall q x, modulo sha get q x -> modulo sha get' q x.
Proof.
  intros G q x. induction 1 as [p d r repl x E M IH R X]. destruct (G p d E) as (e' & E' & K & S). apply (Modulo sha get' p e' r repl x E').
  - intros q Hq. apply IH, K, Hq.
  - intros q Hq. apply R, K, Hq.
  - rewrite <- S; [exact X|]. intros z Hz. exists (r z). split; [exact (R z Hz)|exact (M z Hz)].
Qed.
Lemma right_agree d repl repl' : covers repl d -> (forall q, In q (mkeys (d_inputs d)) -> mget repl q = mget repl' q) -> right_paths sha d repl -> right_paths sha d repl'.
Proof. intros C A (x & H & R). exists x. split; [rewrite <- (Calc_agree d repl repl' C A); exact H|exact R]. Qed.
Lemma clash_incl h l : incl l h -> no_path_clash sha h -> no_path_clash sha l.
Proof.
  intros L NC x y X Y P. destruct (NC x y (L x X) (L y Y) P) as (A1 & A2). split; [exact A1|]. intros r H. apply A2. intros q z Z. destruct (H q z Z) as (c & r' & C1 & C2).
  exists c, r'. split; [exact (L c C1)|exact C2].
Qed.
Definition graph_inv (h : list drv) (s : mstore) : Prop :=
  map_inv s /\
  (forall p d, mget (ms_drvs s) p = Some d -> In d h /\ right_paths sha d (ms_repl s)) /\
  (forall p x, mget (ms_repl s) p = Some x -> modulo sha (fun p => mget (ms_drvs s) p) p x).
Lemma same_keys d e : same_drv d e -> forall z, In z (mkeys (d_inputs d)) <-> In z (mkeys (d_inputs e)).
Proof. intros (_ & _ & _ & P & _) z. split; apply Permutation_in; [|symmetry]; apply Permutation_map; exact P. Qed.
Lemma graph_put h s d : Forall wf_maps h -> no_path_clash sha h -> In d h -> graph_inv h s -> graph_inv h (snd (map_Put sha s d)).
Proof.
  intros WF NC Hd (I & G1 & G2). pose proof (put_inv s d I) as I'. split; [exact I'|].
  destruct (put_cases s d I) as [(p & x & E & V & C & P & X)|(E & _)]; rewrite E in *; [|split; assumption]. cbn [snd] in *. apply validate_in_ok in V. destruct V as (V1 & V2).
  rewrite Forall_forall in WF. destruct I as (K & I).
  assert (OH : of_history sha h (ms_repl s)).
  { intros q z Z. pose proof (G2 q z Z) as M. inversion M as [p' e' r repl y' E1 M1 R1 X1]; subst. exists e', repl. destruct (G1 q e' E1) as (A & _). destruct (I q e' E1) as (_ & B & _). auto. }
  assert (AGR : forall e repl, mget (ms_drvs s) p = Some e -> (forall q, In q (mkeys (d_inputs e)) -> exists z, mget repl q = Some z /\ modulo sha (fun p => mget (ms_drvs s) p) q z) ->
    CalculateDrvReplacement sha e repl = CalculateDrvReplacement sha e (ms_repl s)).
  { intros e repl He F. apply Repl_agree.
    - intros q Hq. destruct (F q Hq) as (z & Z & _). congruence.
    - intros q Hq. destruct (F q Hq) as (z & Z & M). rewrite Z. symmetry. destruct (I p e He) as (_ & _ & C3).
      assert (Hr : mget (ms_repl s) q <> None) by (apply K, C3, Hq). destruct (mget (ms_repl s) q) as [z'|] eqn:Z'; [|congruence]. f_equal. exact (modulo_fun _ _ _ (G2 q z' Z') _ M). }
  assert (OLD : forall e y, mget (ms_drvs s) p = Some e -> mget (ms_repl s) p = Some y -> y = x /\ same_drv e d /\ CalculateDrvReplacement sha e (ms_repl s) = CalculateDrvReplacement sha d (ms_repl s)).
  { intros e y He Hy. destruct (G1 p e He) as (Ie & _). destruct (I p e He) as (_ & Pe & _). destruct (NC e d Ie Hd (eq_trans Pe (eq_sym P))) as (S1 & S2). specialize (S2 _ OH). split; [|split; assumption].
    pose proof (G2 p y Hy) as M. inversion M as [p' e' r repl y' E1 M1 R1 X1]; subst. rewrite He in E1. injection E1 as <-.
    rewrite (AGR e repl He) in X1; [congruence|]. intros q Hq. exists (r q). split; [exact (R1 q Hq)|exact (M1 q Hq)]. }
  assert (AG : forall q, mget (ms_repl s) q <> None -> mget (mset (ms_repl s) p x) q = mget (ms_repl s) q).
  { intros q Hq. rewrite mget_mset. destruct (beq_spec p q) as [<-|]; [|reflexivity]. destruct (mget (ms_repl s) p) as [y|] eqn:Y; [|congruence].
    destruct (mget (ms_drvs s) p) as [e|] eqn:He; [|exfalso; apply (proj2 (K p)); congruence]. destruct (OLD e y eq_refl eq_refl) as (-> & _). reflexivity. }
  assert (CV : covers (ms_repl s) d) by (intros q Hq; apply K, has_true, V2, Hq).
  assert (GROW : forall q y, modulo sha (fun p => mget (ms_drvs s) p) q y -> modulo sha (fun q => mget (mset (ms_drvs s) p d) q) q y).
  { apply modulo_grow. intros q e He. rewrite mget_mset. destruct (beq_spec p q) as [<-|Ne].
    - exists d. split; [reflexivity|]. destruct (mget (ms_repl s) p) as [y|] eqn:Y; [|exfalso; apply (proj1 (K p)); congruence].
      destruct (OLD e y He eq_refl) as (_ & S1 & S2). split; [apply same_keys; exact S1|]. intros repl F. rewrite (AGR e repl He F), S2. symmetry. apply Repl_agree.
      + intros q Hq. apply (same_keys e d S1) in Hq. destruct (F q Hq) as (z & Z & _). congruence.
      + intros q Hq. apply (same_keys e d S1) in Hq. destruct (F q Hq) as (z & Z & M). rewrite Z. symmetry. destruct (I p e He) as (_ & _ & C3).
        assert (Hr : mget (ms_repl s) q <> None) by (apply K, C3, Hq). destruct (mget (ms_repl s) q) as [z'|] eqn:Z'; [|congruence]. f_equal. exact (modulo_fun _ _ _ (G2 q z' Z') _ M).
    - exists e. split; [exact He|]. split; reflexivity. }
  split; cbn [ms_drvs ms_repl].
  - intros q e. rewrite mget_mset. destruct (beq_spec p q) as [<-|Ne].
    + intros H. injection H as <-. split; [exact Hd|]. apply right_agree with (repl := ms_repl s); [exact CV| |apply check_ok; auto].
      intros q Hq. symmetry. apply AG, CV, Hq.
    + intros H. destruct (G1 q e H) as (A & B). split; [exact A|]. assert (CE : covers (ms_repl s) e) by (intros z Hz; apply K; apply (proj2 (proj2 (I q e H)) z Hz)).
      apply right_agree with (repl := ms_repl s); [exact CE| |exact B]. intros z Hz. symmetry. apply AG, CE, Hz.
  - intros q y. rewrite mget_mset. destruct (beq_spec p q) as [<-|Ne].
    + intros H. injection H as <-. apply (Modulo sha _ p d (fun q => match mget (ms_repl s) q with Some y => y | None => [] end) (ms_repl s) x).
      * rewrite mset_same. reflexivity.
      * intros q Hq. specialize (CV q Hq). destruct (mget (ms_repl s) q) as [z|] eqn:Z; [|congruence]. apply GROW, G2, Z.
      * intros q Hq. specialize (CV q Hq). destruct (mget (ms_repl s) q) as [z|] eqn:Z; [|congruence]. reflexivity.
      * exact X.
    + intros H. apply GROW, G2, H.
Qed.
Lemma graph_run h : Forall wf_maps h -> no_path_clash sha h -> graph_inv h (map_run sha h).
Proof.
  intros WF NC. unfold map_run. assert (G : forall l s, incl l h -> graph_inv h s -> graph_inv h (fold_left (fun s d => snd (map_Put sha s d)) l s)).
  { induction l as [|d l IH]; intros s I G; [exact G|]. apply IH; [intros z Hz; apply I; right; exact Hz|]. apply graph_put; auto. apply I. left. reflexivity. }
  apply G; [apply incl_refl|]. split; [exact new_inv|]. split; discriminate.
Qed.
Lemma getter_eq s p : getter s p = mget (ms_drvs s) p.
Proof. unfold getter, map_Get. destruct (mget (ms_drvs s) p); reflexivity. Qed.
Lemma modulo_ext get get' : (forall p, get p = get' p) -> forall q x, modulo sha get q x -> modulo sha get' q x.
Proof. intros E q x. apply modulo_grow. intros z e H. exists e. rewrite <- E. split; [exact H|]. split; reflexivity. Qed.
Lemma getter_modulo s q x : modulo sha (getter s) q x <-> modulo sha (fun p => mget (ms_drvs s) p) q x.
Proof. split; apply modulo_ext; intros p; [|symmetry]; apply getter_eq. Qed.
(** In a consistent store the store's own map gives the same answer as any right one. *)
Lemma right_iff h s d : graph_inv h s -> (forall q, In q (mkeys (d_inputs d)) -> mget (ms_drvs s) q <> None) ->
  right_paths sha d (ms_repl s) <-> right_paths_in sha (getter s) d.
Proof.
  intros ((K & _) & _ & G2) HI. assert (C : covers (ms_repl s) d) by (intros q Hq; apply K, HI, Hq). split.
  - intros R repl Hr. apply right_agree with (repl := ms_repl s); [exact C| |exact R]. intros q Hq. destruct (Hr q Hq) as (y & Y1 & Y2). rewrite Y1.
    specialize (C q Hq). destruct (mget (ms_repl s) q) as [z|] eqn:Z; [|congruence]. f_equal. apply getter_modulo in Y2. exact (modulo_fun _ q z (G2 q z Z) y Y2).
  - intros R. apply R. intros q Hq. specialize (C q Hq). destruct (mget (ms_repl s) q) as [z|] eqn:Z; [|congruence]. exists z. split; [reflexivity|]. apply getter_modulo, G2, Z.
Qed.
End Sha.
