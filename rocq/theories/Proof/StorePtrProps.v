From Verif Require Import Base.Bytes Base.BytesFacts Model.GoIO Model.GoStd Model.Derivation Model.DrvParser Model.DrvStore Model.DrvStorePtr
  Spec.DerivationSpec Spec.StoreSpec Spec.StorePtrSpec Proof.StoreMap.
Ltac Zify.zify_post_hook ::= idtac.

Section P.
Variable sha : bytes -> bytes.
Lemma dheap_after_app a : forall b m, dheap_after (a ++ b) m = dheap_after b (dheap_after a m).
Proof. induction a as [|o a IH]; intros b m; [reflexivity|]. destruct o; cbn [app dheap_after]; apply IH. Qed.
Lemma v_run_app a : forall b m s, snd (v_run sha (a ++ b) m s) = snd (v_run sha b (dheap_after a m) (snd (v_run sha a m s))).
Proof.
  induction a as [|o a IH]; intros b m s; [reflexivity|]. destruct o as [p d|p|q|q]; cbn [app v_run dheap_after]; [apply IH| | |].
  - destruct (map_Put sha s (m p)) as [r s1]. specialize (IH b m s1). destruct (v_run sha (a ++ b) m s1), (v_run sha a m s1). exact IH.
  - specialize (IH b m s). destruct (v_run sha (a ++ b) m s), (v_run sha a m s). exact IH.
  - specialize (IH b m s). destruct (v_run sha (a ++ b) m s), (v_run sha a m s). exact IH.
Qed.
Lemma v_run_given ops : forall m s, snd (v_run sha ops m s) = fold_left (fun s d => snd (map_Put sha s d)) (given ops m) s.
Proof.
  induction ops as [|o ops IH]; intros m s; [reflexivity|]. destruct o as [p d|p|q|q]; cbn [v_run given fold_left]; [apply IH| | |].
  - specialize (IH m (snd (map_Put sha s (m p)))). destruct (map_Put sha s (m p)) as [r s1]. cbn [snd] in IH |- *. destruct (v_run sha ops m s1). exact IH.
  - specialize (IH m s). destruct (v_run sha ops m s). exact IH.
  - specialize (IH m s). destruct (v_run sha ops m s). exact IH.
Qed.
Definition same_paths (s : pstore) (v : mstore) : Prop :=
  ps_repl s = ms_repl v /\ forall path, mget (ps_drvs s) path = None <-> mget (ms_drvs v) path = None.
Lemma has_same s v path : same_paths s v -> pmap_Has s path = map_Has v path.
Proof.
  intros (_ & H). specialize (H path). unfold pmap_Has, map_Has. destruct (mget (ps_drvs s) path), (mget (ms_drvs v) path); try reflexivity; exfalso.
  - destruct H as [_ H]. discriminate (H eq_refl).
  - destruct H as [H _]. discriminate (H eq_refl).
Qed.
Lemma check_same s v l : same_paths s v -> check_inputs (pmap_Has s) l = check_inputs (map_Has v) l.
Proof. intros H. induction l as [|p l IH]; [reflexivity|]. cbn [check_inputs]. rewrite (has_same s v p H), IH. reflexivity. Qed.
Lemma validate_same s v d : same_paths s v -> validateDerivationInStore d (pmap_Has s) = validateDerivationInStore d (map_Has v).
Proof. intros H. unfold validateDerivationInStore. rewrite (check_same s v _ H). reflexivity. Qed.
Lemma pput_cases m s v p : same_paths s v -> map_inv sha v ->
  (exists path x, pmap_Put sha m s p = (Ok path, PStore (mset (ps_drvs s) path p) (mset (ps_repl s) path x)) /\
     map_Put sha v (m p) = (Ok path, MStore (mset (ms_drvs v) path (m p)) (mset (ms_repl v) path x))) \/
  (exists r, is_ok r = false /\ pmap_Put sha m s p = (r, s) /\ map_Put sha v (m p) = (r, v)).
Proof.
  intros S I. destruct (put_cases sha v (m p) I) as [(path & x & E & A & B & C & D)|(E & O & N)].
  - left. exists path, x. split; [|exact E]. unfold pmap_Put. rewrite (validate_same s v _ S), A. destruct S as (S1 & S2). rewrite S1, B, C. cbn zeta.
    cbn [ps_repl ps_drvs]. rewrite D. reflexivity.
  - right. exists (fst (map_Put sha v (m p))). split; [exact O|]. split; [|destruct (map_Put sha v (m p)) as [r v']; cbn [fst snd] in *; congruence].
    unfold pmap_Put. unfold map_Put in *. rewrite (validate_same s v _ S). destruct S as (S1 & S2).
    destruct (validateDerivationInStore (m p) (map_Has v)) as [[]|e|w]; [|reflexivity..]. rewrite S1.
    destruct (checkOutputPaths sha (m p) (ms_repl v)) as [[]|e|w]; [|reflexivity..].
    destruct (DrvPath sha (m p)) as [path|e|w]; [|reflexivity..]. exfalso. apply N. repeat split; reflexivity.
Qed.
Lemma same_set s v path p d x : same_paths s v ->
  same_paths (PStore (mset (ps_drvs s) path p) (mset (ps_repl s) path x)) (MStore (mset (ms_drvs v) path d) (mset (ms_repl v) path x)).
Proof.
  intros (S1 & S2). split; [cbn [ps_repl ms_repl]; rewrite S1; reflexivity|]. intros q. cbn [ps_drvs ms_drvs]. rewrite !mget_mset.
  destruct (beq path q); [split; discriminate|apply S2].
Qed.

Section Sim.
Variable ops0 : list d_op.
Variable m0 : dheap.
Definition sim (past : list d_op) (s : pstore) (v : mstore) : Prop :=
  same_paths s v /\ map_inv sha v /\ v = snd (v_run sha past m0 NewMapStore) /\
  forall path p, mget (ps_drvs s) path = Some p -> put_last sha past m0 path p /\ (unchanged sha ops0 m0 -> mget (ms_drvs v) path = Some (dheap_after past m0 p)).
Lemma put_last_other past path p o : match o with DPut q => fst (map_Put sha (snd (v_run sha past m0 NewMapStore)) (dheap_after past m0 q)) <> Ok path | _ => True end ->
  put_last sha past m0 path p -> put_last sha (past ++ [o]) m0 path p.
Proof.
  intros O (a & b & E & A & B). exists a, (b ++ [o]). split; [rewrite E, <- app_assoc; reflexivity|]. split; [exact A|].
  intros b1 q b2 E2. destruct b2 as [|o' b2] using rev_ind.
  - apply app_inj_tail in E2. destruct E2 as (-> & ->). rewrite <- E. exact O.
  - clear IHb2. rewrite app_comm_cons, app_assoc in E2. apply app_inj_tail in E2. destruct E2 as (-> & _). eapply B. reflexivity.
Qed.
Lemma snoc_state past o : snd (v_run sha (past ++ [o]) m0 NewMapStore) =
  match o with DPut p => snd (map_Put sha (snd (v_run sha past m0 NewMapStore)) (dheap_after past m0 p)) | _ => snd (v_run sha past m0 NewMapStore) end.
Proof. rewrite v_run_app. destruct o as [p d|p|q|q]; cbn [v_run]; try reflexivity. destruct (map_Put sha _ _). reflexivity. Qed.
Lemma frozen a p b : is_ok (fst (map_Put sha (snd (v_run sha a m0 NewMapStore)) (dheap_after a m0 p))) = true -> unchanged sha ops0 m0 ->
  forall rest, ops0 = a ++ DPut p :: b ++ rest -> dheap_after (a ++ DPut p :: b) m0 p = dheap_after a m0 p.
Proof.
  intros O U. induction b as [|o b IH] using rev_ind; intros rest E; [rewrite dheap_after_app; reflexivity|].
  rewrite <- app_assoc in E. cbn [app] in E. rewrite app_comm_cons, app_assoc, dheap_after_app.
  specialize (IH (o :: rest) E). destruct o as [q d|q|q|q]; cbn [dheap_after]; try exact IH.
  unfold dassign. destruct (Nat.eqb_spec p q) as [<-|]; [|exact IH]. eapply U; [exact E|exact O].
Qed.
Lemma sim_other past o rest s v : ops0 = past ++ o :: rest -> match o with DPut _ => False | _ => True end -> sim past s v -> sim (past ++ [o]) s v.
Proof.
  intros E O (S1 & S2 & S3 & S4). split; [exact S1|]. split; [exact S2|]. split; [rewrite snoc_state; destruct o; try destruct O; exact S3|].
  intros path q M. destruct (S4 path q M) as (A & B). split; [apply put_last_other; [destruct o; try destruct O; exact I|exact A]|].
  intros U. rewrite (B U), dheap_after_app. destruct o as [p d|p|r|r]; try reflexivity. cbn [dheap_after]. unfold dassign.
  destruct (Nat.eqb_spec q p) as [->|]; [|reflexivity]. f_equal.
  destruct A as (a & b & E1 & A1 & _). assert (E2 : ops0 = a ++ DPut p :: b ++ DSet p d :: rest) by (rewrite E, E1, <- app_assoc; reflexivity).
  rewrite E1, (frozen a p b) with (rest := DSet p d :: rest); [symmetry; eapply U; [exact E2|]|rewrite A1; reflexivity|exact U|exact E2]. rewrite A1. reflexivity.
Qed.
Lemma run_sim rest : forall past s v, ops0 = past ++ rest -> sim past s v ->
  let x := d_run sha rest (dheap_after past m0) s in let y := v_run sha rest (dheap_after past m0) v in
  but_gets (fst x) = but_gets (fst y) /\ fst (snd x) = dheap_after ops0 m0 /\ sim ops0 (snd (snd x)) (snd y) /\ (unchanged sha ops0 m0 -> fst x = fst y).
Proof.
  induction rest as [|o rest IH]; intros past s v E S.
  - rewrite app_nil_r in E. subst past. cbn zeta. cbn [d_run v_run fst snd]. auto.
  - assert (E' : ops0 = (past ++ [o]) ++ rest) by (rewrite <- app_assoc; exact E). pose proof S as (S1 & S2 & S3 & S4). cbn zeta.
    destruct o as [p d|p|q|q]; cbn [d_run v_run].
    + destruct (IH (past ++ [DSet p d]) s v E') as (H1 & H2 & H3 & H4); [|rewrite dheap_after_app in H1, H2, H3, H4; auto].
      eapply sim_other; [exact E|exact I|exact S].
    + destruct (pput_cases (dheap_after past m0) s v p S1 S2) as [(path & x & P1 & P2)|(r & O & P1 & P2)]; rewrite P1, P2.
      * destruct (IH (past ++ [DPut p]) (PStore (mset (ps_drvs s) path p) (mset (ps_repl s) path x)) (MStore (mset (ms_drvs v) path (dheap_after past m0 p)) (mset (ms_repl v) path x)) E') as (H1 & H2 & H3 & H4).
        { split; [apply same_set; exact S1|]. split; [|split].
          - pose proof (put_inv sha v (dheap_after past m0 p) S2) as X. rewrite P2 in X. exact X.
          - rewrite snoc_state, <- S3, P2. reflexivity.
          - intros path' q. cbn [ps_drvs ms_drvs]. rewrite !mget_mset. destruct (beq_spec path path') as [<-|Hne].
            + intros X. injection X as <-. split; [|intros _; rewrite dheap_after_app; reflexivity].
              exists past, []. split; [reflexivity|]. split; [rewrite <- S3, P2; reflexivity|]. intros b1 q b2 X. destruct b1; discriminate X.
            + intros X. destruct (S4 path' q X) as (A & B). split; [|rewrite dheap_after_app; exact B]. apply put_last_other; [|exact A].
              rewrite <- S3, P2. cbn [fst]. congruence. }
        rewrite dheap_after_app in H1, H2, H3, H4. cbn [dheap_after] in H1, H2, H3, H4.
        destruct (d_run sha rest (dheap_after past m0) (PStore (mset (ps_drvs s) path p) (mset (ps_repl s) path x))) as [l z], (v_run sha rest (dheap_after past m0) (MStore (mset (ms_drvs v) path (dheap_after past m0 p)) (mset (ms_repl v) path x))) as [l' z']. cbn [fst snd but_gets filter] in *.
        split; [f_equal; exact H1|]. split; [exact H2|]. split; [exact H3|]. intros U. rewrite (H4 U). reflexivity.
      * destruct (IH (past ++ [DPut p]) s v E') as (H1 & H2 & H3 & H4).
        { split; [exact S1|]. split; [exact S2|]. split; [rewrite snoc_state, <- S3, P2; reflexivity|].
          intros path' q X. destruct (S4 path' q X) as (A & B). split; [|rewrite dheap_after_app; exact B]. apply put_last_other; [|exact A].
          rewrite <- S3, P2. cbn [fst]. intros ->. discriminate O. }
        rewrite dheap_after_app in H1, H2, H3, H4. cbn [dheap_after] in H1, H2, H3, H4.
        destruct (d_run sha rest (dheap_after past m0) s) as [l z], (v_run sha rest (dheap_after past m0) v) as [l' z']. cbn [fst snd but_gets filter] in *.
        split; [f_equal; exact H1|]. split; [exact H2|]. split; [exact H3|]. intros U. rewrite (H4 U). reflexivity.
    + destruct (IH (past ++ [DGet q]) s v E') as (H1 & H2 & H3 & H4); [eapply sim_other; [exact E|exact I|exact S]|].
      rewrite dheap_after_app in H1, H2, H3, H4. cbn [dheap_after] in H1, H2, H3, H4.
      destruct (d_run sha rest (dheap_after past m0) s) as [l z], (v_run sha rest (dheap_after past m0) v) as [l' z']. cbn [fst snd but_gets filter] in *.
      split; [exact H1|]. split; [exact H2|]. split; [exact H3|]. intros U. rewrite (H4 U). f_equal. f_equal.
      unfold pmap_Get, map_Get. destruct (mget (ps_drvs s) q) as [p|] eqn:M.
      * rewrite (proj2 (S4 q p M) U). reflexivity.
      * rewrite (proj1 (proj2 S1 q) M). reflexivity.
    + destruct (IH (past ++ [DHas q]) s v E') as (H1 & H2 & H3 & H4); [eapply sim_other; [exact E|exact I|exact S]|].
      rewrite dheap_after_app in H1, H2, H3, H4. cbn [dheap_after] in H1, H2, H3, H4.
      destruct (d_run sha rest (dheap_after past m0) s) as [l z], (v_run sha rest (dheap_after past m0) v) as [l' z']. cbn [fst snd but_gets filter] in *.
      rewrite (has_same s v q S1).
      split; [f_equal; exact H1|]. split; [exact H2|]. split; [exact H3|]. intros U. rewrite (H4 U). reflexivity.
Qed.
End Sim.
Lemma whole ops m : let x := d_run sha ops m PNewMapStore in let y := v_run sha ops m NewMapStore in
  but_gets (fst x) = but_gets (fst y) /\ fst (snd x) = dheap_after ops m /\ sim ops m ops (snd (snd x)) (snd y) /\ (unchanged sha ops m -> fst x = fst y).
Proof.
  apply (run_sim ops m ops [] PNewMapStore NewMapStore eq_refl). split; [split; [reflexivity|intros p; split; reflexivity]|].
  split; [apply new_inv|]. split; [reflexivity|]. discriminate.
Qed.
End P.
