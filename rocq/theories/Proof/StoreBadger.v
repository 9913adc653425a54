(** The BadgerStore (C63, C64). *)
From Verif Require Import Base.Bytes Base.BytesFacts Model.GoIO Model.GoStd Model.Nixhash Model.Storepath Model.Derivation Model.DrvParser Model.DrvStore
  Spec.StorePathSpec Spec.DerivationSpec Spec.StoreSpec Proof.DrvEncode Proof.DrvText Proof.DrvHash Proof.StoreMap.
Ltac Zify.zify_post_hook ::= idtac.

(** * Keys and content *)
Lemma drv_key_inj p q : drv_key p = drv_key q -> p = q.
Proof. unfold drv_key. apply app_inv_head. Qed.
Lemma repl_key_inj p q : repl_key p = repl_key q -> p = q.
Proof. unfold repl_key. apply app_inv_head. Qed.
Lemma keys_differ p q : drv_key p <> repl_key q.
Proof. unfold drv_key, repl_key. intros H. apply (f_equal (fun l => beq (firstn 1 l) (bs "d"))) in H. vm_compute in H. discriminate. Qed.
Lemma content_snoc b t : content (b ++ [t]) = apply_txn (content b) t.
Proof. unfold content. rewrite fold_left_app. reflexivity. Qed.
Definition entry (p text x : bytes) : txn := [(drv_key p, text); (repl_key p, x)].
Lemma get_drv b p text x q : mget (content (b ++ [entry p text x])) (drv_key q) = if beq p q then Some text else mget (content b) (drv_key q).
Proof.
  rewrite content_snoc. unfold entry. cbn [apply_txn]. rewrite !mget_mset. destruct (beq_spec (repl_key p) (drv_key q)) as [E|_]; [exfalso; exact (keys_differ q p (eq_sym E))|].
  destruct (beq_spec p q) as [->|Ne]; [rewrite beq_refl; reflexivity|]. destruct (beq_spec (drv_key p) (drv_key q)) as [E|_]; [apply drv_key_inj in E; contradiction|reflexivity].
Qed.
Lemma get_repl b p text x q : mget (content (b ++ [entry p text x])) (repl_key q) = if beq p q then Some x else mget (content b) (repl_key q).
Proof.
  rewrite content_snoc. unfold entry. cbn [apply_txn]. rewrite !mget_mset. destruct (beq_spec p q) as [->|Ne]; [rewrite beq_refl; reflexivity|].
  destruct (beq_spec (repl_key p) (repl_key q)) as [E|_]; [apply repl_key_inj in E; contradiction|]. destruct (beq_spec (drv_key p) (repl_key q)) as [E|_]; [exfalso; exact (keys_differ p q E)|reflexivity].
Qed.
Lemma badger_has b p : badger_Has b p = Ok (mhas (content b) (drv_key p)).
Proof.
  unfold badger_Has. cbn zeta. f_equal. unfold mhas. destruct (mget (content b) (drv_key p)) as [v|] eqn:E.
  - apply existsb_exists. exists (drv_key p). split; [|apply beq_refl]. apply filter_In. split; [|rewrite blt_irrefl; reflexivity].
    eapply Permutation_in; [symmetry; apply sort_perm|]. apply mget_some_key. eauto.
  - apply Bool.not_true_iff_false. intros H. apply existsb_exists in H. destruct H as (k & A & B). apply beq_eq in B. subst k. apply filter_In in A. destruct A as (A & _).
    apply mget_none in E. apply E. eapply Permutation_in; [apply sort_perm|exact A].
Qed.
Lemma mhas_key (m : amap bytes) k : mhas m k = true <-> mget m k <> None.
Proof. unfold mhas. destruct (mget m k); split; congruence. Qed.
Lemma has_key_get b k : has_key_in b k <-> mget (content b) k <> None.
Proof. unfold has_key_in. rewrite mget_some_key. destruct (mget (content b) k); split; [congruence|eauto|intros (v & H); congruence|congruence]. Qed.
Lemma write_buf d : exists l, drv_writes d false [] = Ok l /\ WriteDerivation d (Sink [] []) = (Ok tt, Sink (concat l) []).
Proof.
  destruct (writes_ok d false) as (l & E). exists l. split; [exact E|]. unfold WriteDerivation. rewrite E, run_writes_good by constructor. cbn [out plan]. rewrite skipn_nil. reflexivity.
Qed.

Section Sha.
Variable sha : bytes -> bytes.

(** * Put *)
Lemma finish_cases b d repl c :
  (exists p t x, badger_finish sha b d repl c = (Ok p, b ++ [entry p t x]) /\ c = true /\ checkOutputPaths sha d repl = Ok tt /\ DrvPath sha d = Ok p /\
     drv_bytes d false [] = Ok t /\ CalculateDrvReplacement sha d repl = Ok x) \/
  (snd (badger_finish sha b d repl c) = b /\ is_ok (fst (badger_finish sha b d repl c)) = false).
Proof.
  unfold badger_finish. destruct (checkOutputPaths sha d repl) as [[]|e|w] eqn:C; [|right; cbn [fst snd is_ok]; auto..].
  destruct (DrvPath sha d) as [p|e|w] eqn:P; [|right; cbn [fst snd is_ok]; auto..]. destruct (write_buf d) as (l & L & ->). unfold put_entries. cbn [out].
  destruct (CalculateDrvReplacement sha d repl) as [x|e|w] eqn:X; [|right; cbn [fst snd is_ok]; auto..]. destruct c; [left|right; cbn [fst snd is_ok]; auto].
  exists p, (concat l), x. split; [reflexivity|]. unfold drv_bytes. rewrite L. auto 10.
Qed.
Lemma bput_cases b d c :
  (exists repl p t x, badger_Put sha b d c = (Ok p, b ++ [entry p t x]) /\ c = true /\ validateDerivationInStore d (badger_Has b) = Ok tt /\ load_replacements b (mkeys (d_inputs d)) = Ok repl /\
     checkOutputPaths sha d repl = Ok tt /\ DrvPath sha d = Ok p /\ drv_bytes d false [] = Ok t /\ CalculateDrvReplacement sha d repl = Ok x) \/
  (snd (badger_Put sha b d c) = b /\ is_ok (fst (badger_Put sha b d c)) = false).
Proof.
  unfold badger_Put. destruct (validateDerivationInStore d (badger_Has b)) as [[]|e|w] eqn:V; [|right; cbn [fst snd is_ok]; auto..].
  destruct (load_replacements b (mkeys (d_inputs d))) as [repl|e|w] eqn:L; [|right; cbn [fst snd is_ok]; auto..].
  destruct (finish_cases b d repl c) as [(p & t & x & E & A)|E]; [left; exists repl, p, t, x|right; exact E]. rewrite E. intuition.
Qed.

(** * Reachable worlds *)
(** A transaction stores one accepted derivation, whose inputs are there already. *)
Definition good_txn (b : db) (t : txn) : Prop :=
  exists d p text x, t = entry p text x /\ drv_Validate d = Ok tt /\ DrvPath sha d = Ok p /\ drv_bytes d false [] = Ok text /\
    forall q, In q (mkeys (d_inputs d)) -> mget (content b) (drv_key q) <> None.
Inductive good_db : db -> Prop :=
| good_nil : good_db []
| good_snoc b t : good_db b -> good_txn b t -> good_db (b ++ [t]).
Lemma good_firstn b n : good_db b -> good_db (firstn n b).
Proof.
  induction 1 as [|b t G IH T]; [rewrite firstn_nil; constructor|]. rewrite firstn_app. destruct (n - length b) as [|k] eqn:E; cbn [firstn]; [rewrite app_nil_r; exact IH|].
  rewrite firstn_nil. rewrite firstn_all2 by lia. constructor; assumption.
Qed.
Definition good_call (b : db) (c : put_state) : Prop :=
  match c with
  | PChecking d todo => drv_Validate d = Ok tt /\ forall q, In q (mkeys (d_inputs d)) -> In q todo \/ mget (content b) (drv_key q) <> None
  | PLoading d | PCommitting d _ => drv_Validate d = Ok tt /\ forall q, In q (mkeys (d_inputs d)) -> mget (content b) (drv_key q) <> None
  | PReturned _ => True
  end.
Lemma get_mono b p t x k : mget (content b) (drv_key k) <> None -> mget (content (b ++ [entry p t x])) (drv_key k) <> None.
Proof. intros H. rewrite get_drv. destruct (beq p k); [discriminate|exact H]. Qed.
Lemma call_mono b p t x c : good_call b c -> good_call (b ++ [entry p t x]) c.
Proof.
  destruct c as [d todo|d|d repl|r]; cbn [good_call]; intros H; try exact I; destruct H as (V & H); (split; [exact V|]); intros q Hq; [destruct (H q Hq) as [X|X]; [left; exact X|right]|..]; apply get_mono; auto.
Qed.
Lemma step_cases b commits c c' b' : put_step sha b commits c = (c', b') -> good_call b c ->
  (b' = b /\ good_call b c' /\ forall p, c' = PReturned (Ok p) -> c = PReturned (Ok p)) \/
  (exists p t x, b' = b ++ [entry p t x] /\ c' = PReturned (Ok p) /\ good_txn b (entry p t x)).
Proof.
  destruct c as [d [|q todo]|d|d repl|r]; cbn [put_step good_call].
  - intros H (V & G). injection H as <- <-. left. split; [reflexivity|]. split; [|discriminate]. split; [exact V|]. intros q Hq. destruct (G q Hq) as [[]|X]. exact X.
  - rewrite badger_has. destruct (mhas (content b) (drv_key q)) eqn:M; intros H (V & G); injection H as <- <-; left; (split; [reflexivity|]); (split; [|discriminate]); [|exact I].
    split; [exact V|]. intros z Hz. destruct (G z Hz) as [[<-|X]|X]; [right; apply mhas_key; exact M|left; exact X|right; exact X].
  - destruct (load_replacements b (mkeys (d_inputs d))); intros H (V & G); injection H as <- <-; left; (split; [reflexivity|]); (split; [|discriminate]); [|exact I..]. split; assumption.
  - destruct (finish_cases b d repl commits) as [(p & t & x & E & _ & _ & P & T & _)|(E1 & E2)].
    + rewrite E. intros H (V & G). injection H as <- <-. right. exists p, t, x. split; [reflexivity|]. split; [reflexivity|]. exists d, p, t, x. auto 10.
    + destruct (badger_finish sha b d repl commits) as [r b1]. cbn [fst snd] in E1, E2. subst b1. intros H _. injection H as <- <-. left. split; [reflexivity|]. split; [exact I|].
      intros p X. injection X as ->. discriminate.
  - intros H _. injection H as <- <-. left. split; [reflexivity|]. split; [exact I|]. intros p X. exact X.
Qed.
Definition good_world (w : world) : Prop := good_db (fst w) /\ Forall (good_call (fst w)) (snd w).
Lemma Forall_nth_error {A} (P : A -> Prop) l i x : Forall P l -> nth_error l i = Some x -> P x.
Proof. intros F H. rewrite Forall_forall in F. apply F. eapply nth_error_In; eauto. Qed.
Lemma Forall_firstn {A} (P : A -> Prop) l n : Forall P l -> Forall P (firstn n l).
Proof. intros F. rewrite <- (firstn_skipn n l) in F. apply Forall_app in F. tauto. Qed.
Lemma Forall_skipn {A} (P : A -> Prop) l n : Forall P l -> Forall P (skipn n l).
Proof. intros F. rewrite <- (firstn_skipn n l) in F. apply Forall_app in F. tauto. Qed.
Lemma set_nth_forall {A} (P : A -> Prop) l i x : Forall P l -> P x -> Forall P (set_nth l i x).
Proof. intros F X. unfold set_nth. apply Forall_app. split; [apply Forall_firstn; exact F|]. constructor; [exact X|apply Forall_skipn; exact F]. Qed.
Lemma world_good w e : good_world w -> good_world (world_step sha w e).
Proof.
  destruct w as [b calls]. intros (G & F). cbn [fst snd] in G, F. destruct e as [d|i commits|n]; cbn [world_step].
  - split; [exact G|]. cbn [fst snd]. apply Forall_app. split; [exact F|]. constructor; [|constructor]. unfold put_start. destruct (drv_Validate d) as [[]|e|w] eqn:V; cbn [good_call]; auto.
  - destruct (nth_error calls i) as [c|] eqn:E; [|split; assumption]. pose proof (Forall_nth_error _ _ _ _ F E) as GC. destruct (put_step sha b commits c) as [c' b'] eqn:S.
    destruct (step_cases b commits c c' b' S GC) as [(-> & GC' & _)|(p & t & x & -> & -> & GT)].
    + split; [exact G|]. apply set_nth_forall; assumption.
    + split; cbn [fst snd]; [constructor; assumption|]. apply set_nth_forall; [|exact I]. apply Forall_impl with (2 := F). intros a. apply call_mono.
  - split; [apply good_firstn; exact G|constructor].
Qed.
Lemma reach_good w : reachable sha w -> good_world w.
Proof.
  intros (es & ->). unfold world_run. assert (G : forall w, good_world w -> good_world (fold_left (world_step sha) es w)).
  { induction es as [|e es IH]; intros w G; [exact G|]. apply IH, world_good, G. }
  apply G. split; constructor.
Qed.
Lemma good_together b : good_db b -> forall p, mget (content b) (drv_key p) <> None <-> mget (content b) (repl_key p) <> None.
Proof.
  induction 1 as [|b t G IH (d & p & text & x & -> & _)]; intros q; [split; intros H; exfalso; apply H; reflexivity|]. rewrite get_drv, get_repl. destruct (beq p q); [split; discriminate|apply IH].
Qed.
Lemma good_closed b : good_db b -> forall p text, mget (content b) (drv_key p) = Some text ->
  exists d, drv_Validate d = Ok tt /\ DrvPath sha d = Ok p /\ drv_bytes d false [] = Ok text /\ forall q, In q (mkeys (d_inputs d)) -> mget (content b) (drv_key q) <> None.
Proof.
  induction 1 as [|b t G IH (d & p & text & x & -> & V & P & T & C)]; intros q u; [discriminate|]. rewrite get_drv. destruct (beq_spec p q) as [<-|Ne].
  - intros H. injection H as <-. exists d. split; [exact V|]. split; [exact P|]. split; [exact T|]. intros z Hz. apply get_mono, C, Hz.
  - intros H. destruct (IH q u H) as (e & A & B & D & F). exists e. split; [exact A|]. split; [exact B|]. split; [exact D|]. intros z Hz. apply get_mono, F, Hz.
Qed.

(** * One call running alone is Put *)
Lemma returned_stays n b c r : run_alone sha n b c (PReturned r) = (PReturned r, b).
Proof. induction n as [|n IH]; [reflexivity|]. cbn [run_alone put_step]. exact IH. Qed.
Lemma alone_put b d commits : run_alone sha (length (d_inputs d) + 3) b commits (put_start d) = (PReturned (fst (badger_Put sha b d commits)), snd (badger_Put sha b d commits)).
Proof.
  unfold put_start, badger_Put, validateDerivationInStore. destruct (drv_Validate d) as [[]|e|w]; [|rewrite returned_stays; reflexivity..].
  replace (length (d_inputs d)) with (length (mkeys (d_inputs d))) by (unfold mkeys; apply map_length).
  assert (H : forall l, run_alone sha (length l + 3) b commits (PChecking d l) =
    match check_inputs (badger_Has b) l with
    | Ok _ => run_alone sha 2 b commits (PLoading d)
    | Err e => (PReturned (Err e), b)
    | Panic w => (PReturned (Panic w), b)
    end).
  { induction l as [|q l IH]; [reflexivity|]. cbn [length Nat.add run_alone put_step check_inputs]. destruct (badger_Has b q) as [[|]|e|w]; [exact IH|apply returned_stays..]. }
  rewrite H. destruct (check_inputs _ _) as [[]|e|w]; [|reflexivity..]. cbn [run_alone put_step]. destruct (load_replacements b (mkeys (d_inputs d))) as [repl|e|w]; [|reflexivity..].
  cbn [put_step]. destruct (badger_finish sha b d repl commits) as [r b']. reflexivity.
Qed.

(** * Two inputs *)
Lemma badger_two_inputs b d c : wf_maps d -> 2 <= length (d_inputs d) -> ~ is_fixed d -> is_ok (fst (badger_Put sha b d c)) = false.
Proof.
  intros W L NF. destruct (bput_cases b d c) as [(repl & p & t & x & E & _ & V & LR & C & _)|(_ & E)]; [exfalso|exact E].
  destruct (d_inputs d) as [|[q1 n1] [|[q2 n2] l]] eqn:I; cbn [length] in L; try lia. unfold mkeys in LR. cbn [map fst load_replacements] in LR.
  destruct (mget (content b) (repl_key q1)) as [v|]; [|discriminate]. injection LR as <-.
  assert (Q : q1 <> q2). { destruct W as (_ & W & _). rewrite I in W. unfold mkeys in W. cbn [map fst] in W. inversion W as [|? ? X _]; subst. intros ->. apply X. left. reflexivity. }
  assert (NM : mget [(q1, v)] q2 = None) by (cbn [mget]; rewrite (proj2 (beq_neq q1 q2) Q); reflexivity).
  apply validate_in_ok in V. destruct V as (V & _). pose proof (check_name sha d _ C) as N. revert C. unfold checkOutputPaths. rewrite Calc_eq, drv_bytes_eq, I.
  rewrite (replace_missing [(q1, v)] ((q1, n1) :: (q2, n2) :: l) [] q2 (or_intror (or_introl eq_refl)) NM). cbn [rbind]. destruct (drv_Name d); [congruence|].
  rewrite opaths_err; [discriminate|]. apply DrvValidate.Validate_needs in V. destruct V as (VO & _). destruct VO as [(o & D & F)|(NE & F)].
  - exfalso. apply NF. exists o. auto.
  - destruct (d_outputs d) as [|no outs]; [congruence|]. exists no. split; [left; reflexivity|]. inversion F as [|? ? (_ & NFO & _) _]; subst. unfold fixed_output in NFO.
    destruct (bytes_eq_dec (o_algo (snd no)) []); [assumption|contradiction].
Qed.

(** * Agreement with the MapStore *)
Variable P : drv -> Prop.
Hypothesis P_few : forall d, P d -> few_inputs d.
Definition related (s : mstore) (b : db) : Prop :=
  (forall p, match mget (ms_drvs s) p with
             | Some d => exists t, mget (content b) (drv_key p) = Some t /\ drv_bytes d false [] = Ok t /\ drv_Validate d = Ok tt /\ P d
             | None => mget (content b) (drv_key p) = None
             end) /\
  forall p, mget (ms_repl s) p = mget (content b) (repl_key p).
Lemma related_has s b : related s b -> forall p, map_Has s p = badger_Has b p.
Proof.
  intros (R & _) p. rewrite badger_has. unfold map_Has, mhas. specialize (R p). destruct (mget (ms_drvs s) p) as [d|]; [destruct R as (t & -> & _); reflexivity|rewrite R; reflexivity].
Qed.
Lemma check_inputs_ext has has' l : (forall p, has p = has' p) -> check_inputs has l = check_inputs has' l.
Proof. intros E. induction l as [|p l IH]; [reflexivity|]. cbn [check_inputs]. rewrite E, IH. reflexivity. Qed.
Lemma fixed_check d repl repl' : is_fixed d -> checkOutputPaths sha d repl = checkOutputPaths sha d repl'.
Proof. intros (o & D & F). unfold checkOutputPaths. rewrite (Calc_fixed sha d d repl repl' (bs "out") o o D D F eq_refl eq_refl eq_refl). reflexivity. Qed.
Lemma fixed_repl d repl repl' : is_fixed d -> CalculateDrvReplacement sha d repl = CalculateDrvReplacement sha d repl'.
Proof.
  intros (o & D & F). rewrite ?CalculateDrvReplacement_def. rewrite D. cbn [length Nat.eqb mget]. rewrite beq_refl. unfold fixed_output in F. apply beq_neq in F. rewrite F. reflexivity.
Qed.
Lemma put_agree s b d : map_inv sha s -> related s b -> P d ->
  same_outcome (fst (map_Put sha s d)) (fst (badger_Put sha b d true)) /\ related (snd (map_Put sha s d)) (snd (badger_Put sha b d true)).
Proof.
  intros I R FIT. pose proof (related_has s b R) as H. pose proof R as (R1 & R2).
  assert (V : validateDerivationInStore d (map_Has s) = validateDerivationInStore d (badger_Has b)).
  { unfold validateDerivationInStore. destruct (drv_Validate d); try reflexivity. apply check_inputs_ext, H. }
  destruct (validateDerivationInStore d (badger_Has b)) as [[]|e|w] eqn:VB.
  2,3: unfold map_Put, badger_Put; rewrite V, VB; cbn [fst snd same_outcome]; auto.
  assert (VV := V). apply validate_in_ok in VV. destruct VV as (VD & VI).
  assert (CV : covers (ms_repl s) d) by (intros q Hq; apply (proj1 I), has_true, VI, Hq).
  assert (LR : exists repl, load_replacements b (mkeys (d_inputs d)) = Ok repl /\ checkOutputPaths sha d (ms_repl s) = checkOutputPaths sha d repl /\
     CalculateDrvReplacement sha d (ms_repl s) = CalculateDrvReplacement sha d repl).
  { destruct (d_inputs d) as [|[q ns] l] eqn:DI.
    - exists []. split; [reflexivity|]. unfold checkOutputPaths. split; [rewrite (Calc_agree sha d (ms_repl s) [])|rewrite (Repl_agree sha d (ms_repl s) [])]; try reflexivity;
        [exact CV|rewrite DI; intros q []|exact CV|rewrite DI; intros q []].
    - unfold mkeys in *. cbn [map fst load_replacements] in *. rewrite <- R2. assert (Q : mget (ms_repl s) q <> None) by (apply CV; rewrite DI; left; reflexivity).
      destruct (mget (ms_repl s) q) as [v|] eqn:QV; [|congruence]. exists [(q, v)]. split; [reflexivity|]. destruct (P_few d FIT) as [F|L].
      + split; [apply fixed_check|apply fixed_repl]; exact F.
      + rewrite DI in L. destruct l; [|cbn [length] in L; lia].
        assert (A : forall z, In z (mkeys (d_inputs d)) -> mget (ms_repl s) z = mget [(q, v)] z).
        { rewrite DI. intros z [<-|[]]. cbn [fst mget]. rewrite beq_refl. exact QV. }
        unfold checkOutputPaths. split; [rewrite (Calc_agree sha d (ms_repl s) [(q, v)] CV A)|rewrite (Repl_agree sha d (ms_repl s) [(q, v)] CV A)]; reflexivity. }
  destruct LR as (repl & L & E1 & E2). destruct (Repl_covered sha d (ms_repl s) CV) as (x & X). unfold map_Put, badger_Put. rewrite V, VB, L. unfold badger_finish. rewrite E1.
  destruct (checkOutputPaths sha d repl) as [[]|e|w]; [|cbn [fst snd same_outcome]; auto..]. destruct (DrvPath sha d) as [p|e|w]; [|cbn [fst snd same_outcome]; auto..].
  cbn zeta. cbn [ms_drvs ms_repl]. destruct (write_buf d) as (w & WW & ->). cbn [out]. unfold put_entries. rewrite <- E2, X. cbn [fst snd same_outcome]. split; [reflexivity|].
  fold (entry p (concat w) x). split; cbn [ms_drvs ms_repl]; intros q.
  - rewrite mget_mset, get_drv. destruct (beq p q); [|apply R1]. exists (concat w). unfold drv_bytes. rewrite WW. auto.
  - rewrite mget_mset, get_repl. destruct (beq p q); [reflexivity|apply R2].
Qed.
Lemma run_agree h : Forall P h -> related (map_run sha h) (badger_run sha h).
Proof.
  intros F. unfold map_run, badger_run. assert (G : forall s b, map_inv sha s -> related s b ->
    related (fold_left (fun s d => snd (map_Put sha s d)) h s) (fold_left (fun b d => snd (badger_Put sha b d true)) h b)).
  { induction h as [|d h IH]; intros s b I R; [exact R|]. inversion F; subst. apply IH; [assumption|apply put_inv; exact I|]. apply put_agree; assumption. }
  apply G; [apply new_inv|]. split; intros p; reflexivity.
Qed.
End Sha.
Lemma get_text (P : drv -> Prop) json s b p : (forall d, P d -> wf_maps d) -> related P s b ->
  match map_Get s p with
  | Ok d => P d /\ drv_Validate d = Ok tt /\ exists t, aterm d t /\ badger_Get json b p = ReadDerivation json (Src [t] EEOF false)
  | _ => is_err (badger_Get json b p) = true
  end.
Proof.
  intros PW (R & _). specialize (R p). unfold map_Get, badger_Get. destruct (mget (ms_drvs s) p) as [d|]; [|rewrite R; reflexivity].
  destruct R as (t & -> & T & V & F). destruct (bytes_aterm d false (PW d F)) as (t' & T' & A). rewrite T in T'. injection T' as <-. eauto.
Qed.
