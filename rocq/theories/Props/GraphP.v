(** C122, C123: the derivations of a store in build order. *)
From Verif Require Import Base.Bytes Base.BytesFacts Model.GoIO Model.GoStd Model.Nixhash Model.Storepath Model.Derivation Model.DrvParser Model.DrvStore
  Spec.StorePathSpec Spec.DerivationSpec Spec.RoundSpec Spec.StoreSpec Spec.DrvIdSpec Spec.GraphSpec Proof.DrvEncode Proof.DrvText Proof.DrvExact Proof.DrvInjNeat Proof.DrvRound Proof.DrvHash Proof.StoreMap Proof.StoreBadger
  Props.DerivationP Props.StoreP Props.IdentityP.
Ltac Zify.zify_post_hook ::= idtac.

(** A log of what was stored, in order. *)
Inductive log_ok : list (bytes * drv) -> Prop :=
| log_nil : log_ok []
| log_snoc L p d : log_ok L -> incl (mkeys (d_inputs d)) (map fst L) -> log_ok (L ++ [(p, d)]).
Lemma log_order L : log_ok L -> (forall p d e, In (p, d) L -> In (p, e) L -> incl (mkeys (d_inputs d)) (mkeys (d_inputs e))) ->
  exists l, NoDup l /\ (forall p, In p l <-> In p (map fst L)) /\ forall l1 p l2 d, l = l1 ++ p :: l2 -> In (p, d) L -> incl (mkeys (d_inputs d)) l1.
Proof.
  induction 1 as [|L p d LO IH I]; intros S.
  - exists []. split; [constructor|]. split; [reflexivity|]. intros [|? ?] ? ? ? E; discriminate E.
  - destruct IH as (l & N & K & B). { intros q x y X Y. apply (S q); apply in_or_app; left; assumption. }
    destruct (in_dec bytes_eq_dec p l) as [J|J].
    + exists l. split; [exact N|]. split.
      { intros q. rewrite map_app, in_app_iff, K. cbn. apply K in J. intuition congruence. }
      intros l1 q l2 x E X. apply in_app_or in X. destruct X as [X|[X|[]]]; [exact (B l1 q l2 x E X)|]. injection X as <- <-.
      apply K in J. apply in_map_iff in J. destruct J as ((p' & e) & Q & J). cbn in Q. subst p'.
      intros z Z. apply (B l1 p l2 e E J). apply (S p d e); [apply in_or_app; right; left; reflexivity|apply in_or_app; left; exact J|exact Z].
    + exists (l ++ [p]). split; [|split].
      * rewrite <- (app_nil_r (l ++ [p])), <- app_assoc. cbn [app]. apply NoDup_Add with (a := p) (l := l); [|tauto]. rewrite <- (app_nil_r l) at 1. apply Add_app.
      * intros q. rewrite map_app, !in_app_iff, K. cbn. tauto.
      * intros l1 q l2 x E X. destruct (exists_last (l := q :: l2)) as (l3 & r & R); [discriminate|]. rewrite R, app_assoc in E. apply app_inj_tail in E. destruct E as [E <-].
        destruct l3 as [|q' l3].
        -- cbn in R. injection R as -> ->. rewrite app_nil_r in E. subst l1. apply in_app_or in X. destruct X as [X|[X|[]]].
           ++ exfalso. apply J. apply K. apply in_map_iff. exists (p, x). auto.
           ++ injection X as <-. intros z Z. apply K. exact (I z Z).
        -- injection R as <- R. apply in_app_or in X. destruct X as [X|[X|[]]]; [exact (B l1 q l3 x E X)|].
           injection X as -> _. exfalso. apply J. rewrite E. apply in_or_app. right. left. reflexivity.
Qed.

(** * MapStore *)
Lemma map_log sha h : exists L, log_ok L /\ (forall p, In p (map fst L) <-> mget (ms_drvs (map_run sha h)) p <> None) /\
  (forall p d, mget (ms_drvs (map_run sha h)) p = Some d -> In (p, d) L) /\ (forall p d, In (p, d) L -> In d h /\ DrvPath sha d = Ok p /\ drv_Validate d = Ok tt /\ exists repl, checkOutputPaths sha d repl = Ok tt).
Proof.
  induction h as [|d h IH] using rev_ind.
  - exists []. split; [constructor|]. split; [intros p; split; [intros []|intros H; apply H; reflexivity]|]. split; [discriminate|intros p d []].
  - destruct IH as (L & LO & K & G & M). unfold map_run in *. rewrite fold_left_app. cbn [fold_left]. set (s := fold_left _ h NewMapStore) in *.
    assert (M' : forall p e, In (p, e) L -> In e (h ++ [d]) /\ DrvPath sha e = Ok p /\ drv_Validate e = Ok tt /\ exists repl, checkOutputPaths sha e repl = Ok tt).
    { intros p e X. destruct (M p e X) as (A & B). split; [apply in_or_app; left; exact A|exact B]. }
    destruct (put_cases sha s d (run_inv sha h)) as [(p & x & E & V & C & P & _)|(E & _)]; rewrite E; cbn [snd ms_drvs]; [|exists L; auto].
    apply validate_in_ok in V. destruct V as (V1 & V2). exists (L ++ [(p, d)]). split; [|split; [|split]].
    + constructor; [exact LO|]. intros q Q. apply K. apply has_true. exact (V2 q Q).
    + intros q. rewrite map_app, in_app_iff, K. cbn [map fst In]. destruct (beq_spec p q) as [<-|NE].
      * rewrite mset_same. split; [discriminate|auto].
      * rewrite mset_other by congruence. intuition congruence.
    + intros q e. destruct (beq_spec p q) as [<-|NE]; [rewrite mset_same; intros Q; injection Q as <-; apply in_or_app; right; left; reflexivity|].
      rewrite mset_other by congruence. intros Q. apply in_or_app. left. exact (G q e Q).
    + intros q e Q. apply in_app_or in Q. destruct Q as [Q|[Q|[]]]; [exact (M' q e Q)|]. injection Q as <- <-.
      split; [apply in_or_app; right; left; reflexivity|]. split; [exact P|]. split; [exact V1|eauto].
Qed.
Lemma getter_get s p : getter s p = mget (ms_drvs s) p.
Proof. unfold getter, map_Get. destruct (mget (ms_drvs s) p); reflexivity. Qed.
Theorem C122_build_order : forall sha h, same_inputs sha h -> exists l, build_order (getter (map_run sha h)) l.
Proof.
  intros sha h S. destruct (map_log sha h) as (L & LO & K & G & M). destruct (log_order L LO) as (l & N & K' & B).
  { intros p d e X Y. destruct (M p d X) as (A1 & A2 & _), (M p e Y) as (B1 & B2 & _). exact (S d e p A1 B1 A2 B2). }
  exists l. split; [exact N|]. split; [intros p; rewrite K', K, getter_get; tauto|]. intros l1 p l2 d E X. rewrite getter_get in X. exact (B l1 p l2 d E (G p d X)).
Qed.
Print Assumptions C122_build_order.
(** A build order excludes cycles. *)
Lemma order_wf get l : build_order get l -> well_founded (needs get).
Proof.
  intros (N & K & B). assert (X : forall n l1 l2, length l1 = n -> l = l1 ++ l2 -> forall p, In p l1 -> Acc (needs get) p).
  { induction n as [n IH] using lt_wf_ind. intros l1 l2 LN E p P. apply List.in_split in P. destruct P as (a & b & ->). constructor. intros q (d & D & Q).
    rewrite <- app_assoc in E. cbn [app] in E. pose proof (B a p (b ++ l2) d E D q Q) as A. apply (IH (length a)) with (l1 := a) (l2 := p :: b ++ l2); [|reflexivity|exact E|exact A].
    rewrite app_length in LN. cbn in LN. lia. }
  intros p. constructor. intros q (d & D & Q). assert (P : In p l) by (apply K; congruence). apply List.in_split in P. destruct P as (a & b & E).
  apply (X (length a) a (p :: b) eq_refl E). exact (B a p b d E D q Q).
Qed.
Theorem C122_acyclic : forall get l, build_order get l -> well_founded (needs get) /\ forall p, ~ depends get p p.
Proof.
  intros get l O. pose proof (order_wf get l O) as W. split; [exact W|]. intros p. specialize (W p). induction W as [p _ IH]. intros D.
  assert (X : forall q, depends get p q -> exists r, needs get p r /\ (r = q \/ depends get r q)).
  { intros q. induction 1 as [q H|r q _ (z & Z & Y) H]; [eauto|]. exists z. split; [exact Z|]. right. destruct Y as [->|Y]; [left; exact H|right with r; assumption]. }
  inversion D as [q H|r q D' H]; subst; [exact (IH p H (dep_input _ _ _ H))|]. apply (IH r H).
  destruct (X r D') as (z & Z & Y). assert (T : forall a b c, depends get a b -> depends get b c -> depends get a c).
  { clear. intros a b c A B. revert A. induction B as [q H|r q _ IHB H]; intros A; [right with b; assumption|right with r; auto]. }
  apply (T r p r); [left; exact H|exact D'].
Qed.
Print Assumptions C122_acyclic.

(** Derivations share a path only if hashed texts collide, or if a text can be read in two ways. *)
Theorem C122_same_inputs : forall sha h, (forall b, length (sha b) = 32) -> Forall wf_maps h -> Forall (fun d => valid_name (drv_Name d)) h ->
  Forall neat_drv h -> no_collision sha h -> same_inputs sha h.
Proof.
  intros sha h S W V L NC d e p D E P P'. rewrite Forall_forall in W, V, L. destruct (V d D) as (N & A), (V e E) as (N' & A').
  destruct (C119_DrvPath_partial sha d e p S (W d D) (W e E) N A N' A' P P') as (_ & t & u & refs & refs' & T & U & R & R' & X & Y).
  destruct (NC d e t u refs refs' D E T U R R') as (C1 & C2). destruct X as [X|[X|X]]; [|contradiction..].
  destruct (Y (L d D) (L e E) X) as (_ & _ & I & _). intros z Z. apply (Permutation_in _ (Permutation_map fst I)). exact Z.
Qed.
Print Assumptions C122_same_inputs.

(** The provisos of C61, C62, C96 and C123 are about the hash: derivations whose names are
    those in their attributes share a path only if hashed texts collide, or if a text can
    be read in two ways. *)
Theorem C62_one_drv_a_path : forall sha json h, (forall b, length (sha b) = 32) -> Forall wf_maps h -> Forall (fun d => valid_name (drv_Name d)) h ->
  Forall neat_drv h -> Forall (json_consistent json) h -> no_collision sha h -> one_drv_a_path sha h.
Proof.
  intros sha json h S W V L J NC d e D E P. rewrite Forall_forall in W, V, L, J. destruct (V d D) as (N & A), (V e E) as (N' & A').
  destruct (DrvPath sha d) as [p|x|x] eqn:P1.
  2,3: destruct (C55_DrvPath sha d (W d D) N) as (? & ? & ? & _ & _ & _ & _ & _ & X & _); rewrite X in P1; discriminate P1.
  symmetry in P. destruct (C119_DrvPath_partial sha d e p S (W d D) (W e E) N A N' A' P1 P) as (_ & t & u & refs & refs' & T & U & R & R' & X & Y).
  destruct (NC d e t u refs refs' D E T U R R') as (C1 & C2). destruct X as [X|[X|X]]; [|contradiction..].
  destruct (Y (L d D) (L e E) X) as (Y1 & Y2 & Y3 & Y4 & Y5 & Y6 & Y7). unfold same_drv. repeat (split; [|try assumption]); try assumption.
  pose proof (J d D) as JD. pose proof (J e E) as JE. unfold json_consistent in JD, JE.
  rewrite <- (same_mget (d_env d) (d_env e) (bs "__json") (proj2 (proj2 (W d D))) Y7) in JE. destruct (mget (d_env d) (bs "__json")); congruence.
Qed.
Print Assumptions C62_one_drv_a_path.
(** A derivation put again in another iteration order is no harm, as long as its inputs
    that have the same replacement string are used for the same outputs (C52). *)
Theorem C62_no_path_clash : forall sha h, Forall wf_maps h -> one_drv_a_path sha h ->
  (forall d repl, In d h -> of_history sha h repl -> no_clash repl d) -> no_path_clash sha h.
Proof.
  intros sha h W O N d e D E P. split; [exact (O d e D E P)|]. intros repl H. rewrite Forall_forall in W. apply (C52_hash_order_partial sha d e repl (W d D) (O d e D E P)). exact (N d repl D H).
Qed.
Print Assumptions C62_no_path_clash.
(** [dc] again, its inputs in another order. *)
Definition dc_again : drv := Props.StoreP.node "c" [] [(zpath "b.drv", [bs "out"]); (zpath "a.drv", [bs "out"])].
Example C62_put_again_nonvacuous : Forall wf_maps (hist ++ [dc_again]) /\ no_path_clash sha0 (hist ++ [dc_again]) /\ dc_again <> dc /\
  fst (map_Put sha0 (map_run sha0 hist) dc_again) = Ok (zpath "c.drv").
Proof.
  assert (W : Forall wf_maps (hist ++ [dc_again])).
  { apply Forall_app. split; [exact hist_wf|]. constructor; [|constructor]. split; [|split]; apply nodup_dec; vm_compute; reflexivity. }
  split; [exact W|]. split; [|split; [discriminate|vm_compute; reflexivity]]. apply C62_no_path_clash; [exact W|..].
  - assert (E : same_drv dc dc_again) by (repeat split; try apply Permutation_refl; apply perm_swap).
    intros d e Hd He H. apply (f_equal (fun r => match r with Ok p => p | _ => [] end)) in H. apply beq_eq in H. unfold hist in Hd, He. cbn [In app] in Hd, He.
    destruct Hd as [<-|[<-|[<-|[<-|[<-|[]]]]]], He as [<-|[<-|[<-|[<-|[<-|[]]]]]]; try (vm_compute in H; discriminate H);
      solve [repeat split; apply Permutation_refl | exact E | exact (same_sym _ _ E)].
  - intros d repl Hd _ p q a b x Hp Hq _ _. assert (A : forall p a, In (p, a) (d_inputs d) -> a = [bs "out"]).
    { unfold hist in Hd. cbn [In app] in Hd. destruct Hd as [<-|[<-|[<-|[<-|[<-|[]]]]]]; intros p' a' H; cbn [d_inputs In node da db_ dc df dc_again Props.StoreP.node] in H;
        repeat (destruct H as [H|H]; [apply (f_equal snd) in H; symmetry; exact H|]); contradiction. }
    rewrite (A p a Hp), (A q b Hq). reflexivity.
Qed.

(** * BadgerStore, with overlapping calls, failing commits and crashes *)
Inductive logged (sha : bytes -> bytes) (P : drv -> Prop) : db -> list (bytes * drv) -> Prop :=
| lg_nil : logged sha P [] []
| lg_snoc b L p d t x : logged sha P b L -> P d -> drv_Validate d = Ok tt -> DrvPath sha d = Ok p -> drv_bytes d false [] = Ok t ->
    incl (mkeys (d_inputs d)) (map fst L) -> logged sha P (b ++ [entry p t x]) (L ++ [(p, d)]).
Lemma logged_firstn sha P b L n : logged sha P b L -> logged sha P (firstn n b) (firstn n L).
Proof.
  intros H. assert (E : length b = length L) by (induction H; [reflexivity|rewrite !app_length; cbn; lia]).
  induction H as [|b L p d t x H IH]; [rewrite !firstn_nil; constructor|]. rewrite !app_length in E. cbn [length] in E. assert (E' : length b = length L) by lia.
  rewrite !firstn_app, <- E'. destruct (n - length b) as [|k] eqn:K; cbn [firstn]; [rewrite !app_nil_r; auto|].
  rewrite !firstn_nil, !firstn_all2 by lia. constructor; assumption.
Qed.
Lemma logged_ok sha P b L : logged sha P b L -> log_ok L /\ (forall p, In p (map fst L) <-> mget (content b) (drv_key p) <> None) /\
  (forall p d, In (p, d) L -> P d /\ drv_Validate d = Ok tt /\ DrvPath sha d = Ok p) /\
  forall p t, mget (content b) (drv_key p) = Some t -> exists d, In (p, d) L /\ drv_bytes d false [] = Ok t.
Proof.
  induction 1 as [|b L p d t x H (A & B & C & D) PD V DP T I]; [split; [constructor|]; split; [intros p; split; [intros []|intros X; apply X; reflexivity]|]; split; [intros p d []|discriminate]|].
  split; [constructor; assumption|]. split; [|split].
  - intros q. rewrite map_app, in_app_iff, B, get_drv. cbn. destruct (beq_spec p q) as [<-|NE]; [split; [discriminate|auto]|intuition congruence].
  - intros q e X. apply in_app_or in X. destruct X as [X|[X|[]]]; [exact (C q e X)|]. injection X as <- <-. auto.
  - intros q u. rewrite get_drv. destruct (beq_spec p q) as [<-|NE]; intros X.
    + injection X as <-. exists d. split; [apply in_or_app; right; left; reflexivity|exact T].
    + destruct (D q u X) as (e & Y & Z). exists e. split; [apply in_or_app; left; exact Y|exact Z].
Qed.
Definition call_in (P : drv -> Prop) (c : put_state) : Prop :=
  match c with PChecking d _ | PLoading d | PCommitting d _ => P d | PReturned _ => True end.
Lemma world_logged sha es : exists L, logged sha (fun d => In d (puts es)) (fst (after sha es)) L.
Proof.
  assert (G : forall (P : drv -> Prop) es, (forall d, In d (puts es) -> P d) -> forall w, good_world sha w -> Forall (call_in P) (snd w) -> (exists L, logged sha P (fst w) L) ->
    exists L, logged sha P (fst (world_run sha w es)) L).
  { clear es. intros P es. unfold world_run. induction es as [|e es IH]; intros HP w GW CI (L & LG); [exists L; exact LG|]. cbn [fold_left].
    apply IH; [intros d D; apply HP; unfold puts; cbn [map concat]; apply in_or_app; right; exact D|apply world_good; exact GW|..]; clear IH.
    - destruct w as [b calls]. cbn [fst snd] in *. destruct e as [d|i commits|n]; cbn [world_step snd].
      + apply Forall_app. split; [exact CI|]. constructor; [|constructor]. unfold put_start. destruct (drv_Validate d); cbn [call_in]; auto. apply HP. left. reflexivity.
      + destruct (nth_error calls i) as [c|] eqn:E; [|exact CI]. pose proof (Forall_nth_error _ _ _ _ CI E) as X.
        assert (Y : call_in P (fst (put_step sha b commits c))).
        { destruct c as [d [|q todo]|d|d repl|r]; cbn [put_step call_in] in *; try exact X; try exact I.
          - destruct (badger_Has b q) as [[|]| |]; cbn; auto.
          - destruct (load_replacements b (mkeys (d_inputs d))); cbn; auto.
          - destruct (badger_finish sha b d repl commits). exact I. }
        destruct (put_step sha b commits c) as [c' b']. cbn [fst snd] in *. apply set_nth_forall; assumption.
      + constructor.
    - destruct w as [b calls]. cbn [fst snd] in *. destruct e as [d|i commits|n]; cbn [world_step fst]; [exists L; exact LG| |exists (firstn n L); apply logged_firstn; exact LG].
      destruct (nth_error calls i) as [c|] eqn:E; [|exists L; exact LG]. pose proof (Forall_nth_error _ _ _ _ CI E) as X. pose proof (Forall_nth_error _ _ _ _ (proj2 GW) E) as GC. cbn [fst] in GC.
      destruct c as [d todo|d|d repl|r].
      1,2,4: destruct (put_step sha b commits _) as [c' b'] eqn:S; destruct (step_cases sha b commits _ c' b' S GC) as [(-> & _)|(p & t & x & _ & EC & _)]; [exists L; exact LG|].
      + exfalso. destruct todo as [|q todo]; cbn [put_step] in S; [congruence|]. destruct (badger_Has b q) as [[|]| |]; congruence.
      + exfalso. cbn [put_step] in S. destruct (load_replacements b (mkeys (d_inputs d))); congruence.
      + cbn [put_step] in S. injection S as _ <-. exists L. exact LG.
      + cbn [put_step call_in good_call] in *. destruct (finish_cases sha b d repl commits) as [(p & t & x & EF & _ & _ & DP & T & _)|(EF & _)].
        * rewrite EF. cbn [fst]. exists (L ++ [(p, d)]). destruct (logged_ok _ _ _ _ LG) as (_ & K & _ & _). constructor; try assumption; try apply GC. intros q Q. apply K. apply GC. exact Q.
        * destruct (badger_finish sha b d repl commits) as [r b']. cbn [fst snd] in *. subst b'. exists L. exact LG. }
  apply G; [auto|split; [constructor|constructor]|constructor|]. exists []. constructor.
Qed.
Theorem C122_badger : forall sha json es, same_inputs sha (puts es) -> Forall (fun d => wf_maps d /\ ~ ambiguous d /\ readable d /\ json_consistent json d) (puts es) ->
  exists l, build_order (getter_badger json (fst (after sha es))) l.
Proof.
  intros sha json es S F. rewrite Forall_forall in F. destruct (world_logged sha es) as (L & LG). destruct (logged_ok _ _ _ _ LG) as (LO & K & M & G).
  destruct (log_order L LO) as (l & N & K' & B).
  { intros p d e X Y. destruct (M p d X) as (A1 & _ & A2), (M p e Y) as (B1 & _ & B2). exact (S d e p A1 B1 A2 B2). }
  assert (RB : forall p, match mget (content (fst (after sha es))) (drv_key p) with
    | None => getter_badger json (fst (after sha es)) p = None
    | Some _ => exists d e, In (p, d) L /\ getter_badger json (fst (after sha es)) p = Some e /\ same_drv d e end).
  { intros p. unfold getter_badger, badger_Get. destruct (mget (content (fst (after sha es))) (drv_key p)) as [t|] eqn:T; [|reflexivity].
    destruct (G p t T) as (d & D & DB). destruct (M p d D) as (P & V & _). destruct (F d P) as (W & NA & PR & J). destruct (bytes_aterm d false W) as (t' & T' & A). rewrite DB in T'. injection T' as <-.
    destruct (round_trip_neat json d W V NA PR J t A (Src [t] EEOF false)) as (e & E & SE); [apply app_nil_r|reflexivity|]. rewrite E. exists d, e. auto. }
  exists l. split; [exact N|]. split.
  - intros p. rewrite K', K. specialize (RB p). destruct (mget (content (fst (after sha es))) (drv_key p)) as [t|]; [|rewrite RB; tauto].
    destruct RB as (d & e & _ & -> & _). split; discriminate.
  - intros l1 p l2 e E X. specialize (RB p). destruct (mget (content (fst (after sha es))) (drv_key p)) as [t|]; [|congruence].
    destruct RB as (d & e' & D & Y & SD). rewrite X in Y. injection Y as <-. intros z Z. apply (B l1 p l2 d E D). apply (same_keys d e SD). exact Z.
Qed.
Print Assumptions C122_badger.
(** With colliding hashes the second of two derivations can take the place of its own input. *)
Theorem C122_collision_refuted : exists sha d e p, (forall b, length (sha b) = 32) /\ wf_maps d /\ wf_maps e /\ valid_name (drv_Name d) /\ valid_name (drv_Name e) /\
  Forall literal (raw_strings d) /\ Forall literal (raw_strings e) /\
  fst (map_Put sha (map_run sha []) d) = Ok p /\ fst (map_Put sha (map_run sha [d]) e) = Ok p /\ depends (getter (map_run sha [d; e])) p p.
Proof.
  exists sha0, da, (node "a" [] [(zpath "a.drv", [bs "out"])]), (zpath "a.drv"). split; [reflexivity|].
  do 2 (split; [split; [|split]; apply nodup_dec; vm_compute; reflexivity|]).
  do 2 (split; [split; [discriminate|apply alpha_dec; vm_compute; reflexivity]|]). do 2 (split; [apply literals_dec; vm_compute; reflexivity|]).
  split; [vm_compute; reflexivity|]. split; [vm_compute; reflexivity|]. left. exists (node "a" [] [(zpath "a.drv", [bs "out"])]). split; [vm_compute; reflexivity|left; reflexivity].
Qed.
Print Assumptions C122_collision_refuted.
Lemma hist_same : same_inputs sha0 hist.
Proof. intros d e p D E P P' z. apply (same_keys d e). destruct (hist_no_clash d e D E) as (S & _); [congruence|exact S]. Qed.
(** Four derivations, three of which need others; the same with calls that overlap and a crash. *)
Definition busy : list event := [EPut da; EStep 0 true; EStep 0 true; EStep 0 true; EPut db_; EPut da; EStep 1 true; EStep 2 true; EStep 1 true; EStep 1 true; EStep 2 true; EStep 1 true; EStep 2 false; ECrash 2].
Example C122_nonvacuous : same_inputs sha0 hist /\ build_order (getter (map_run sha0 hist)) [zpath "a.drv"; zpath "b.drv"; zpath "c.drv"; zpath "f.drv"] /\
  depends (getter (map_run sha0 hist)) (zpath "a.drv") (zpath "c.drv") /\
  same_inputs sha0 (puts busy) /\ is_ok (badger_Get (fun _ => Err EEOF) (fst (after sha0 busy)) (zpath "b.drv")) = true.
Proof.
  split; [exact hist_same|]. split; [|split; [|split]].
  - split; [apply nodup_dec; vm_compute; reflexivity|]. assert (G : forall p, getter (map_run sha0 hist) p = if beq p (zpath "a.drv") then Some da else if beq p (zpath "b.drv") then Some db_ else if beq p (zpath "c.drv") then Some dc else if beq p (zpath "f.drv") then Some df else None).
    { intros p. rewrite getter_get. assert (M : ms_drvs (map_run sha0 hist) = [(zpath "a.drv", da); (zpath "b.drv", db_); (zpath "c.drv", dc); (zpath "f.drv", df)]) by (vm_compute; reflexivity).
      rewrite M. cbn [mget]. rewrite !(beq_sym p). reflexivity. }
    split.
    + intros p. rewrite G. cbn [In]. destruct (beq_spec p (zpath "a.drv")) as [->|]; [split; [discriminate|auto]|]. destruct (beq_spec p (zpath "b.drv")) as [->|]; [split; [discriminate|auto]|].
      destruct (beq_spec p (zpath "c.drv")) as [->|]; [split; [discriminate|auto]|]. destruct (beq_spec p (zpath "f.drv")) as [->|]; [split; [discriminate|auto 6]|]. split; [intuition congruence|congruence].
    + intros l1 p l2 d E X. rewrite G in X.
      destruct l1 as [|x1 [|x2 [|x3 [|x4 l1]]]]; cbn [app] in E; [..|apply (f_equal (@length bytes)) in E; cbn in E; rewrite app_length in E; cbn in E; lia].
      * injection E as <- _. vm_compute in X. injection X as <-. vm_compute. tauto.
      * injection E as <- <- _. vm_compute in X. injection X as <-. vm_compute. tauto.
      * injection E as <- <- <- _. vm_compute in X. injection X as <-. vm_compute. tauto.
      * injection E as <- <- <- <- _. vm_compute in X. injection X as <-. vm_compute. tauto.
  - right with (zpath "b.drv"); [left; exists db_|exists dc]; (split; [vm_compute; reflexivity|cbn; auto]).
  - intros d e p D E. apply hist_same; [cbn in D; unfold hist; cbn; intuition|cbn in E; unfold hist; cbn; intuition].
  - vm_compute. reflexivity.
Qed.

(** * C123: copying a store *)
Lemma f2_one {A B} (R : A -> B -> Prop) a q : Forall2 R [a] q -> exists b, q = [b] /\ R a b.
Proof. intros H. inversion H as [|? b ? ? X Y]; subst. inversion Y; subst. eauto. Qed.
Lemma f2_right {A B} (R : A -> B -> Prop) l m b : Forall2 R l m -> In b m -> exists a, In a l /\ R a b.
Proof. induction 1 as [|x y l m X _ IH]; intros I; [destruct I|]. destruct I as [<-|I]; [exists x; cbn; auto|]. destruct (IH I) as (a & I1 & I2). exists a. cbn; auto. Qed.
(** Everything a MapStore has, put into a new one in any build order, is accepted and found there again. *)
Theorem C123_copy : forall sha h l ds, Forall wf_maps h -> no_path_clash sha h -> let s := map_run sha h in
  build_order (getter s) l -> at_paths (getter s) l ds ->
  (forall before d behind, ds = before ++ d :: behind -> exists p, DrvPath sha d = Ok p /\ fst (map_Put sha (map_run sha before) d) = Ok p) /\
  forall p, map_Get (map_run sha ds) p = map_Get s p.
Proof.
  intros sha h l ds W NC s (N & K & B) A.
  assert (IH : forall l1 ds1, (exists l2, l = l1 ++ l2) -> at_paths (getter s) l1 ds1 ->
    (forall before d behind, ds1 = before ++ d :: behind -> exists p, DrvPath sha d = Ok p /\ fst (map_Put sha (map_run sha before) d) = Ok p) /\
    forall p, getter (map_run sha ds1) p = if in_dec bytes_eq_dec p l1 then getter s p else None).
  { induction l1 as [|p l1 IH] using rev_ind; intros ds1 (l2 & E) A1.
    - assert (ds1 = []) by (inversion A1; reflexivity). subst ds1. split; [intros [|? ?] ? ? X; discriminate X|]. intros p. reflexivity.
    - unfold at_paths in A1. apply Forall2_app_inv_l in A1. destruct A1 as (ds0 & q & A1 & A2 & ->). apply f2_one in A2. destruct A2 as (d & -> & D).
      rewrite <- app_assoc in E. cbn [app] in E. destruct (IH ds0) as (AC & GE); [exists (p :: l2); exact E|exact A1|]. clear IH.
      assert (OF : forall q e, getter s q = Some e -> In e h /\ right_paths_in sha (getter s) e /\ drv_Validate e = Ok tt /\ DrvPath sha e = Ok q).
      { intros q e X. assert (Y : map_Get s q = Ok e) by (unfold getter in X; destruct (map_Get s q); congruence).
        destruct (C62_consistent_partial sha h q e W NC Y) as (X1 & X2 & _), (C62_closed sha h q e Y) as (X3 & X4 & _). auto. }
      assert (SUB : forall e, In e ds0 -> In e h). { intros e X. destruct (f2_right _ _ _ _ A1 X) as (q & _ & Y). exact (proj1 (OF q e Y)). }
      destruct (OF p d D) as (D1 & D2 & D3 & D4).
      assert (W0 : Forall wf_maps ds0) by (rewrite Forall_forall in *; auto). assert (NC0 : no_path_clash sha ds0) by (apply (clash_incl sha h); [intros x X; auto|exact NC]).
      assert (IN : forall q, In q (mkeys (d_inputs d)) -> In q l1) by (intros q; exact (B l1 p l2 d E D q)).
      assert (OK : is_ok (fst (map_Put sha (map_run sha ds0) d)) = true).
      { apply (C61_accepts_graph_partial sha ds0 d W0 NC0); [rewrite Forall_forall in W; auto|]. split; [exact D3|]. split; [|split].
        - intros q Q. rewrite GE. destruct (in_dec bytes_eq_dec q l1) as [_|X]; [|exfalso; apply X, IN, Q]. apply K. rewrite E. apply in_or_app. left. apply IN, Q.
        - intros X. destruct (D2 (ms_repl s)) as (paths & C & _); [|rewrite Calc_eq, X in C; discriminate C].
          intros q Q. assert (G : getter s q <> None) by (apply K; rewrite E; apply in_or_app; left; apply IN, Q). destruct (getter s q) as [e|] eqn:GQ; [|congruence].
          assert (Y : map_Get s q = Ok e) by (unfold getter in GQ; destruct (map_Get s q); congruence).
          destruct (C62_consistent_partial sha h q e W NC Y) as (_ & _ & x & X1 & X2). exists x. split; [exact X1|apply X2; reflexivity].
        - intros repl R. apply D2. intros q Q. destruct (R q Q) as (y & Y1 & Y2). exists y. split; [exact Y1|].
          apply modulo_grow with (2 := Y2). intros z e Z. exists e. rewrite GE in Z. destruct (in_dec bytes_eq_dec z l1); [|discriminate]. split; [exact Z|]. split; [tauto|reflexivity]. }
      destruct (put_cases sha (map_run sha ds0) d (run_inv sha ds0)) as [(p' & x & PE & _ & _ & P & _)|(_ & X & _)]; [|congruence]. rewrite P in D4. injection D4 as ->. split.
      + intros before e behind X. destruct (exists_last (l := e :: behind)) as (l3 & r & R3); [discriminate|]. rewrite R3, app_assoc in X. apply app_inj_tail in X. destruct X as [X <-].
        destruct l3 as [|e' l3]; cbn [app] in R3.
        * injection R3 as -> _. rewrite app_nil_r in X. subst before. exists p. rewrite PE. auto.
        * injection R3 as <- _. exact (AC before e l3 X).
      + intros q. rewrite getter_get. unfold map_run. rewrite fold_left_app. cbn [fold_left]. fold (map_run sha ds0). rewrite PE. cbn [snd ms_drvs].
        destruct (beq_spec p q) as [<-|NE].
        * rewrite mset_same. destruct (in_dec bytes_eq_dec p (l1 ++ [p])) as [_|X]; [symmetry; exact D|exfalso; apply X; apply in_or_app; right; left; reflexivity].
        * rewrite mset_other by congruence. rewrite <- getter_get, GE. destruct (in_dec bytes_eq_dec q l1) as [X|X], (in_dec bytes_eq_dec q (l1 ++ [p])) as [Y|Y]; try reflexivity; exfalso.
          -- apply Y. apply in_or_app. left. exact X.
          -- apply in_app_or in Y. destruct Y as [Y|[Y|[]]]; contradiction. }
  destruct (IH l ds) as (I1 & I2); [exists []; symmetry; apply app_nil_r|exact A|]. split; [exact I1|].
  intros p. assert (X : getter (map_run sha ds) p = getter s p).
  { rewrite I2. destruct (in_dec bytes_eq_dec p l) as [_|Y]; [reflexivity|]. rewrite K in Y. destruct (getter s p); [exfalso; apply Y; discriminate|reflexivity]. }
  rewrite !getter_get in X. unfold map_Get. rewrite X. reflexivity.
Qed.
Print Assumptions C123_copy.
(** The same into a BadgerStore, for derivations it takes (C63: at most one input, unless the output is fixed). *)
Theorem C123_copy_to_badger : forall sha h l ds, Forall wf_maps h -> no_path_clash sha h -> Forall few_inputs ds -> let s := map_run sha h in
  build_order (getter s) l -> at_paths (getter s) l ds ->
  (forall before d behind, ds = before ++ d :: behind -> exists p, DrvPath sha d = Ok p /\ fst (badger_Put sha (badger_run sha before) d true) = Ok p) /\
  forall p json, badger_Has (badger_run sha ds) p = map_Has s p /\
    forall d, map_Get s p = Ok d -> exists t, aterm d t /\ badger_Get json (badger_run sha ds) p = ReadDerivation json (Src [t] EEOF false).
Proof.
  intros sha h l ds W NC F s O A. destruct (C123_copy sha h l ds W NC O A) as (P & G). fold s in G.
  assert (WD : Forall wf_maps ds).
  { apply Forall_forall. intros d D. destruct (f2_right _ _ _ _ A D) as (q & _ & Q). assert (Y : map_Get s q = Ok d) by (unfold getter in Q; destruct (map_Get s q); congruence).
    destruct (C62_consistent_partial sha h q d W NC Y) as (X & _). rewrite Forall_forall in W. auto. }
  split.
  - intros before d behind E. destruct (P before d behind E) as (p & P1 & P2). exists p. split; [exact P1|]. subst ds. apply Forall_app in F, WD. destruct F as (F1 & F2), WD as (W1 & W2). inversion F2; subst. inversion W2; subst.
    apply (C63_exact sha before d p); assumption.
  - intros p json. assert (X : wf_maps da /\ few_inputs da) by (split; [split; [|split]; apply nodup_dec; vm_compute; reflexivity|right; cbn; lia]).
    destruct (C63_puts_partial sha ds da p WD F (proj1 X) (proj2 X)) as (_ & H & T). split; [|intros d D].
    + rewrite <- H. rewrite !C61_has_get, G. reflexivity.
    + specialize (T json). cbv zeta in T. rewrite G, D in T. exact T.
Qed.
Print Assumptions C123_copy_to_badger.
Example C123_nonvacuous : Forall wf_maps hist /\ no_path_clash sha0 hist /\
  build_order (getter (map_run sha0 hist)) [zpath "a.drv"; zpath "b.drv"; zpath "f.drv"; zpath "c.drv"] /\
  at_paths (getter (map_run sha0 hist)) [zpath "a.drv"; zpath "b.drv"; zpath "f.drv"; zpath "c.drv"] [da; db_; df; dc] /\ Forall few_inputs [da; db_; df].
Proof.
  split; [exact hist_wf|]. split; [exact hist_no_clash|]. split; [|split; [repeat constructor; vm_compute; reflexivity|]].
  - destruct C122_nonvacuous as (_ & (_ & K & _) & _). split; [apply nodup_dec; vm_compute; reflexivity|]. split.
    + intros p. rewrite <- K. cbn [In]. tauto.
    + intros l1 p l2 d E X.
      destruct l1 as [|x1 [|x2 [|x3 [|x4 l1]]]]; cbn [app] in E; [..|apply (f_equal (@length bytes)) in E; cbn in E; rewrite app_length in E; cbn in E; lia].
      * injection E as <- _. vm_compute in X. injection X as <-. vm_compute. tauto.
      * injection E as <- <- _. vm_compute in X. injection X as <-. vm_compute. tauto.
      * injection E as <- <- <- _. vm_compute in X. injection X as <-. vm_compute. tauto.
      * injection E as <- <- <- <- _. vm_compute in X. injection X as <-. vm_compute. tauto.
  - constructor; [right; cbn; lia|]. constructor; [right; cbn; lia|]. constructor; [|constructor]. left. eexists. split; [reflexivity|discriminate].
Qed.
