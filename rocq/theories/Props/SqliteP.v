(** C75-C81: the SQLite databases of /repo/pkg/sqlite. *)
From Coq Require Import Lia Permutation.
From Verif Require Import Base.Bytes Base.BytesFacts Model.GoIO Model.Sqlite Spec.SqliteSpec Proof.SqliteFacts.
Ltac Zify.zify_post_hook ::= idtac.

(** * C75: the fetcher cache *)
(** QueryCache returns the value and the timestamp of the last successful upsert of
    the domain and key, and nothing if there was none. *)
Theorem C75_fetcher_cache : forall h d k l,
  fc_QueryCache d k (fc_run h) l ->
  length l <= 1 /\
  forall v t, In (v, t) l <-> since (fun e => e = (FC d k v t, true)) (fun e => ~ fc_writes d k e) h.
Proof.
  intros h d k l H. destruct (fc_cell d k h) as [L C].
  assert (H' : rows_of (map (fun r => (fc_value r, fc_ts r)) (filter (fun _ => true) (filter (fc_is d k) (fc_run h)))) l)
    by (rewrite filter_true; exact H).
  destruct (rows_of_cell _ _ _ _ L H') as [L' M]. split; [exact L'|]. intros v t. rewrite M. split.
  - intros (r & I & _ & E). pose proof I as I'. apply C in I. apply filter_In in I'. destruct I' as [_ K]. apply fc_is_iff in K. destruct K as [<- <-].
    injection E as -> ->. destruct I as (h1 & e & h2 & -> & [-> _] & F). exists h1, (r, true), h2. split; [reflexivity|]. split; [|exact F].
    destruct r; reflexivity.
  - intros (h1 & e & h2 & -> & -> & F). exists (FC d k v t). split; [|auto]. apply C. do 3 eexists. split; [reflexivity|]. split; [|exact F].
    split; [reflexivity|]. apply fc_is_iff. auto.
Qed.
Print Assumptions C75_fetcher_cache.
(** Never found before it was stored. *)
Corollary C75_fetcher_none : forall h d k, Forall (fun e => ~ fc_writes d k e) h -> forall l, fc_QueryCache d k (fc_run h) l -> l = [].
Proof.
  intros h d k F l H. destruct (C75_fetcher_cache h d k l H) as [_ C]. destruct l as [|[v t] l]; [reflexivity|]. exfalso.
  destruct (proj1 (C v t) (or_introl eq_refl)) as (h1 & e & h2 & -> & -> & _). apply Forall_app in F. destruct F as [_ F].
  inversion F as [|? ? N _]; subst. apply N. unfold fc_writes. cbn. auto.
Qed.
Print Assumptions C75_fetcher_none.
Example C75_case : let h := [(FC [x61] [x62] [x63] 1, true); (FC [x61] [x62] [x64] 2, true); (FC [x61] [x62] [x65] 3, false); (FC [x61] [] [x66] 4, true)] in
  fc_QueryCache [x61] [x62] (fc_run h) [([x64], 2%Z)] /\ fc_QueryCache [x61] [] (fc_run h) [([x66], 4%Z)] /\ fc_QueryCache [] [] (fc_run h) [].
Proof. vm_compute. repeat split; auto. Qed.

(** * C76: the eval cache *)
(** With a name, QueryAttribute returns what the last successful insert for the
    parent and name stored (and no context, if that insert gave none). *)
Theorem C76_attribute_partial : forall h p n r,
  ec_QueryAttribute p (Some n) (ec_run h) r ->
  (r = Err ErrNoRows /\ Forall (fun e => ~ ec_writes p (Some n) e) h) \/
  (exists x, r = Ok x /\ since (ec_sets p (Some n) x) (fun e => ~ ec_writes p (Some n) e) h).
Proof.
  intros h p n r H. destruct (ec_cell p n h) as [L C]. unfold ec_QueryAttribute in H.
  change (filter _ (ec_run h)) with (filter (ec_is p n) (ec_run h)) in H.
  destruct (one_of_cell _ _ _ L H) as [[E ->]|(a & E & ->)].
  - left. split; [reflexivity|]. apply Forall_forall. intros e I W. rewrite E in C.
    assert (D : forall h, (exists e, In e h /\ ec_writes p (Some n) e) ->
       exists r, since (fun e => snd e = true /\ ec_row_of (fst e) = r /\ ec_is p n r = true) (fun e => ~ ec_writes p (Some n) e) h).
    { clear. induction h as [|e h IH] using rev_ind; [intros (e & [] & _)|]. intros (e' & I & W).
      assert (X : ec_writes p (Some n) e \/ ~ ec_writes p (Some n) e).
      { unfold ec_writes. destruct (Bool.bool_dec (snd e) true) as [S|S]; [|right; tauto].
        destruct (fst e) as [p' n' t v|p' n' t v c]; (destruct (Z.eq_dec p' p); [|right; tauto]);
          (destruct n' as [n'|]; [|right; intuition discriminate]);
          (destruct (beq n' n) eqn:B; [apply beq_eq in B; left; subst; auto|right; intros (_ & _ & E); injection E as ->; rewrite beq_refl in B; discriminate]). }
      destruct X as [X|X].
      - exists (ec_row_of (fst e)). apply since_snoc. left. destruct X as [X1 X2]. split; [exact X1|]. split; [reflexivity|].
        apply ec_is_iff. destruct (fst e); cbn; exact X2.
      - apply in_app_or in I. destruct I as [I|[<-|[]]]; [|tauto]. destruct IH as (r & IH); [eauto|]. exists r. apply since_snoc. auto. }
    destruct (D h) as (r' & D'); [eauto|]. apply C in D'. destruct D'.
  - right. eexists. split; [reflexivity|]. assert (I : In a (filter (ec_is p n) (ec_run h))) by (rewrite E; left; reflexivity).
    apply C in I. destruct I as (h1 & e & h2 & -> & (S & R & K) & F). exists h1, e, h2. split; [reflexivity|]. split; [|exact F].
    unfold ec_sets. split; [exact S|]. apply ec_is_iff in K. destruct K as [<- <-]. destruct (fst e); cbn in R; subst a; cbn; auto.
Qed.
Print Assumptions C76_attribute_partial.
Lemma perm_filter {A} (q : A -> bool) (a b : list A) : Permutation a b -> Permutation (filter q a) (filter q b).
Proof.
  intros H. induction H; cbn.
  - constructor.
  - destruct (q x); [constructor|]; assumption.
  - destruct (q x), (q y); try apply Permutation_refl. apply perm_swap.
  - eapply Permutation_trans; eassumption.
Qed.
(** QueryAttributes lists each name that was ever inserted under the parent, once. *)
Theorem C76_attributes_partial : forall h p l,
  ec_QueryAttributes p (ec_run h) l ->
  NoDup (filter (fun x => match x with Some _ => true | None => false end) l) /\
  forall n, In (Some n) l <-> Exists (ec_writes p (Some n)) h.
Proof.
  intros h p l H.
  assert (IN : forall n, In (Some n) l <-> exists r, In r (filter (ec_is p n) (ec_run h))).
  { intros n. split.
    - intros I. apply (Permutation_in _ (Permutation_sym H)) in I. apply in_map_iff in I. destruct I as (r & E & I). apply filter_In in I.
      destruct I as [I K]. exists r. apply filter_In. split; [exact I|]. apply ec_is_iff. apply Z.eqb_eq in K. auto.
    - intros (r & I). apply filter_In in I. destruct I as [I K]. apply ec_is_iff in K. destruct K as [K1 K2].
      apply (Permutation_in _ H). apply in_map_iff. exists r. split; [exact K2|]. apply filter_In. rewrite K1, Z.eqb_refl. auto. }
  split.
  - assert (P : Permutation (filter (fun x : option bytes => match x with Some _ => true | None => false end) (map ec_name (filter (fun r => (ec_parent r =? p)%Z) (ec_run h))))
               (filter (fun x => match x with Some _ => true | None => false end) l)).
    { apply perm_filter. exact H. }
    apply (Permutation_NoDup P).
    assert (L : forall n, length (filter (ec_is p n) (ec_run h)) <= 1) by (intros n; apply ec_cell). revert L. generalize (ec_run h). clear.
    induction l as [|r t IH]; intros L; [constructor|]. cbn [filter]. destruct (ec_parent r =? p)%Z eqn:K.
    + cbn [map filter]. assert (L' : forall n, length (filter (ec_is p n) t) <= 1).
      { intros n. specialize (L n). cbn [filter] in L. destruct (ec_is p n r); cbn in L; lia. }
      destruct (ec_name r) as [n|] eqn:N; [|apply IH; exact L'].
      constructor; [|apply IH; exact L']. intros I. apply filter_In in I. destruct I as [I _]. apply in_map_iff in I.
      destruct I as (r' & E & I). apply filter_In in I. destruct I as [I K']. specialize (L n). cbn [filter] in L.
      assert (X : ec_is p n r = true) by (apply ec_is_iff; apply Z.eqb_eq in K; auto). rewrite X in L. cbn in L.
      assert (Y : In r' (filter (ec_is p n) t)) by (apply filter_In; split; [exact I|]; apply ec_is_iff; apply Z.eqb_eq in K'; auto).
      destruct (filter (ec_is p n) t); [destruct Y|cbn in L; lia].
    + apply IH. intros n. specialize (L n). cbn [filter] in L. destruct (ec_is p n r); cbn in L; lia.
  - intros n. rewrite IN. destruct (ec_cell p n h) as [_ C]. split.
    + intros (r & I). apply C in I. destruct I as (h1 & e & h2 & -> & (S & R & K) & _). apply Exists_app. right. left.
      unfold ec_writes. split; [exact S|]. apply ec_is_iff in K. subst r. destruct (fst e); cbn in K; exact K.
    + intros X. destruct (C76_attribute_partial h p n (match filter (ec_is p n) (ec_run h) with [] => Err ErrNoRows | a :: _ => Ok (ec_type a, ec_value a, ec_context a) end)) as [[_ F]|(x & E & _)].
      * unfold ec_QueryAttribute. change (filter _ (ec_run h)) with (filter (ec_is p n) (ec_run h)). destruct (filter (ec_is p n) (ec_run h)); cbn; [reflexivity|]. eauto.
      * exfalso. rewrite Forall_forall in F. apply Exists_exists in X. destruct X as (e & I & W). exact (F e I W).
      * destruct (filter (ec_is p n) (ec_run h)) as [|a t]; [discriminate|]. exists a. left. reflexivity.
Qed.
Print Assumptions C76_attributes_partial.
(** With a NULL name (AttributeName.Valid = false) an attribute that was stored is
    never found, and storing it twice keeps both. *)
Theorem C76_null_name_refuted :
  (forall h p r, ec_QueryAttribute p None (ec_run h) r -> r = Err ErrNoRows) /\
  (exists h p l, h = [(EInsert p None 1 None, true); (EInsert p None 2 None, true)] /\ ec_QueryAttributes p (ec_run h) l /\ l = [None; None]).
Proof.
  split.
  - intros h p r H. unfold ec_QueryAttribute in H. rewrite filter_nil in H; [exact H|].
    intros x _. destruct (ec_name x); apply andb_false_r.
  - exists [(EInsert 7 None 1 None, true); (EInsert 7 None 2 None, true)], 7%Z, [None; None]. split; [reflexivity|]. split; [|reflexivity]. vm_compute. reflexivity.
Qed.
Print Assumptions C76_null_name_refuted.
Example C76_case : let h := [(EInsertC 0 (Some [x61]) 2 (Some [x62]) (Some [x63]), true); (EInsert 0 (Some [x61]) 3 None, true); (EInsert 0 (Some []) 1 None, true)] in
  ec_QueryAttribute 0 (Some [x61]) (ec_run h) (Ok (3%Z, None, None)) /\ ec_QueryAttributes 0 (ec_run h) [Some [x61]; Some []].
Proof. split; [vm_compute; eauto|]. vm_compute. apply perm_swap. Qed.

(** * C77: the binary cache *)
(** QueryNar returns the one row that was stored last for the cache and hash part,
    if it is newer than the bound for its kind and no purge took it since. *)
Theorem C77_nar : forall fk h c hs t0 t1 l,
  let ev := fst (bc_run fk h) in
  bc_QueryNar c hs t0 t1 (snd (bc_run fk h)) l ->
  length l <= 1 /\
  forall present i, In (present, i) l <->
    exists ts, ((if present =? 0 then t0 else t1) < ts)%Z /\
      since (fun e => nar_stored e c hs present i ts) (nar_kept c hs present ts) ev.
Proof.
  cbn zeta. intros fk h c hs t0 t1 l H. destruct (bc_nar_cell fk c hs h) as [L C]. cbn zeta in *.
  assert (H' : rows_of (map (fun r => (bn_present r, bn_info r)) (filter (fun r => (((bn_present r =? 0) && (t0 <? bn_ts r)) || ((bn_present r =? 1) && (t1 <? bn_ts r)))%Z)
     (filter (bn_is c hs) (b_nars (snd (bc_run fk h)))))) l) by (rewrite filter_filter; exact H).
  destruct (rows_of_cell _ _ _ _ L H') as [L' M]. split; [exact L'|]. intros present i. rewrite M. split.
  - intros (r & I & Q & E). injection E as -> ->. pose proof I as I'. apply filter_In in I'. destruct I' as [I' K]. apply bn_is_iff in K. destruct K as [K1 K2].
    exists (bn_ts r). split.
    + destruct (present_flag _ _ _ I') as [F|F]; rewrite F in *; cbn in Q; rewrite ?orb_false_r in Q; apply Z.ltb_lt in Q; exact Q.
    + apply C in I. destruct I as (h1 & e & h2 & E & (S & _) & F). exists h1, e, h2. split; [exact E|]. split; [|exact F].
      unfold stored_row in S. rewrite K1, K2 in S. exact S.
  - intros (ts & B & S). exists (BN c hs i ts present). split; [|split; [|reflexivity]].
    + apply C. cbn [bn_present bn_ts]. destruct S as (h1 & e & h2 & E & S & F). exists h1, e, h2. split; [exact E|]. split; [|exact F]. split; [exact S|]. apply bn_is_iff. auto.
    + destruct S as (h1 & e & h2 & E & [_ S] & F). cbn [bn_present bn_ts]. destruct S as [[_ ->]|[_ [-> _]]]; cbn in *; rewrite ?orb_false_r; apply Z.ltb_lt; exact B.
Qed.
Print Assumptions C77_nar.
(** QueryRealisation likewise; nothing purges realisations. *)
Theorem C77_realisation : forall fk h c o t0 t1 l,
  let ev := fst (bc_run fk h) in
  bc_QueryRealisation c o t0 t1 (snd (bc_run fk h)) l ->
  length l <= 1 /\
  forall content, In content l <->
    exists ts, ((if content then t1 else t0) < ts)%Z /\ since (fun e => real_stored e c o content ts) (real_kept c o) ev.
Proof.
  cbn zeta. intros fk h c o t0 t1 l H. destruct (bc_real_cell fk c o h) as [L C]. cbn zeta in *.
  assert (H' : rows_of (map br_content (filter (fun r => match br_content r with None => (t0 <? br_ts r)%Z | Some _ => (t1 <? br_ts r)%Z end)
     (filter (br_is c o) (b_reals (snd (bc_run fk h)))))) l) by (rewrite filter_filter; exact H).
  destruct (rows_of_cell _ _ _ _ L H') as [L' M]. split; [exact L'|]. intros ct. rewrite M. split.
  - intros (r & I & Q & ->). pose proof I as I'. apply filter_In in I'. destruct I' as [I' K]. apply br_is_iff in K. destruct K as [K1 K2].
    exists (br_ts r). split; [destruct (br_content r); apply Z.ltb_lt; exact Q|].
    apply C in I. destruct I as (h1 & e & h2 & E & (S & _) & F). exists h1, e, h2. split; [exact E|]. split; [|exact F].
    unfold stored_real in S. rewrite K1, K2 in S. exact S.
  - intros (ts & B & S). exists (BR c o ct ts). split; [|split; [|reflexivity]].
    + apply C. destruct S as (h1 & e & h2 & E & S & F). exists h1, e, h2. split; [exact E|]. split; [|exact F]. split; [exact S|]. apply br_is_iff. auto.
    + cbn. destruct ct; apply Z.ltb_lt; exact B.
Qed.
Print Assumptions C77_realisation.
(** QueryCache returns the id and values of the last InsertCache for the URL. *)
Theorem C77_cache : forall fk h u t l,
  let ev := fst (bc_run fk h) in
  bc_QueryCache u t (snd (bc_run fk h)) l ->
  length l <= 1 /\
  forall i dir m p, In (i, dir, m, p) l <->
    exists ts, (t < ts)%Z /\ since (cache_stored u i ts dir m p) (cache_kept u) ev.
Proof.
  cbn zeta. intros fk h u t l H. destruct (caches_run fk h) as (N & _ & _ & C & _). set (d := snd (bc_run fk h)) in *.
  assert (L : length (filter (fun r => beq (bc_url r) u) (b_caches d)) <= 1).
  { revert N. generalize (b_caches d). clear. induction l as [|a l IH]; cbn; intros N; [lia|]. inversion N; subst. destruct (beq (bc_url a) u) eqn:B; [|auto].
    rewrite filter_nil; [cbn; lia|]. intros x I. destruct (beq (bc_url x) u) eqn:B'; [|reflexivity]. apply beq_eq in B, B'. exfalso. apply H1. rewrite B, <- B'. apply in_map. exact I. }
  assert (H' : rows_of (map (fun r => (bc_id r, bc_storeDir r, bc_mass r, bc_prio r)) (filter (fun r => (t <? bc_ts r)%Z) (filter (fun r => beq (bc_url r) u) (b_caches d)))) l)
    by (rewrite filter_filter; exact H).
  destruct (rows_of_cell _ _ _ _ L H') as [L' M]. split; [exact L'|]. intros i dir m p. rewrite M. split.
  - intros (r & I & Q & E). injection E as -> -> -> ->. exists (bc_ts r). apply Z.ltb_lt in Q. split; [exact Q|].
    apply filter_In in I. destruct I as [I K]. apply beq_eq in K. apply C in I. rewrite K in I. exact I.
  - intros (ts & B & S). exists (BC i u ts dir m p). split; [|split; [apply Z.ltb_lt; exact B|reflexivity]].
    apply filter_In. split; [apply C; exact S|]. cbn. apply beq_refl.
Qed.
Print Assumptions C77_cache.
(** InsertCache gives a URL the same id each time and two URLs different ids. *)
Theorem C77_cache_ids : forall fk h u u' i i' ts ts' dir dir' m m' p p',
  let ev := fst (bc_run fk h) in
  Exists (cache_stored u i ts dir m p) ev -> Exists (cache_stored u' i' ts' dir' m' p') ev -> (u = u' <-> i = i').
Proof.
  cbn zeta. intros fk h u u' i i' ts ts' dir dir' m m' p p' H H'. destruct (caches_run fk h) as (N & N' & _ & _ & C).
  apply C in H, H'. destruct H as (x & I & <- & <-), H' as (y & J & <- & <-). split; intros E.
  - f_equal. exact (nodup_key bc_url _ _ _ N I J E).
  - f_equal. exact (nodup_key bc_id _ _ _ N' I J E).
Qed.
Print Assumptions C77_cache_ids.
(** QueryLastPurge returns what the last UpdateLastPurge stored. *)
Theorem C77_last_purge : forall fk h r,
  let ev := fst (bc_run fk h) in
  bc_QueryLastPurge (snd (bc_run fk h)) r ->
  (forall v, r = Ok v <-> since (fun e => e = (BUpdatePurge v, Ok 0%Z)) (fun e => forall v', e <> (BUpdatePurge v', Ok 0%Z)) ev) /\
  ((exists v, r = Ok v) \/ r = Err ErrNoRows).
Proof.
  cbn zeta. intros fk h r H. unfold bc_QueryLastPurge in H.
  assert (S : forall v, _) by (intros v; exact (purge_since fk h v)).
  destruct (purge_run fk h) as [E|[v E]]; rewrite E in H, S; cbn in H.
  - split; [|auto]. intros v. rewrite <- S. subst r. split; [discriminate|intros []].
  - destruct H as (a & [<-|[]] & ->). split; [|eauto]. intros v'. rewrite <- S. cbn. split; [intros [= <-]; auto|]. intros [[= ->]|[]]. reflexivity.
Qed.
Print Assumptions C77_last_purge.
(** A purge of what is older than a query's bounds does not change the query. *)
Theorem C77_purge_invisible : forall d c hs t0 t1 a0 a1 l, (a0 <= t0 + 1)%Z -> (a1 <= t1 + 1)%Z ->
  (bc_QueryNar c hs t0 t1 (bc_PurgeNars a0 a1 d) l <-> bc_QueryNar c hs t0 t1 d l).
Proof.
  intros d c hs t0 t1 a0 a1 l A0 A1. unfold bc_QueryNar, bc_PurgeNars. cbn [b_nars]. rewrite filter_filter.
  erewrite filter_ext; [reflexivity|]. intros r. cbn beta.
  destruct (bn_cache r =? c)%Z; [|apply andb_false_r]. destruct (beq (bn_hash r) hs); [|apply andb_false_r]. cbn [andb].
  destruct (bn_present r =? 0)%Z eqn:P0, (bn_present r =? 1)%Z eqn:P1; cbn [andb orb negb]; rewrite ?orb_false_r, ?andb_false_r; try reflexivity.
  - apply Z.eqb_eq in P0, P1. congruence.
  - destruct (Z.ltb_spec (bn_ts r) a0), (Z.ltb_spec t0 (bn_ts r)); cbn; try reflexivity; lia.
  - destruct (Z.ltb_spec (bn_ts r) a1), (Z.ltb_spec t1 (bn_ts r)); cbn; try reflexivity; lia.
Qed.
Print Assumptions C77_purge_invisible.
(** If foreign keys are enforced, an insert for an id that InsertCache never
    returned fails. *)
Theorem C77_foreign_key : forall h c hs p i ts,
  let ev := fst (bc_run true h) in
  Exists (fun e => nar_stored e c hs p i ts) ev ->
  exists u ts' dir m q, Exists (cache_stored u c ts' dir m q) ev.
Proof.
  cbn zeta. intros h c hs p i ts. induction h as [|x h IH] using rev_ind; [intros H; inversion H|].
  rewrite bc_run_snoc. destruct x as [o ok]. cbn [fst snd]. destruct ok.
  - destruct (bc_step true o (snd (bc_run true h))) as [r d'] eqn:S. cbn [fst]. intros H. apply Exists_app in H. destruct H as [H|H].
    + destruct (IH H) as (u & ts' & dir & m & q & K). exists u, ts', dir, m, q. apply Exists_app. auto.
    + inversion H as [? ? H'|? ? H']; subst; [|inversion H']. destruct H' as [[n H1] H2]. cbn [fst snd] in *.
      assert (K : known_cache c (snd (bc_run true h)) = true).
      { destruct H2 as [[-> _]|[-> _]]; cbn [bc_step] in S; unfold bc_InsertNar, bc_InsertMissingNAR, put_nar in S; cbn [bn_cache andb] in S;
          (destruct (known_cache c (snd (bc_run true h))); [reflexivity|]; cbn [negb] in S; injection S as <- <-; discriminate). }
      unfold known_cache in K. apply existsb_exists in K. destruct K as (z & I & E). apply Z.eqb_eq in E.
      destruct (caches_run true h) as (_ & _ & _ & C & _). apply C in I. destruct I as (h1 & e & h2 & E' & S' & _). rewrite E in S'.
      do 5 eexists. rewrite E'. apply Exists_app. left. apply Exists_app. right. left. exact S'.
  - cbn [fst]. intros H. apply Exists_app in H. destruct H as [H|H].
    + destruct (IH H) as (u & ts' & dir & m & q & K). exists u, ts', dir, m, q. apply Exists_app. auto.
    + inversion H as [? ? H'|? ? H']; subst; [|inversion H']. destruct H' as [[n H1] _]. discriminate.
Qed.
Print Assumptions C77_foreign_key.
Definition c77_info : nar_info := NI (Some [x61]) None None None None (Some [x62]) (Some 5%Z) None None None None.
Definition c77_history : list (bc_op * bool) :=
  [(BInsertCache [x75] 10 [x2f] 1 40 0, true); (BInsertNar 1 [x68] c77_info 11, true); (BInsertMissing 1 [x67] 12, true);
   (BInsertCache [x76] 13 [x2f] 1 30 0, true); (BInsertCache [x75] 14 [x2f] 0 20 0, true); (BInsertNar 9 [x68] c77_info 15, true);
   (BInsertMissing 1 [x68] 16, false); (BInsertReal 2 [x6f] (Some [x7b]) 17, true); (BPurge 13 11, true); (BUpdatePurge (Some 18%Z), true)].
Example C77_case :
  map snd (fst (bc_run true c77_history)) =
    [Ok 1; Ok 0; Ok 0; Ok 2; Ok 1; Err ErrConstraint; Err ErrEnv; Ok 0; Ok 0; Ok 0]%Z /\
  bc_QueryNar 1 [x68] 0 10 (snd (bc_run true c77_history)) [(1%Z, c77_info)] /\ bc_QueryNar 1 [x68] 0 11 (snd (bc_run true c77_history)) [] /\
  bc_QueryNar 1 [x67] 0 0 (snd (bc_run true c77_history)) [] /\
  bc_QueryRealisation 2 [x6f] 0 16 (snd (bc_run true c77_history)) [Some [x7b]] /\
  bc_QueryCache [x75] 0 (snd (bc_run true c77_history)) [(1%Z, [x2f], 0%Z, 20%Z)] /\
  bc_QueryLastPurge (snd (bc_run true c77_history)) (Ok (Some 18%Z)).
Proof. vm_compute. repeat split; auto. exists (Some 18%Z). auto. Qed.

(** * C78: valid paths *)
(** QueryPathInfo returns what the calls since the path's last successful
    registration say, and no row if the path is not registered. *)
Theorem C78_path_info : forall fk h p r,
  nx_QueryPathInfo p (snd (nx_run fk h)) r ->
  match nx_expect p (fst (nx_run fk h)) with
  | None => r = Err ErrNoRows
  | Some info => exists i, r = Ok (i, info)
  end.
Proof.
  intros fk h p r H. destruct (paths_run fk h) as (N & _ & _ & L). apply info_look in H; [|exact N]. specialize (L p).
  destruct (look p (snd (nx_run fk h))) as [v|]; cbn in L; rewrite <- L; [eauto|exact H].
Qed.
Print Assumptions C78_path_info.
(** RegisterValidPath fails, and changes nothing, exactly if the path is valid (or
    the ids are used up). *)
Theorem C78_register : forall fk h p i gap r d',
  let ev := fst (nx_run fk h) in let d := snd (nx_run fk h) in
  nx_RegisterValidPath p i gap d = (r, d') ->
  (nx_expect p ev <> None -> r = Err ErrConstraint /\ d' = d) /\
  (nx_expect p ev = None -> r = Ok tt \/ (r = Err ErrFull /\ d' = d)).
Proof.
  cbn zeta. intros fk h p i gap r d' H. destruct (paths_run fk h) as (N & _ & _ & L). specialize (L p). unfold nx_RegisterValidPath in H.
  set (d := snd (nx_run fk h)) in *. destruct (look p d) as [v|] eqn:K; cbn in L; rewrite <- L.
  - split; [|discriminate]. intros _. apply look_some in K. destruct K as [I E].
    assert (X : existsb (fun v => beq (vp_path v) p) (n_paths d) = true) by (apply existsb_exists; exists v; split; [exact I|apply beq_eq; exact E]).
    rewrite X in H. injection H as <- <-. auto.
  - split; [congruence|]. intros _. destruct (existsb _ _) eqn:X.
    + exfalso. apply existsb_exists in X. destruct X as (v & I & E). apply beq_eq in E. exact (look_none _ _ K v I E).
    + unfold next_id in H. destruct (_ <? _)%Z; injection H as <- <-; auto.
Qed.
Print Assumptions C78_register.
(** An id stands for one registration of one path, for good. *)
Theorem C78_ids : forall fk h1 h2 p q i j ev2,
  valid_as p i (snd (nx_run fk h1)) ->
  valid_as q j (snd (nx_run fk (h1 ++ h2))) ->
  fst (nx_run fk (h1 ++ h2)) = fst (nx_run fk h1) ++ ev2 ->
  (i = j <-> p = q /\ ~ In (NInvalidate p, Ok tt) ev2).
Proof.
  intros fk h1 h2 p q i j ev2 V W E. destruct (id_life fk h1 h2 p i V) as (ev & E' & L & C).
  assert (ev = ev2) by (apply (app_inv_head (fst (nx_run fk h1))); congruence). subst ev.
  pose proof (paths_run fk (h1 ++ h2)) as OK. destruct C as [[NI C]|[NI C]].
  - split.
    + intros <-. split; [exact (id_unique _ _ _ _ _ OK C W)|exact NI].
    + intros [<- _]. exact (path_unique _ _ _ _ _ OK C W).
  - split; [|intros [_ X]; contradiction]. intros <-. destruct C. exact (valid_id _ _ _ W).
Qed.
Print Assumptions C78_ids.
Definition c78_info (n : Z) : path_info := PI [x68] n None (Some n) None None None.
Definition c78_history : list (nx_op * bool) :=
  [(NRegister [x70] (c78_info 1) 0, true); (NRegister [x70] (c78_info 2) 0, true); (NRegister [x71] (c78_info 3) 4, true);
   (NUpdate (Some 9%Z) [x69] None None None [x71], true); (NInvalidate [x70], true); (NRegister [x70] (c78_info 5) 0, true); (NInvalidate [x71], false)].
Example C78_case :
  map snd (fst (nx_run true c78_history)) = [Ok tt; Err ErrConstraint; Ok tt; Ok tt; Ok tt; Ok tt; Err ErrEnv] /\
  nx_QueryPathInfo [x70] (snd (nx_run true c78_history)) (Ok (7%Z, c78_info 5)) /\
  nx_QueryPathInfo [x71] (snd (nx_run true c78_history)) (Ok (6%Z, PI [x69] 3 None (Some 9%Z) None None None)) /\
  nx_QueryPathInfo [x72] (snd (nx_run true c78_history)) (Err ErrNoRows).
Proof. split; [vm_compute; reflexivity|]. split; [vm_compute; eauto|]. split; [vm_compute; eauto|]. vm_compute. reflexivity. Qed.

(** * C79: references *)
Lemma join_in (d : nxdb) (f : nxref -> Z) x l :
  In x (flat_map (fun r => map vp_path (filter (fun v => (f r =? vp_id v)%Z) (n_paths d))) l) <->
  exists r v, In r l /\ In v (n_paths d) /\ vp_id v = f r /\ vp_path v = x.
Proof.
  rewrite in_flat_map. split.
  - intros (r & I & J). apply in_map_iff in J. destruct J as (v & E & J). apply filter_In in J. destruct J as [J K]. apply Z.eqb_eq in K. exists r, v. auto.
  - intros (r & v & I & J & K & E). exists r. split; [exact I|]. apply in_map_iff. exists v. split; [exact E|]. apply filter_In. split; [exact J|]. apply Z.eqb_eq. auto.
Qed.
Lemma nodup_app {A} (a b : list A) : NoDup a -> NoDup b -> (forall x, In x a -> In x b -> False) -> NoDup (a ++ b).
Proof.
  induction a as [|x a IH]; [auto|]. cbn. intros Na Nb D. inversion Na; subst. constructor.
  - intros I. apply in_app_or in I. destruct I as [I|I]; [auto|]. apply (D x); auto.
  - apply IH; auto. intros y I J. apply (D y); auto.
Qed.
Lemma join_nodup (d : nxdb) (f : nxref -> Z) l : NoDup (map vp_path (n_paths d)) -> NoDup (map vp_id (n_paths d)) -> NoDup (map f l) ->
  NoDup (flat_map (fun r => map vp_path (filter (fun v => (f r =? vp_id v)%Z) (n_paths d))) l).
Proof.
  intros N1 N2. induction l as [|r l IH]; cbn; intros N; [constructor|]. inversion N; subst. apply nodup_app.
  - apply nodup_map_filter. exact N1.
  - apply IH. assumption.
  - intros x I J. apply join_in in J. destruct J as (r' & v' & J1 & J2 & J3 & J4). apply in_map_iff in I. destruct I as (v & E & I). apply filter_In in I.
    destruct I as [I K]. apply Z.eqb_eq in K. assert (v = v') by (apply (nodup_key vp_path (n_paths d)); auto; congruence). subst v'.
    apply H1. rewrite K, J3. apply in_map. exact J1.
Qed.
(** For two valid paths, the second is among the references of the first, and the
    first among the referrers of the second, exactly if AddReference was called
    with their ids; each is listed once, and only valid paths are. *)
Theorem C79_references : forall fk h p a q b,
  let ev := fst (nx_run fk h) in let d := snd (nx_run fk h) in
  valid_as p a d -> valid_as q b d ->
  (forall l, nx_QueryReferences a d l ->
     NoDup l /\ (forall x, In x l -> exists i, valid_as x i d) /\ (In q l <-> In (NAddRef a b, Ok tt) ev)) /\
  (forall l, nx_QueryReferrers q d l ->
     NoDup l /\ (forall x, In x l -> exists i, valid_as x i d) /\ (In p l <-> In (NAddRef a b, Ok tt) ev)).
Proof.
  cbn zeta. intros fk h p a q b Vp Vq. pose proof (paths_run fk h) as OK. pose proof (refs_run fk h) as (R0 & R1 & R2 & _).
  set (d := snd (nx_run fk h)) in *. set (ev := fst (nx_run fk h)) in *. pose proof OK as (N1 & N2 & _).
  assert (EQ : In (NR a b) (n_refs d) <-> In (NAddRef a b, Ok tt) ev).
  { split; [apply R1|]. intros I. destruct (R2 _ _ I) as [J|[_ J]]; [exact J|]. destruct J. exact (valid_id _ _ _ Vp). }
  apply valid_in in Vp, Vq; auto. destruct Vp as (v & I & Ep & Ea), Vq as (w & J & Eq & Eb).
  assert (ND : forall (f g : nxref -> Z) i, (forall x y, f x = f y -> g x = g y -> x = y) -> NoDup (map f (filter (fun r => (g r =? i)%Z) (n_refs d)))).
  { intros f g i Inj. induction (n_refs d) as [|r t IH]; [constructor|]. inversion R0; subst. cbn [filter]. 
    assert (X : NoDup (map f (filter (fun r => (g r =? i)%Z) t))).
    { clear - H2 Inj. induction t as [|r t IH]; [constructor|]. inversion H2; subst. cbn [filter]. destruct (g r =? i)%Z eqn:B; auto. cbn. constructor; auto.
      intros I. apply in_map_iff in I. destruct I as (y & E & I). apply filter_In in I. destruct I as [I C]. apply Z.eqb_eq in B, C.
      apply H1. rewrite <- (Inj y r); auto. congruence. }
    destruct (g r =? i)%Z eqn:B; [|exact X]. cbn. constructor; [|exact X]. intros K. apply in_map_iff in K. destruct K as (y & E & K).
    apply filter_In in K. destruct K as [K C]. apply Z.eqb_eq in B, C. apply H1. rewrite <- (Inj y r); auto. congruence. }
  assert (VA : forall x i, In x (n_paths d) -> vp_id x = i -> valid_as (vp_path x) i d) by (intros x i X <-; apply valid_in; eauto).
  split; intros l H.
  - unfold nx_QueryReferences, rows_of in H. split; [|split].
    + apply (Permutation_NoDup H). apply join_nodup; auto. apply ND. intros [x1 x2] [y1 y2]. cbn. congruence.
    + intros x X. apply (Permutation_in _ (Permutation_sym H)) in X. apply join_in in X. destruct X as (r & u & _ & X & _ & <-). eauto.
    + rewrite <- EQ. transitivity (In q (flat_map (fun r => map vp_path (filter (fun v => (nr_reference r =? vp_id v)%Z) (n_paths d))) (filter (fun r => (nr_referrer r =? a)%Z) (n_refs d)))).
      { split; intros X; [apply (Permutation_in _ (Permutation_sym H))|apply (Permutation_in _ H)]; exact X. }
      rewrite join_in. split.
      * intros (r & u & X & Y & E & F). apply filter_In in X. destruct X as [X K]. apply Z.eqb_eq in K.
        assert (u = w) by (apply (nodup_key vp_path (n_paths d)); auto; congruence). subst u.
        replace (NR a b) with r; [exact X|]. destruct r; cbn in *. congruence.
      * intros X. exists (NR a b), w. split; [apply filter_In; split; [exact X|apply Z.eqb_refl]|]. auto.
  - unfold nx_QueryReferrers in H. fold (at_path q) in H. fold (look q d) in H. rewrite (look_in q d w N1 J Eq) in H. unfold rows_of in H. split; [|split].
    + apply (Permutation_NoDup H). apply join_nodup; auto. apply ND. intros [x1 x2] [y1 y2]. cbn. congruence.
    + intros x X. apply (Permutation_in _ (Permutation_sym H)) in X. apply join_in in X. destruct X as (r & u & _ & X & _ & <-). eauto.
    + rewrite <- EQ. transitivity (In p (flat_map (fun r => map vp_path (filter (fun v => (nr_referrer r =? vp_id v)%Z) (n_paths d))) (filter (fun r => (nr_reference r =? vp_id w)%Z) (n_refs d)))).
      { split; intros X; [apply (Permutation_in _ (Permutation_sym H))|apply (Permutation_in _ H)]; exact X. }
      rewrite join_in. split.
      * intros (r & u & X & Y & E & F). apply filter_In in X. destruct X as [X K]. apply Z.eqb_eq in K.
        assert (u = v) by (apply (nodup_key vp_path (n_paths d)); auto; congruence). subst u.
        replace (NR a b) with r; [exact X|]. destruct r; cbn in *. congruence.
      * intros X. exists (NR a b), v. split; [apply filter_In; split; [exact X|cbn; apply Z.eqb_eq; congruence]|]. auto.
Qed.
Print Assumptions C79_references.
(** If foreign keys are enforced, the references of a valid path are valid. *)
Theorem C79_closed_partial : forall h p a b,
  let ev := fst (nx_run true h) in let d := snd (nx_run true h) in
  valid_as p a d -> In (NAddRef a b, Ok tt) ev -> exists q, valid_as q b d.
Proof.
  cbn zeta. intros h p a b V I. pose proof (paths_run true h) as OK. destruct (refs_run true h) as (_ & _ & R2 & R3).
  destruct (R2 _ _ I) as [J|[_ J]]; [|destruct J; exact (valid_id _ _ _ V)].
  destruct (R3 eq_refl _ _ J) as [_ K]. exact (id_path _ _ _ OK K).
Qed.
Print Assumptions C79_closed_partial.
(** If they are enforced, InvalidatePath fails, and changes nothing, exactly if
    another valid path refers to the path. *)
Theorem C79_invalidate_partial : forall h p r d',
  let ev := fst (nx_run true h) in let d := snd (nx_run true h) in
  nx_InvalidatePath true p d = (r, d') ->
  (r = Ok tt \/ (r = Err ErrConstraint /\ d' = d)) /\
  (r = Err ErrConstraint <-> exists b q a, valid_as p b d /\ valid_as q a d /\ a <> b /\ In (NAddRef a b, Ok tt) ev).
Proof.
  cbn zeta. intros h p r d' H. pose proof (paths_run true h) as OK. destruct (refs_run true h) as (_ & R1 & R2 & R3).
  set (d := snd (nx_run true h)) in *. set (ev := fst (nx_run true h)) in *. unfold nx_InvalidatePath in H.
  fold (at_path p) in H. fold (look p d) in H. pose proof OK as (N1 & N2 & _). destruct (look p d) as [v|] eqn:L.
  - destruct (existsb _ _) eqn:X; injection H as <- <-.
    + split; [auto|]. split; [|auto]. intros _. apply existsb_exists in X. destruct X as (x & I & E). apply filter_In in I. destruct I as [I K].
      apply Z.eqb_eq in E. rewrite E, Z.eqb_refl, andb_true_r in K. apply negb_true_iff, Z.eqb_neq in K. destruct x as [a b]. cbn in *.
      destruct (R3 eq_refl _ _ I) as [Ka Kb]. destruct (id_path _ _ _ OK Ka) as (q & Vq). exists b, q, a. split; [|split; [exact Vq|split; [congruence|apply R1; exact I]]].
      apply valid_look; [exact N1|]. exists v. auto.
    + split; [auto|]. split; [discriminate|]. intros (b & q & a & Vp & Vq & NE & I). exfalso.
      apply valid_look in Vp; [|exact N1]. destruct Vp as (v' & L' & Eb). assert (v' = v) by congruence. subst v'.
      destruct (R2 _ _ I) as [J|[_ J]]; [|apply J; exact (valid_id _ _ _ Vq)].
      assert (Y : existsb (fun r => (nr_reference r =? vp_id v)%Z) (filter (fun r => negb ((nr_referrer r =? vp_id v) && (nr_reference r =? vp_id v))%Z) (n_refs d)) = true).
      { apply existsb_exists. exists (NR a b). split; [|cbn; apply Z.eqb_eq; congruence]. apply filter_In. split; [exact J|]. cbn.
        destruct (Z.eqb_spec a (vp_id v)); [congruence|reflexivity]. }
      congruence.
  - injection H as <- <-. split; [auto|]. split; [discriminate|]. intros (b & q & a & Vp & _). exfalso.
    apply valid_look in Vp; [|exact N1]. destruct Vp as (v' & L' & _). congruence.
Qed.
Print Assumptions C79_invalidate_partial.
(** Without (the default of the driver): a path can be invalidated while another
    refers to it, and the reference silently disappears from the answers. *)
Definition c79_history : list (nx_op * bool) :=
  [(NRegister [x70] (c78_info 1) 0, true); (NRegister [x71] (c78_info 2) 0, true); (NAddRef 1 2, true); (NAddRef 1 1, true); (NInvalidate [x71], true)].
Theorem C79_dangling_refuted :
  let ev := fst (nx_run false c79_history) in let d := snd (nx_run false c79_history) in
  valid_as [x70] 1 d /\ In (NAddRef 1 2, Ok tt) ev /\ (~ exists q, valid_as q 2 d) /\ nx_QueryReferences 1 d [[x70]].
Proof.
  cbn zeta. pose proof (paths_run false c79_history) as (N & _). split; [vm_compute; exists (c78_info 1); vm_compute; eauto|]. split; [vm_compute; auto|]. split.
  - intros (q & V). apply valid_id in V. vm_compute in V. destruct V as [V|[]]. discriminate.
  - vm_compute. reflexivity.
Qed.
Print Assumptions C79_dangling_refuted.
Example C79_case : let d := snd (nx_run true c79_history) in
  map snd (fst (nx_run true c79_history)) = [Ok tt; Ok tt; Ok tt; Ok tt; Err ErrConstraint] /\
  valid_as [x70] 1 d /\ valid_as [x71] 2 d /\ nx_QueryReferences 1 d [[x70]; [x71]] /\ nx_QueryReferrers [x71] d [[x70]] /\ nx_QueryReferrers [x70] d [[x70]].
Proof.
  cbn zeta. split; [vm_compute; reflexivity|]. split; [exists (c78_info 1); vm_compute; eauto|]. split; [exists (c78_info 2); vm_compute; eauto|].
  split; [vm_compute; reflexivity|]. split; vm_compute; reflexivity.
Qed.

(** * C80: derivation outputs *)
(** The outputs of a valid derivation are those of the last AddDerivationOutput for
    its id and the output's name; a path's valid derivers are the valid
    derivations that have it as an output. *)
Theorem C80_outputs_partial : forall fk h i,
  let ev := fst (nx_run fk h) in let d := snd (nx_run fk h) in
  (exists q, valid_as q i d) ->
  forall l, nx_QueryDerivationOutputs i d l ->
  NoDup (map fst l) /\
  forall o p, In (o, p) l <-> since (out_stored i o p) (fun e => forall p', ~ out_stored i o p' e) ev.
Proof.
  cbn zeta. intros fk h i (q & V) l H. destruct (outs_run fk h) as (R0 & R1 & R2 & _). set (d := snd (nx_run fk h)) in *. set (ev := fst (nx_run fk h)) in *.
  unfold nx_QueryDerivationOutputs, rows_of in H. split.
  - apply (Permutation_NoDup (Permutation_map fst H)). rewrite map_map. cbn [fst]. revert R0. generalize (n_outs d). clear.
    induction l as [|x l IH]; cbn; intros N; [constructor|]. inversion N; subst. destruct (no_drv x =? i)%Z eqn:B; [|auto]. cbn. constructor; [|auto].
    intros I. apply in_map_iff in I. destruct I as (y & E & I). apply filter_In in I. destruct I as [I C]. apply Z.eqb_eq in B, C.
    apply H1. apply in_map_iff. exists y. split; [congruence|exact I].
  - intros o p. fold (out_live i o p ev). transitivity (In (NO i o p) (n_outs d)).
    + split.
      * intros I. apply (Permutation_in _ (Permutation_sym H)) in I. apply in_map_iff in I. destruct I as ([i' o' p'] & E & I). apply filter_In in I.
        destruct I as [I C]. cbn in *. apply Z.eqb_eq in C. congruence.
      * intros I. apply (Permutation_in _ H). apply in_map_iff. exists (NO i o p). split; [reflexivity|]. apply filter_In. split; [exact I|apply Z.eqb_refl].
    + split; [apply R1|]. intros S. destruct (R2 _ _ _ S) as [J|[_ J]]; [exact J|]. destruct J. exact (valid_id _ _ _ V).
Qed.
Print Assumptions C80_outputs_partial.
Theorem C80_derivers : forall fk h p l,
  let ev := fst (nx_run fk h) in let d := snd (nx_run fk h) in
  nx_QueryValidDerivers p d l ->
  forall i q, In (i, q) l <->
    valid_as q i d /\ exists o, since (out_stored i o p) (fun e => forall p', ~ out_stored i o p' e) ev.
Proof.
  cbn zeta. intros fk h p l H i q. destruct (outs_run fk h) as (R0 & R1 & R2 & _). pose proof (paths_run fk h) as (N1 & _).
  set (d := snd (nx_run fk h)) in *. set (ev := fst (nx_run fk h)) in *. unfold nx_QueryValidDerivers, rows_of in H. split.
  - intros I. apply (Permutation_in _ (Permutation_sym H)) in I. apply in_flat_map in I. destruct I as ([i' o' p'] & I & J). apply filter_In in I. destruct I as [I B].
    cbn in B. apply beq_eq in B. apply in_map_iff in J. destruct J as (v & E & J). apply filter_In in J. destruct J as [J K]. cbn in K. apply Z.eqb_eq in K.
    injection E as E1 E2. split; [apply valid_in; eauto|]. exists o'. fold (out_live i o' p ev). apply R1. congruence.
  - intros (V & o & S). pose proof V as V'. apply valid_in in V'; [|exact N1]. destruct V' as (v & J & E1 & E2).
    fold (out_live i o p ev) in S. destruct (R2 _ _ _ S) as [I|[_ I]]; [|destruct I; exact (valid_id _ _ _ V)].
    apply (Permutation_in _ H). apply in_flat_map. exists (NO i o p). split; [apply filter_In; split; [exact I|cbn; apply beq_refl]|].
    apply in_map_iff. exists v. split; [congruence|]. apply filter_In. split; [exact J|]. cbn. apply Z.eqb_eq. congruence.
Qed.
Print Assumptions C80_derivers.
(** If foreign keys are enforced, a derivation that is no longer valid has no
    outputs; without, it keeps them. *)
Theorem C80_gone_partial : forall h i l, (forall q, ~ valid_as q i (snd (nx_run true h))) ->
  nx_QueryDerivationOutputs i (snd (nx_run true h)) l -> l = [].
Proof.
  intros h i l N H. unfold nx_QueryDerivationOutputs, rows_of in H. rewrite filter_nil in H; [apply Permutation_nil; exact H|].
  intros [i' o p] I. destruct (no_drv _ =? i)%Z eqn:B; [|reflexivity]. exfalso. cbn in B. apply Z.eqb_eq in B. subst i'.
  destruct (outs_run true h) as (_ & _ & _ & R3). apply (R3 eq_refl) in I. destruct (id_path _ _ _ (paths_run true h) I) as (q & V). exact (N q V).
Qed.
Print Assumptions C80_gone_partial.
Definition c80_history : list (nx_op * bool) :=
  [(NRegister [x64] (c78_info 1) 0, true); (NAddOut 1 [x6f] [x61], true); (NAddOut 1 [x6f] [x62], true); (NAddOut 1 [x70] [x61], true)].
Theorem C80_stale_refuted : let h := c80_history ++ [(NInvalidate [x64], true)] in let d := snd (nx_run false h) in
  (forall q, ~ valid_as q 1 d) /\ nx_QueryDerivationOutputs 1 d [([x70], [x61]); ([x6f], [x62])].
Proof.
  cbn zeta. split.
  - intros q V. apply valid_id in V. vm_compute in V. destruct V.
  - vm_compute. reflexivity.
Qed.
Print Assumptions C80_stale_refuted.
Example C80_case : let d := snd (nx_run true c80_history) in
  valid_as [x64] 1 d /\ nx_QueryDerivationOutputs 1 d [([x70], [x61]); ([x6f], [x62])] /\
  nx_QueryValidDerivers [x61] d [(1%Z, [x64])] /\ nx_QueryDerivationOutputs 1 (snd (nx_run true (c80_history ++ [(NInvalidate [x64], true)]))) [].
Proof.
  cbn zeta. split; [exists (c78_info 1); vm_compute; eauto|]. split; [vm_compute; reflexivity|]. split; vm_compute; reflexivity.
Qed.

(** * C81: a path from its hash part *)
Lemma prefix_between s : forall p q, blt p s = false -> blt q p = false -> has_prefix q s = true -> has_prefix p s = true.
Proof.
  unfold blt. induction s as [|c s IH]; intros p q H1 H2 H3; [apply has_prefix_iff; exists p; reflexivity|].
  apply has_prefix_iff in H3. destruct H3 as [r ->]. destruct p as [|c' p]; [discriminate|]. cbn in H1, H2.
  destruct (N.compare_spec (b2n c') (b2n c)) as [E|E|E]; [|discriminate|].
  - rewrite E, N.compare_refl in H2. assert (c' = c) by (apply b2n_inj; exact E). subst c'.
    specialize (IH p (s ++ r) H1 H2 (has_prefix_app _ _)). apply has_prefix_iff in IH. destruct IH as [t ->].
    apply has_prefix_iff. exists t. reflexivity.
  - assert (X : (b2n c ?= b2n c')%N = Lt) by (apply N.compare_lt_iff; exact E). rewrite X in H2. discriminate.
Qed.
(** QueryPathFromHashPart returns some valid path that is not before its argument,
    and no row exactly if there is none.  If the row is the first such path, then
    some valid path starts with the argument only if the result does. *)
Theorem C81_from_hash_partial : forall fk h s r,
  let d := snd (nx_run fk h) in
  nx_QueryPathFromHashPart s d r ->
  (r = Err ErrNoRows /\ forall p i, valid_as p i d -> blt p s = true) \/
  (exists p i, r = Ok p /\ valid_as p i d /\ blt p s = false /\
    ((forall q j, valid_as q j d -> blt q s = false -> blt q p = false) ->
     forall q j, valid_as q j d -> has_prefix q s = true -> has_prefix p s = true)).
Proof.
  cbn zeta. intros fk h s r H. pose proof (paths_run fk h) as (N1 & _). set (d := snd (nx_run fk h)) in *. unfold nx_QueryPathFromHashPart, one_of in H.
  destruct (map vp_path _) as [|x t] eqn:M.
  - left. split; [exact H|]. intros p i V. apply valid_in in V; [|exact N1]. destruct V as (v & I & E & _).
    destruct (blt p s) eqn:B; [reflexivity|]. exfalso.
    assert (J : In p (map vp_path (filter (fun v => negb (blt (vp_path v) s)) (n_paths d)))).
    { apply in_map_iff. exists v. split; [exact E|]. apply filter_In. rewrite E, B. auto. }
    rewrite M in J. destruct J.
  - right. destruct H as (p & I & ->). rewrite <- M in I. apply in_map_iff in I. destruct I as (v & E & I). apply filter_In in I. destruct I as [I B].
    exists p, (vp_id v). split; [reflexivity|]. split; [apply valid_in; eauto|]. rewrite E in B. apply negb_true_iff in B. split; [exact B|].
    intros Least q j V P. apply (prefix_between s p q B); [|exact P]. apply (Least q j V).
    apply has_prefix_iff in P. destruct P as [t0 ->]. clear. unfold blt. induction s as [|c s IH]; [destruct t0; reflexivity|].
    cbn. rewrite N.compare_refl. exact IH.
Qed.
Print Assumptions C81_from_hash_partial.
(** The statement has no "order by": a result that SQL allows does not start with
    the argument although a valid path does. *)
Definition c81_history : list (nx_op * bool) :=
  [(NRegister [x2f; x61; x78] (c78_info 1) 0, true); (NRegister [x2f; x62; x79] (c78_info 2) 0, true)].
Theorem C81_no_order_refuted : let d := snd (nx_run true c81_history) in
  nx_QueryPathFromHashPart [x2f; x61] d (Ok [x2f; x62; x79]) /\
  has_prefix [x2f; x62; x79] [x2f; x61] = false /\ valid_as [x2f; x61; x78] 1 d /\ has_prefix [x2f; x61; x78] [x2f; x61] = true.
Proof.
  cbn zeta. split; [vm_compute; eauto|]. split; [reflexivity|]. split; [exists (c78_info 1); vm_compute; eauto|]. reflexivity.
Qed.
Print Assumptions C81_no_order_refuted.
Example C81_case : let d := snd (nx_run true c81_history) in
  nx_QueryPathFromHashPart [x2f; x61] d (Ok [x2f; x61; x78]) /\ nx_QueryPathFromHashPart [x2f; x63] d (Err ErrNoRows).
Proof. cbn zeta. split; vm_compute; eauto. Qed.
