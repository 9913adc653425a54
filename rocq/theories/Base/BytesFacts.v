(** Facts about the data representation of Base/Bytes.v. *)
From Verif Require Import Base.Bytes.
From Coq Require Import Permutation Sorted.

(** * Bytes and numbers *)
Lemma b2n_lt b : (b2n b < 256)%N.
Proof. destruct b; vm_compute; reflexivity. Qed.

Lemma n2b_b2n b : n2b (b2n b) = b.
Proof. destruct b; reflexivity. Qed.

Lemma b2n_n2b n : b2n (n2b n) = (n mod 256)%N.
Proof.
  unfold n2b, b2n.
  assert (H : (n mod 256 < 256)%N) by (apply N.mod_lt; discriminate).
  destruct (Byte.of_N (n mod 256)) as [b|] eqn:E.
  - apply Byte.to_of_N. exact E.
  - exfalso. apply Byte.of_N_None_iff in E. lia.
Qed.

Lemma b2n_n2b_small n : (n < 256)%N -> b2n (n2b n) = n.
Proof. intros H. rewrite b2n_n2b. apply N.mod_small. exact H. Qed.

Lemma b2n_inj a b : b2n a = b2n b -> a = b.
Proof. intros H. rewrite <- (n2b_b2n a), <- (n2b_b2n b), H. reflexivity. Qed.

Lemma n2b_mod n : n2b (n mod 256) = n2b n.
Proof. apply b2n_inj. rewrite !b2n_n2b. apply N.mod_mod. discriminate. Qed.

Lemma all_bytes_in b : In b all_bytes.
Proof.
  unfold all_bytes. apply in_map_iff. exists (N.to_nat (b2n b)). split.
  - rewrite N2Nat.id. apply n2b_b2n.
  - apply in_seq. pose proof (b2n_lt b). lia.
Qed.

(** A decidable statement about one byte is settled by a sweep. *)
Lemma byte_sweep (P : byte -> bool) : forallb P all_bytes = true -> forall b, P b = true.
Proof. intros H b. rewrite forallb_forall in H. apply H, all_bytes_in. Qed.

(** * Equality tests *)
Lemma byte_eqb_eq a b : byte_eqb a b = true <-> a = b.
Proof.
  unfold byte_eqb. split.
  - apply Byte.byte_dec_bl.
  - apply Byte.byte_dec_lb.
Qed.
Lemma byte_eqb_refl a : byte_eqb a a = true.
Proof. apply byte_eqb_eq. reflexivity. Qed.
Lemma byte_eqb_neq a b : byte_eqb a b = false <-> a <> b.
Proof.
  rewrite <- byte_eqb_eq. destruct (byte_eqb a b); split; congruence.
Qed.
Lemma byte_eqb_sym a b : byte_eqb a b = byte_eqb b a.
Proof.
  destruct (byte_eqb b a) eqn:E.
  - apply byte_eqb_eq in E. subst. apply byte_eqb_refl.
  - apply byte_eqb_neq in E. apply byte_eqb_neq. congruence.
Qed.
Lemma byte_eqb_spec a b : reflect (a = b) (byte_eqb a b).
Proof. destruct (byte_eqb a b) eqn:E; constructor; [apply byte_eqb_eq|apply byte_eqb_neq]; exact E. Qed.

Lemma beq_eq a b : beq a b = true <-> a = b.
Proof.
  revert b. induction a as [|x a IH]; intros [|y b]; cbn [beq]; try (split; congruence).
  rewrite andb_true_iff, byte_eqb_eq, IH. split.
  - intros [-> ->]. reflexivity.
  - intros E. inversion E. auto.
Qed.
Lemma beq_refl a : beq a a = true.
Proof. apply beq_eq. reflexivity. Qed.
Lemma beq_neq a b : beq a b = false <-> a <> b.
Proof. rewrite <- beq_eq. destruct (beq a b); split; congruence. Qed.
Lemma beq_spec a b : reflect (a = b) (beq a b).
Proof. destruct (beq a b) eqn:E; constructor; [apply beq_eq|apply beq_neq]; exact E. Qed.
Lemma beq_sym a b : beq a b = beq b a.
Proof. destruct (beq_spec a b), (beq_spec b a); congruence. Qed.
Lemma bytes_eq_dec (a b : bytes) : {a = b} + {a <> b}.
Proof. destruct (beq a b) eqn:E; [left; apply beq_eq|right; apply beq_neq]; exact E. Qed.
Lemma byte_dec (a b : byte) : {a = b} + {a <> b}.
Proof. destruct (byte_eqb a b) eqn:E; [left; apply byte_eqb_eq|right; apply byte_eqb_neq]; exact E. Qed.

(** * The byte order *)
Lemma bcmp_refl a : bcmp a a = Eq.
Proof. induction a as [|x a IH]; cbn [bcmp]; [reflexivity|]. rewrite N.compare_refl. exact IH. Qed.
Lemma bcmp_eq a b : bcmp a b = Eq <-> a = b.
Proof.
  split; [|intros ->; apply bcmp_refl].
  revert b. induction a as [|x a IH]; intros [|y b]; cbn [bcmp]; try congruence.
  destruct (N.compare_spec (b2n x) (b2n y)) as [E|E|E]; try congruence.
  intros H. apply b2n_inj in E. apply IH in H. congruence.
Qed.
Lemma bcmp_antisym a b : bcmp b a = CompOpp (bcmp a b).
Proof.
  revert b. induction a as [|x a IH]; intros [|y b]; cbn [bcmp]; try reflexivity.
  rewrite (N.compare_antisym (b2n x) (b2n y)).
  destruct (N.compare (b2n x) (b2n y)); cbn; auto.
Qed.
Lemma bcmp_lt_trans a b c : bcmp a b = Lt -> bcmp b c = Lt -> bcmp a c = Lt.
Proof.
  revert b c. induction a as [|x a IH]; intros [|y b] [|z c]; cbn [bcmp]; try congruence.
  destruct (N.compare_spec (b2n x) (b2n y)), (N.compare_spec (b2n y) (b2n z)),
    (N.compare_spec (b2n x) (b2n z)); try congruence; try lia.
  apply IH.
Qed.

Lemma blt_irrefl a : blt a a = false.
Proof. unfold blt. rewrite bcmp_refl. reflexivity. Qed.
Lemma blt_trans a b c : blt a b = true -> blt b c = true -> blt a c = true.
Proof.
  unfold blt. destruct (bcmp a b) eqn:E1; try discriminate.
  destruct (bcmp b c) eqn:E2; try discriminate.
  rewrite (bcmp_lt_trans a b c E1 E2). reflexivity.
Qed.
Lemma blt_neq a b : blt a b = true -> a <> b.
Proof. intros H ->. rewrite blt_irrefl in H. discriminate. Qed.
Lemma ble_refl a : ble a a = true.
Proof. unfold ble. rewrite bcmp_refl. reflexivity. Qed.
Lemma ble_antisym a b : ble a b = true -> ble b a = true -> a = b.
Proof.
  unfold ble. rewrite (bcmp_antisym a b). destruct (bcmp a b) eqn:E; cbn; try discriminate.
  intros _ _. apply bcmp_eq. exact E.
Qed.
Lemma ble_total a b : ble a b = true \/ ble b a = true.
Proof. unfold ble. rewrite (bcmp_antisym a b). destruct (bcmp a b); cbn; auto. Qed.
Lemma ble_lt_eq a b : ble a b = true <-> blt a b = true \/ a = b.
Proof.
  unfold ble, blt. rewrite <- bcmp_eq. destruct (bcmp a b); split; try tauto; try discriminate.
  - intros [H|H]; discriminate.
Qed.
Lemma ble_trans a b c : ble a b = true -> ble b c = true -> ble a c = true.
Proof.
  rewrite !ble_lt_eq. intros [H1| ->] [H2| ->]; auto.
  left. eapply blt_trans; eauto.
Qed.
Lemma ble_not_blt a b : ble a b = negb (blt b a).
Proof. unfold ble, blt. rewrite (bcmp_antisym a b). destruct (bcmp a b); reflexivity. Qed.
Lemma blt_not_ble a b : blt a b = negb (ble b a).
Proof. unfold ble, blt. rewrite (bcmp_antisym a b). destruct (bcmp a b); reflexivity. Qed.
Lemma blt_ble a b : blt a b = true -> ble a b = true.
Proof. intros H. apply ble_lt_eq. auto. Qed.
Lemma blt_ble_trans a b c : blt a b = true -> ble b c = true -> blt a c = true.
Proof. rewrite ble_lt_eq. intros H [H2| <-]; auto. eapply blt_trans; eauto. Qed.
Lemma ble_blt_trans a b c : ble a b = true -> blt b c = true -> blt a c = true.
Proof. rewrite ble_lt_eq. intros [H2| <-] H; auto. eapply blt_trans; eauto. Qed.

Lemma bcmp_app_common p a b : bcmp (p ++ a) (p ++ b) = bcmp a b.
Proof. induction p as [|x p IH]; cbn [app bcmp]; [reflexivity|]. rewrite N.compare_refl. exact IH. Qed.

(** * Sorting *)
Definition sortedb (l : list bytes) : Prop := StronglySorted (fun a b => ble a b = true) l.
Definition strictly_sorted (l : list bytes) : Prop := StronglySorted (fun a b => blt a b = true) l.

Lemma insert_perm x l : Permutation (insert_sorted x l) (x :: l).
Proof.
  induction l as [|y l IH]; cbn [insert_sorted]; [reflexivity|].
  destruct (ble x y); [reflexivity|].
  rewrite IH. apply perm_swap.
Qed.
Lemma sort_perm l : Permutation (sort_strings l) l.
Proof.
  induction l as [|x l IH]; cbn [sort_strings]; [reflexivity|].
  rewrite insert_perm, IH. reflexivity.
Qed.
Lemma insert_sorted_sorted x l : sortedb l -> sortedb (insert_sorted x l).
Proof.
  induction 1 as [|y l Hs IH Hy]; cbn [insert_sorted].
  - repeat constructor.
  - destruct (ble x y) eqn:E.
    + constructor; [constructor; assumption|].
      constructor; [exact E|]. eapply Forall_impl; [|exact Hy].
      cbn. intros a Ha. eapply ble_trans; eauto.
    + constructor; [exact IH|].
      assert (Hyx : ble y x = true) by (destruct (ble_total x y); congruence).
      apply (Permutation_Forall (Permutation_sym (insert_perm x l))).
      constructor; assumption.
Qed.
Lemma sort_sorted l : sortedb (sort_strings l).
Proof. induction l; cbn [sort_strings]; [constructor|]. apply insert_sorted_sorted. assumption. Qed.

Lemma sorted_perm_unique l1 l2 :
  sortedb l1 -> sortedb l2 -> Permutation l1 l2 -> l1 = l2.
Proof.
  intros H1. revert l2. induction H1 as [|x l1 Hs IH Hx]; intros l2 H2 P.
  - apply Permutation_nil in P. congruence.
  - destruct l2 as [|y l2]; [symmetry in P; apply Permutation_nil in P; discriminate|].
    inversion H2 as [|? ? Hs2 Hy]; subst.
    assert (x = y).
    { assert (Hin1 : In x (y :: l2)) by (eapply Permutation_in; [exact P|left; reflexivity]).
      assert (Hin2 : In y (x :: l1)) by (eapply Permutation_in; [symmetry; exact P|left; reflexivity]).
      destruct Hin1 as [->|Hin1]; [reflexivity|].
      destruct Hin2 as [->|Hin2]; [reflexivity|].
      rewrite Forall_forall in Hx, Hy.
      apply ble_antisym; auto. }
    subst y. f_equal. apply IH; [assumption|]. eapply Permutation_cons_inv. exact P.
Qed.

(** Any function that returns a sorted permutation is [sort_strings]. *)
Lemma sort_unique l l' : sortedb l' -> Permutation l l' -> l' = sort_strings l.
Proof.
  intros Hs P. apply sorted_perm_unique; [exact Hs|apply sort_sorted|].
  rewrite sort_perm. symmetry. exact P.
Qed.
Lemma sort_perm_eq l l' : Permutation l l' -> sort_strings l = sort_strings l'.
Proof. intros P. apply sort_unique; [apply sort_sorted|]. rewrite sort_perm. symmetry. exact P. Qed.
Lemma sort_id l : sortedb l -> sort_strings l = l.
Proof. intros H. symmetry. apply sort_unique; auto. Qed.
Lemma strict_sorted l : strictly_sorted l -> sortedb l.
Proof.
  induction 1 as [|x l Hs IH Hx]; constructor; auto.
  eapply Forall_impl; [|exact Hx]. intros a Ha. apply blt_ble. exact Ha.
Qed.
Lemma strict_sorted_nodup l : strictly_sorted l -> NoDup l.
Proof.
  induction 1 as [|x l Hs IH Hx]; constructor; auto.
  intros Hin. rewrite Forall_forall in Hx. specialize (Hx x Hin). rewrite blt_irrefl in Hx. discriminate.
Qed.
Lemma sorted_nodup_strict l : sortedb l -> NoDup l -> strictly_sorted l.
Proof.
  induction 1 as [|x l Hs IH Hx]; intros Hn; constructor; inversion Hn; subst; [apply IH; assumption|].
  rewrite Forall_forall in *. intros a Ha. specialize (Hx a Ha).
  apply ble_lt_eq in Hx. destruct Hx as [Hx| ->]; [exact Hx|contradiction].
Qed.

(** * Go maps *)
Lemma mget_in {V} (m : amap V) k v : mget m k = Some v -> In (k, v) m.
Proof.
  induction m as [|[k' v'] m IH]; cbn [mget]; [discriminate|].
  destruct (beq_spec k' k) as [->|]; [intros [= ->]; left; reflexivity|intros H; right; auto].
Qed.
Lemma mget_none {V} (m : amap V) k : mget m k = None <-> ~ In k (mkeys m).
Proof.
  induction m as [|[k' v'] m IH]; cbn; [tauto|].
  destruct (beq_spec k' k) as [->|Hne]; [split; [discriminate|tauto]|].
  rewrite IH. tauto.
Qed.
Lemma mget_some_key {V} (m : amap V) k : In k (mkeys m) <-> exists v, mget m k = Some v.
Proof.
  destruct (mget m k) as [v|] eqn:E.
  - split; [eauto|]. intros _. apply mget_in in E.
    unfold mkeys. apply in_map_iff. exists (k, v). auto.
  - apply mget_none in E. split; [tauto|]. intros [v H]. discriminate.
Qed.
Lemma in_mget {V} (m : amap V) k v : NoDup (mkeys m) -> In (k, v) m -> mget m k = Some v.
Proof.
  induction m as [|[k' v'] m IH]; intros Hn; [intros []|].
  cbn [mkeys map fst mget] in *. intros [E|Hin]; inversion Hn; subst.
  - inversion E. rewrite beq_refl. reflexivity.
  - destruct (beq_spec k' k) as [->|]; [|auto].
    exfalso. apply H1. unfold mkeys. apply in_map_iff. exists (k, v). auto.
Qed.
Lemma mget_perm {V} (m m' : amap V) k :
  NoDup (mkeys m) -> Permutation m m' -> mget m k = mget m' k.
Proof.
  intros Hn P.
  assert (Hn' : NoDup (mkeys m')).
  { eapply Permutation_NoDup; [|exact Hn]. apply Permutation_map. exact P. }
  destruct (mget m k) as [v|] eqn:E.
  - symmetry. apply in_mget; [exact Hn'|]. eapply Permutation_in; [exact P|]. apply mget_in. exact E.
  - symmetry. apply mget_none. apply mget_none in E. intros Hin. apply E.
    eapply Permutation_in; [|exact Hin]. symmetry. apply Permutation_map. exact P.
Qed.
Lemma mset_same {V} (m : amap V) k v : mget (mset m k v) k = Some v.
Proof.
  induction m as [|[k' v'] m IH]; cbn [mset mget].
  - rewrite beq_refl. reflexivity.
  - destruct (beq_spec k' k) as [->|Hne]; cbn [mget].
    + rewrite beq_refl. reflexivity.
    + rewrite (proj2 (beq_neq _ _) Hne). exact IH.
Qed.
Lemma mset_other {V} (m : amap V) k v k2 : k2 <> k -> mget (mset m k v) k2 = mget m k2.
Proof.
  intros Hk. induction m as [|[k' v'] m IH]; cbn [mset mget].
  - rewrite (proj2 (beq_neq _ _)); [reflexivity|congruence].
  - destruct (beq_spec k' k) as [->|Hne]; cbn [mget].
    + rewrite (proj2 (beq_neq k k2)); [reflexivity|congruence].
    + rewrite IH. reflexivity.
Qed.
Lemma mget_mset {V} (m : amap V) k v k2 :
  mget (mset m k v) k2 = if beq k k2 then Some v else mget m k2.
Proof.
  destruct (beq_spec k k2) as [->|Hne]; [apply mset_same|apply mset_other; congruence].
Qed.
Lemma mset_keys {V} (m : amap V) k v k2 : In k2 (mkeys (mset m k v)) <-> k2 = k \/ In k2 (mkeys m).
Proof.
  induction m as [|[k' v'] m IH]; cbn [mset].
  - cbn. intuition congruence.
  - destruct (beq_spec k' k) as [->|Hne]; cbn in *; [intuition congruence|].
    rewrite IH. intuition congruence.
Qed.
Lemma mset_nodup {V} (m : amap V) k v : NoDup (mkeys m) -> NoDup (mkeys (mset m k v)).
Proof.
  induction m as [|[k' v'] m IH]; cbn [mset]; intros Hn.
  - cbn. repeat constructor. tauto.
  - inversion Hn; subst. destruct (beq_spec k' k) as [->|Hne]; cbn; constructor; auto.
    fold (mkeys (mset m k v)). rewrite mset_keys. intros [?|?]; [congruence|contradiction].
Qed.
Lemma mset_fresh {V} (m : amap V) k v : ~ In k (mkeys m) -> mset m k v = m ++ [(k, v)].
Proof.
  induction m as [|[k' v'] m IH]; cbn; intros Hn; [reflexivity|].
  destruct (beq_spec k' k) as [->|Hne]; [tauto|]. f_equal. apply IH. tauto.
Qed.

(** * Prefixes, searching, splitting *)
Lemma has_prefix_iff s p : has_prefix s p = true <-> exists r, s = p ++ r.
Proof.
  unfold has_prefix. rewrite beq_eq. split.
  - intros H. exists (skipn (length p) s). rewrite <- H at 1. symmetry. apply firstn_skipn.
  - intros [r ->]. rewrite firstn_app, Nat.sub_diag, firstn_all. cbn. apply app_nil_r.
Qed.
Lemma has_prefix_app p r : has_prefix (p ++ r) p = true.
Proof. apply has_prefix_iff. eauto. Qed.

Lemma contains_byte_iff s c : contains_byte s c = true <-> In c s.
Proof.
  unfold contains_byte. rewrite existsb_exists. split.
  - intros (x & Hin & E). apply byte_eqb_eq in E. congruence.
  - intros H. exists c. split; [exact H|apply byte_eqb_refl].
Qed.
Lemma contains_byte_false s c : contains_byte s c = false <-> ~ In c s.
Proof. rewrite <- contains_byte_iff. destruct (contains_byte s c); intuition congruence. Qed.

Lemma index_byte_some s c i :
  index_byte s c = Some i <-> exists p r, s = p ++ c :: r /\ length p = i /\ ~ In c p.
Proof.
  revert i. induction s as [|x s IH]; intros i; cbn [index_byte].
  - split; [discriminate|]. intros ([|? ?] & r & E & _); discriminate.
  - destruct (byte_eqb_spec x c) as [->|Hne].
    + split.
      * intros [= <-]. exists [], s. cbn. tauto.
      * intros ([|y p] & r & E & <- & Hn); [reflexivity|].
        inversion E; subst. exfalso. apply Hn. left. reflexivity.
    + destruct (index_byte s c) as [k|] eqn:Ek.
      * split.
        -- intros [= <-]. destruct (proj1 (IH k) eq_refl) as (p & r & -> & <- & Hn).
           exists (x :: p), r. cbn. intuition congruence.
        -- intros ([|y p] & r & E & <- & Hn); inversion E; subst; [congruence|].
           f_equal. cbn. f_equal. assert (Some k = Some (length p)); [|congruence].
           apply IH. exists p, r. cbn in Hn. intuition.
      * split; [discriminate|].
        intros ([|y p] & r & E & <- & Hn); inversion E; subst; [congruence|].
        exfalso. assert (None = Some (length p)); [|discriminate].
        apply IH. exists p, r. cbn in Hn. intuition.
Qed.
Lemma index_byte_none s c : index_byte s c = None <-> ~ In c s.
Proof.
  induction s as [|x s IH]; cbn [index_byte In]; [tauto|].
  destruct (byte_eqb_spec x c) as [->|Hne]; [split; [discriminate|tauto]|].
  destruct (index_byte s c); split; try discriminate; try tauto.
  intros H. exfalso. destruct IH as [_ IH]. assert (~ In c s) by tauto. apply IH in H0. discriminate.
Qed.
Lemma index_byte_first p c r : ~ In c p -> index_byte (p ++ c :: r) c = Some (length p).
Proof. intros H. apply index_byte_some. eauto. Qed.

Lemma index_sub_some s sub i :
  index_sub s sub = Some i ->
  exists p r, s = p ++ sub ++ r /\ length p = i.
Proof.
  revert i. induction s as [|x s IH]; intros i; cbn [index_sub].
  - destruct (has_prefix [] sub) eqn:E; [|discriminate].
    intros [= <-]. apply has_prefix_iff in E. destruct E as [r E]. exists [], r. auto.
  - destruct (has_prefix (x :: s) sub) eqn:E.
    + intros [= <-]. apply has_prefix_iff in E. destruct E as [r E]. exists [], r. auto.
    + destruct (index_sub s sub) as [k|]; [|discriminate].
      intros [= <-]. destruct (IH k eq_refl) as (p & r & -> & <-). exists (x :: p), r. auto.
Qed.
Lemma contains_sub_iff s sub : contains_sub s sub = true <-> exists p r, s = p ++ sub ++ r.
Proof.
  unfold contains_sub. split.
  - destruct (index_sub s sub) eqn:E; [|discriminate]. intros _.
    apply index_sub_some in E. destruct E as (p & r & E & _). eauto.
  - intros (p & r & ->). induction p as [|x p IH].
    + cbn [app]. destruct (sub ++ r) eqn:E; cbn [index_sub]; rewrite <- E, has_prefix_app; reflexivity.
    + cbn [app index_sub]. destruct (has_prefix (x :: p ++ sub ++ r) sub); [reflexivity|].
      destruct (index_sub (p ++ sub ++ r) sub); [reflexivity|discriminate].
Qed.

Lemma split_byte_nonnil s c : split_byte s c <> [].
Proof.
  induction s as [|x s IH]; cbn [split_byte]; [discriminate|].
  destruct (byte_eqb x c); [discriminate|]. destruct (split_byte s c); discriminate.
Qed.
Lemma split_join s c : join_byte (split_byte s c) c = s.
Proof.
  induction s as [|x s IH]; cbn [split_byte]; [reflexivity|].
  pose proof (split_byte_nonnil s c) as Hn.
  destruct (byte_eqb_spec x c) as [->|Hne].
  - destruct (split_byte s c) as [|h t]; [congruence|]. cbn [join_byte]. cbn in *. f_equal. exact IH.
  - destruct (split_byte s c) as [|h t]; [congruence|].
    destruct t as [|h2 t]; cbn [join_byte] in *; cbn; f_equal; exact IH.
Qed.
Lemma split_no_sep s c : Forall (fun x => ~ In c x) (split_byte s c).
Proof.
  induction s as [|x s IH]; cbn [split_byte]; [repeat constructor; tauto|].
  destruct (byte_eqb_spec x c) as [->|Hne]; [constructor; [tauto|exact IH]|].
  destruct (split_byte s c) as [|h t]; [repeat constructor; cbn; tauto|].
  inversion IH; subst. constructor; [|assumption]. cbn. tauto.
Qed.
Lemma split_nosep s c : ~ In c s -> split_byte s c = [s].
Proof.
  induction s as [|x s IH]; cbn [split_byte In]; [reflexivity|]. intros H.
  rewrite (proj2 (byte_eqb_neq x c)) by tauto. rewrite IH by tauto. reflexivity.
Qed.
Lemma split_app p c r : ~ In c p -> split_byte (p ++ c :: r) c = p :: split_byte r c.
Proof.
  induction p as [|x p IH]; cbn [split_byte In app]; intros H.
  - rewrite byte_eqb_refl. reflexivity.
  - rewrite (proj2 (byte_eqb_neq x c)) by tauto. rewrite IH by tauto. reflexivity.
Qed.
Lemma join_split l c : l <> [] -> Forall (fun x => ~ In c x) l -> split_byte (join_byte l c) c = l.
Proof.
  induction l as [|x l IH]; [congruence|]. intros _ H. inversion H; subst.
  destruct l as [|y l]; cbn [join_byte]; [apply split_nosep; assumption|].
  rewrite split_app by assumption. f_equal. apply IH; [discriminate|assumption].
Qed.

Lemma lenN_app a b : lenN (a ++ b) = (lenN a + lenN b)%N.
Proof. unfold lenN. rewrite app_length. lia. Qed.
Lemma lenN_nil : lenN [] = 0%N.
Proof. reflexivity. Qed.
Lemma lenN_cons x l : lenN (x :: l) = N.succ (lenN l).
Proof. unfold lenN. cbn [length]. lia. Qed.
Lemma lenN_zero l : lenN l = 0%N -> l = [].
Proof. destruct l; [reflexivity|]. unfold lenN. cbn. lia. Qed.

Lemma skipn_skipn {A} n m (l : list A) : skipn n (skipn m l) = skipn (m + n) l.
Proof.
  revert l. induction m as [|m IH]; intros l; [reflexivity|].
  destruct l as [|x l]; [destruct n; reflexivity|]. cbn [skipn Nat.add]. apply IH.
Qed.
