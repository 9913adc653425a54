(** The JSON of a derivation. *)
From Coq Require Import Permutation Sorted.
From Verif Require Import Base.Bytes Base.BytesFacts Model.GoIO Model.GoStd Model.Derivation Model.Json Spec.JsonSpec Proof.JsonUtf8 Proof.JsonStr Proof.JsonVal Proof.JsonEnc.
Ltac Zify.zify_post_hook ::= idtac.

Lemma optional_ok k s : optional k s = match s with [] => [] | a => [(bs k, JStr a)] end.
Proof. unfold optional. destruct (bytes_eq_dec s []) as [->|N]; [reflexivity|]. destruct s; [congruence|reflexivity]. Qed.
Lemma strings_ok nil l : json_strings l (strings_json nil l).
Proof. unfold json_strings, strings_json. destruct l; [destruct nil; auto|left; reflexivity]. Qed.
Lemma map_ok {A} (nil : bool) (f : bytes -> A -> jv) (R : A -> jv -> Prop) (m : amap A) :
  NoDup (mkeys m) -> (forall k x, R x (f k x)) -> json_map R m (map_json nil f m).
Proof.
  intros ND HR. destruct m as [|p m'].
  - unfold json_map, map_json. destruct nil; [right; auto|left]. exists [], []. split; [reflexivity|]. split; [constructor|]. split; [constructor|reflexivity].
  - unfold map_json. remember (p :: m') as m eqn:E. clear E p m'. left.
    pose (look := fun k => match mget m k with Some x => (k, f k x) | None => (k, JNull) end).
    assert (LK : forall k x, In (k, x) m -> mget m k = Some x) by (intros k x I; apply (in_mget m k x ND); exact I).
    assert (X : forall ks, incl ks (mkeys m) -> exists m', map fst m' = ks /\ incl m' m /\ Forall2 (fun p q => fst q = fst p /\ R (snd p) (snd q)) m' (map (fun k => (k, match mget m k with Some x => f k x | None => JNull end)) ks)).
    { induction ks as [|k ks IH]; intros I; [exists []; repeat split; [intros x []|constructor]|]. destruct (IH (fun x H => I x (or_intror H))) as (m' & E & IN & F).
      assert (In k (mkeys m)) as K by (apply I; left; reflexivity). apply in_map_iff in K. destruct K as ((k0 & x) & EK & K). cbn [fst] in EK. subst k0. exists ((k, x) :: m'). split; [cbn [map fst]; congruence|]. split; [intros y [<-|Y]; auto|].
      cbn [map]. constructor; [|exact F]. cbn [fst snd]. split; [reflexivity|]. rewrite (LK k x K). apply HR. }
    destruct (X (sort_strings (mkeys m)) (fun x H => Permutation_in x (sort_perm (mkeys m)) H)) as (m' & E & IN & F).
    eexists m', _. split; [|split; [|split; [exact F|reflexivity]]].
    + apply NoDup_Permutation_bis.
      * eapply NoDup_map_inv. exact ND.
      * rewrite <- (map_length fst m'), E, (Permutation_length (sort_perm (mkeys m))). unfold mkeys. rewrite map_length. apply le_n.
      * intros (k & x) I. assert (K : In k (map fst m')) by (rewrite E; apply (Permutation_in k (Permutation_sym (sort_perm (mkeys m)))); exact (in_map fst _ _ I)).
        apply in_map_iff in K. destruct K as ((k0 & y) & EK & K). cbn [fst] in EK. subst k0. assert (x = y) by (pose proof (LK _ _ I); pose proof (LK _ _ (IN _ K)); congruence). subst y. exact K.
    + rewrite E. apply sorted_nodup_strict; [apply sort_sorted|]. eapply Permutation_NoDup; [apply Permutation_sym, sort_perm|exact ND].
Qed.
Theorem drv_ok nl d : NoDup (mkeys (d_outputs d)) -> NoDup (mkeys (d_inputs d)) -> NoDup (mkeys (d_env d)) -> json_of d (drv_json nl d).
Proof.
  intros N1 N2 N3. unfold json_of, drv_json. do 5 eexists. split; [|split; [|split; [|split; [|split; [|reflexivity]]]]].
  - apply map_ok; [exact N1|]. intros k o. unfold json_output, output_json. rewrite !optional_ok. destruct (o_algo o), (o_hash o); reflexivity.
  - apply strings_ok.
  - apply map_ok; [exact N2|]. intros k l. apply strings_ok.
  - apply strings_ok.
  - apply map_ok; [exact N3|]. reflexivity.
Qed.

(** * What a derivation's JSON is made of *)
Lemma strings_nums l j : json_strings l j -> nums_ok j.
Proof. intros [->|(_ & ->)]; [|exact I]. apply nums_arr. induction l; constructor; [exact I|assumption]. Qed.
Lemma map_nums {A} (R : A -> jv -> Prop) m j : (forall x v, R x v -> nums_ok v) -> json_map R m j -> nums_ok j.
Proof.
  intros HR [(m' & l & _ & _ & F & ->)|(_ & ->)]; [|exact I]. apply nums_obj. induction F as [|p q m' l (_ & Q) F IH]; constructor; [exact (HR _ _ Q)|exact IH].
Qed.
Lemma drv_nums d j : json_of d j -> nums_ok j.
Proof.
  intros (o & s & i & a & e & O & S & I & A & E & ->). apply nums_obj. repeat (constructor; [cbn [snd]|]); try constructor.
  - eapply map_nums; [|exact O]. intros x v ->. apply nums_obj. rewrite !optional_ok. destruct (o_algo x), (o_hash x); repeat constructor.
  - exact (strings_nums _ _ S).
  - eapply map_nums; [|exact I]. intros x v. apply strings_nums.
  - exact (strings_nums _ _ A).
  - eapply map_nums; [|exact E]. intros x v ->. exact Logic.I.
Qed.
Lemma strings_nest l j : json_strings l j -> nesting j <= 1.
Proof. intros [->|(_ & ->)]; [|cbn; lia]. cbn [nesting]. apply le_n_S. apply list_max_le. apply Forall_map, Forall_map, Forall_forall. intros; cbn; lia. Qed.
Lemma map_nest {A} (R : A -> jv -> Prop) m j n : (forall x v, R x v -> nesting v <= n) -> json_map R m j -> nesting j <= S n.
Proof.
  intros HR [(m' & l & _ & _ & F & ->)|(_ & ->)]; [|cbn; lia]. cbn [nesting]. apply le_n_S. apply list_max_le. induction F as [|p q m' l (_ & Q) F IH]; constructor; [exact (HR _ _ Q)|exact IH].
Qed.
Lemma drv_nest d j : json_of d j -> nesting j <= 3.
Proof.
  intros (o & s & i & a & e & O & S & I & A & E & ->). cbn [nesting]. apply le_n_S. apply list_max_le. cbn [map snd]. repeat (apply Forall_cons; [|]); [..|apply Forall_nil].
  - eapply map_nest; [|exact O]. intros x v ->. rewrite !optional_ok. destruct (o_algo x), (o_hash x); cbn; lia.
  - pose proof (strings_nest _ _ S). lia.
  - eapply map_nest; [|exact I]. intros x v. apply strings_nest.
  - cbn; lia.
  - cbn; lia.
  - pose proof (strings_nest _ _ A). lia.
  - apply (map_nest _ _ _ 0) in E; [lia|]. intros x v ->. cbn; lia.
Qed.
(** Two derivations with the same JSON: the same maps, whatever the iteration order. *)
Lemma strings_inj l l' j : json_strings l j -> json_strings l' j -> l = l'.
Proof.
  intros [->|(-> & ->)] [E|(-> & E)]; try discriminate E; [|reflexivity]. assert (M : map JStr l = map JStr l') by congruence. clear E. revert l' M. induction l as [|x l IH]; intros [|y l'] M; try discriminate M; [reflexivity|]. cbn [map] in M. f_equal; [congruence|apply IH; congruence].
Qed.
Lemma map_inj {A} (R : A -> jv -> Prop) m m' j : (forall x y v, R x v -> R y v -> x = y) -> json_map R m j -> json_map R m' j -> Permutation m m'.
Proof.
  intros HR [(n & l & P & _ & F & ->)|(-> & ->)] [(n' & l' & P' & _ & F' & E)|(-> & E)]; try discriminate E; [|reflexivity]. assert (l = l') by congruence. subst l'. clear E.
  assert (n = n'); [|subst; rewrite P, P'; reflexivity]. clear P P'. revert n' F'. induction F as [|(k & x) (k0 & v) n l (K & X) F IH]; intros n' F'; inversion F' as [|(k' & y) ? n0 ? (K' & Y) G]; subst; [reflexivity|]. cbn [fst snd] in *. subst. f_equal; [f_equal; eauto|auto].
Qed.
Lemma output_inj o o' j : json_output o j -> json_output o' j -> o = o'.
Proof.
  unfold json_output. intros -> E. rewrite !optional_ok in E. destruct o as [p [|a al] [|h hl]], o' as [p' [|a' al'] [|h' hl']]; cbn [o_path o_algo o_hash app] in E; try discriminate E; injection E; intros; subst; try reflexivity; try (exfalso; congruence).
Qed.
Lemma drv_inj d d' j : json_of d j -> json_of d' j -> same_fields d d'.
Proof.
  intros (o & s & i & a & e & O & S & I & A & E & ->) (o' & s' & i' & a' & e' & O' & S' & I' & A' & E' & EQ).
  assert (o = o' /\ s = s' /\ i = i' /\ a = a' /\ e = e' /\ d_platform d = d_platform d' /\ d_builder d = d_builder d') as (<- & <- & <- & <- & <- & P & B) by (repeat split; congruence). clear EQ.
  unfold same_fields. split; [exact (map_inj _ _ _ _ output_inj O O')|]. split; [exact (strings_inj _ _ _ S S')|]. split; [exact (map_inj _ _ _ _ strings_inj I I')|]. split; [exact P|]. split; [exact B|]. split; [exact (strings_inj _ _ _ A A')|].
  assert (X : forall x y v, v = JStr x -> v = JStr y -> x = y) by (intros x y v E1 E2; congruence). exact (map_inj _ _ _ _ X E E').
Qed.
(** The iteration order plays no part. *)
Lemma json_map_perm {A} (R : A -> jv -> Prop) m m' j : Permutation m m' -> json_map R m j -> json_map R m' j.
Proof.
  intros P [(n & l & Q & H)|(-> & ->)]; [left; exists n, l; split; [rewrite <- P; exact Q|exact H]|right]. apply Permutation_nil in P. auto.
Qed.
Lemma json_of_same d d' j : same_fields d d' -> json_of d j -> json_of d' j.
Proof.
  intros (P1 & P2 & P3 & P4 & P5 & P6 & P7) (o & s & i & a & e & O & S & I & A & E & ->). exists o, s, i, a, e. rewrite <- P2, <- P4, <- P5, <- P6. do 2 (split; [first [exact S|exact (json_map_perm _ _ _ _ P1 O)]|]). split; [exact (json_map_perm _ _ _ _ P3 I)|]. split; [exact A|]. split; [exact (json_map_perm _ _ _ _ P7 E)|reflexivity].
Qed.

(** * Strings that are UTF-8 *)
Fixpoint strings_utf8 (v : jv) : Prop :=
  match v with
  | JStr s => is_utf8 s
  | JArr l => fold_right (fun x p => strings_utf8 x /\ p) True l
  | JObj l => fold_right (fun x p => (is_utf8 (fst x) /\ strings_utf8 (snd x)) /\ p) True l
  | _ => True
  end.
Lemma repaired_same : forall v v', strings_utf8 v -> jrepaired v v' -> v' = v.
Proof.
  apply (jv_nested (fun v => forall v', strings_utf8 v -> jrepaired v v' -> v' = v)).
  - intros v' _ R. inversion R; reflexivity.
  - intros b v' _ R. inversion R; reflexivity.
  - intros t v' _ R. inversion R; reflexivity.
  - intros s v' U R. inversion R as [| | |s0 s' RS| |]; subst. f_equal. exact (repaired_utf8 _ _ U RS).
  - intros l F v' U R. inversion R as [| | | |l0 l' RL|]; subst. f_equal. clear R. cbn [strings_utf8] in U. revert l' RL. induction F as [|x l H F IH]; intros l' RL; inversion RL; subst; [reflexivity|]. cbn [fold_right] in U. destruct U as (U1 & U2). f_equal; auto.
  - intros l F v' U R. inversion R as [| | | | |l0 l' RL]; subst. f_equal. clear R. cbn [strings_utf8] in U. revert l' RL. induction F as [|(k & x) l H F IH]; intros l' RL; inversion RL as [|p (k' & x') ? l2 (R1 & R2) RL']; subst; [reflexivity|]. cbn [fold_right fst snd] in *. destruct U as ((U0 & U1) & U2).
    f_equal; [|auto]. f_equal; [exact (repaired_utf8 _ _ U0 R1)|auto].
Qed.
Lemma repaired_fun : forall s a b, repaired s a -> repaired s b -> a = b.
Proof.
  intros s a b A. revert b. induction A as [|c t s s' U A IH|x s s' NO A IH]; intros b B.
  - inversion B as [|c b0 s0 s0' U E|]; [reflexivity|]. exfalso. destruct b0; [exact (utf8_len _ _ U eq_refl)|discriminate].
  - inversion B as [E|c' t' s0 s0' U' R E|x s0 s0' NO R E].
    + exfalso. destruct t; [exact (utf8_len _ _ U eq_refl)|discriminate].
    + pose proof (decode_utf8 _ _ s U) as D. pose proof (decode_utf8 _ _ s0 U') as D'. rewrite E in D'. assert (c' = c) by congruence. subst c'. pose proof (utf8_fun _ _ _ U U'). subst t'. apply app_inv_head in E. subst s0. f_equal. apply IH. exact R.
    + exfalso. exact (NO _ _ _ U E).
  - inversion B as [|c' t' s0 s0' U' R E|x' s0 s0' NO' R E].
    + exfalso. exact (NO _ _ _ U' (eq_sym E)).
    + assert (s0 = s) by congruence. subst. f_equal. apply IH. exact R.
Qed.
Lemma jrepaired_fun : forall v a b, jrepaired v a -> jrepaired v b -> a = b.
Proof.
  apply (jv_nested (fun v => forall a b, jrepaired v a -> jrepaired v b -> a = b)).
  - intros a b A B. inversion A; inversion B; reflexivity.
  - intros x a b A B. inversion A; inversion B; reflexivity.
  - intros x a b A B. inversion A; inversion B; reflexivity.
  - intros s a b A B. inversion A as [| | |s0 s1 R1| |]; inversion B as [| | |s2 s3 R2| |]; subst. f_equal. exact (repaired_fun _ _ _ R1 R2).
  - intros l F a b A B. inversion A as [| | | |l0 l1 R1|]; inversion B as [| | | |l2 l3 R2|]; subst. f_equal. clear A B. revert l1 l3 R1 R2. induction F as [|x l H F IH]; intros l1 l3 R1 R2; inversion R1; inversion R2; subst; [reflexivity|]. f_equal; auto.
  - intros l F a b A B. inversion A as [| | | | |l0 l1 R1]; inversion B as [| | | | |l2 l3 R2]; subst. f_equal. clear A B. revert l1 l3 R1 R2. induction F as [|(k & x) l H F IH]; intros l1 l3 R1 R2; inversion R1 as [|p (k1 & x1) ? m1 (Q1 & Q2) G1]; inversion R2 as [|p' (k2 & x2) ? m2 (Q3 & Q4) G2]; subst; [reflexivity|].
    cbn [fst snd] in *. f_equal; [|auto]. f_equal; [exact (repaired_fun _ _ _ Q1 Q3)|auto].
Qed.
Lemma jrepaired_nest : forall v a, jrepaired v a -> nesting a = nesting v.
Proof.
  apply (jv_nested (fun v => forall a, jrepaired v a -> nesting a = nesting v)); try (intros; match goal with H : jrepaired _ _ |- _ => inversion H; reflexivity end).
  - intros l F a A. inversion A as [| | | |l0 l1 R1|]; subst. cbn [nesting]. do 2 f_equal. clear A. revert l1 R1. induction F as [|x l H F IH]; intros l1 R1; inversion R1; subst; [reflexivity|]. cbn [map]. f_equal; auto.
  - intros l F a A. inversion A as [| | | | |l0 l1 R1]; subst. cbn [nesting]. do 2 f_equal. clear A. revert l1 R1. induction F as [|(k & x) l H F IH]; intros l1 R1; inversion R1 as [|p (k1 & x1) ? m1 (Q1 & Q2) G1]; subst; [reflexivity|]. cbn [map snd] in *. f_equal; auto.
Qed.
Lemma utf8_literal s : forallb (fun c => (b2n c <? 128)%N) s = true -> is_utf8 s.
Proof.
  induction s as [|c s IH]; intros H; [constructor|]. cbn [forallb] in H. apply andb_prop in H. destruct H as (H1 & H2). apply N.ltb_lt in H1. change (c :: s) with ([c] ++ s). apply (iu_cons (b2n c)); [apply utf8_ascii; exact H1|auto].
Qed.
Lemma arr_utf8 l : strings_utf8 (JArr l) <-> Forall strings_utf8 l.
Proof. cbn [strings_utf8]. induction l as [|x l IH]; cbn [fold_right]; [split; auto|]. rewrite IH. split; [intros (A & B); constructor; assumption|intros F; inversion F; auto]. Qed.
Lemma obj_utf8 l : strings_utf8 (JObj l) <-> Forall (fun p => is_utf8 (fst p) /\ strings_utf8 (snd p)) l.
Proof. cbn [strings_utf8]. induction l as [|x l IH]; cbn [fold_right]; [split; auto|]. rewrite IH. split; [intros (A & B); constructor; assumption|intros F; inversion F; auto]. Qed.
Lemma strings_json_utf8 l j : Forall is_utf8 l -> json_strings l j -> strings_utf8 j.
Proof. intros F [->|(_ & ->)]; [|exact I]. apply arr_utf8. apply Forall_map. exact F. Qed.
Lemma map_json_utf8 {A} (R : A -> jv -> Prop) (U : A -> Prop) m j : Forall (fun p => is_utf8 (fst p) /\ U (snd p)) m -> (forall x v, U x -> R x v -> strings_utf8 v) -> json_map R m j -> strings_utf8 j.
Proof.
  intros F HR [(m' & l & P & _ & G & ->)|(_ & ->)]; [|exact I]. apply obj_utf8. rewrite (Forall_forall), <- Forall_forall in F. assert (F' : Forall (fun p => is_utf8 (fst p) /\ U (snd p)) m') by (rewrite Forall_forall in *; intros p H; apply F; rewrite P; exact H).
  clear F P. induction G as [|p q m' l (K & Q) G IH]; constructor; inversion F' as [|? ? (F1 & F2) F3]; subst; [|auto]. rewrite K. split; [exact F1|eauto].
Qed.
Lemma drv_strings_utf8 d j : drv_utf8 d -> json_of d j -> strings_utf8 j.
Proof.
  intros (U1 & U2 & U3 & U4 & U5 & U6 & U7) (o & s & i & a & e & O & S & I & A & E & ->). apply obj_utf8. repeat (constructor; [split; [apply utf8_literal; reflexivity|cbn [snd]]|]); try constructor; try assumption.
  - eapply (map_json_utf8 _ (fun o => is_utf8 (o_path o) /\ is_utf8 (o_algo o) /\ is_utf8 (o_hash o))); [exact U1| |exact O]. intros x v (X1 & X2 & X3) ->. apply obj_utf8. rewrite !optional_ok.
    constructor; [split; [apply utf8_literal; reflexivity|exact X1]|]. apply Forall_app. split; [destruct (o_algo x)|destruct (o_hash x)]; repeat constructor; try assumption; apply utf8_literal; reflexivity.
  - exact (strings_json_utf8 _ _ U2 S).
  - eapply (map_json_utf8 _ (Forall is_utf8)); [exact U3| |exact I]. intros x v X J. exact (strings_json_utf8 _ _ X J).
  - exact (strings_json_utf8 _ _ U6 A).
  - eapply (map_json_utf8 _ is_utf8); [exact U7| |exact E]. intros x v X ->. exact X.
Qed.
(** * Nulls *)
Lemma repaired_null_free : forall v v', null_free v -> jrepaired v v' -> null_free v'.
Proof.
  apply (jv_nested (fun v => forall v', null_free v -> jrepaired v v' -> null_free v')); try (intros; match goal with H : jrepaired _ _ |- _ => inversion H; subst end; try assumption; constructor).
  - inversion H0; subst. clear H0 H1. revert H l' H3. induction H4 as [|x l X N IH]; intros F l' R; inversion R; subst; [constructor|]. inversion F; subst. constructor; auto.
  - inversion H0; subst. clear H0 H1. revert H l' H3. induction H4 as [|x l X N IH]; intros F l' R; inversion R as [|? ? ? ? (A & B)]; subst; [constructor|]. inversion F; subst. constructor; auto.
Qed.
Lemma strings_null_free l : null_free (strings_json false l).
Proof. unfold strings_json. destruct l as [|x l]; constructor; [constructor|]. apply Forall_map, Forall_forall. intros s _. constructor. Qed.
Lemma map_null_free {A} (f : bytes -> A -> jv) m : (forall k x, null_free (f k x)) -> null_free (map_json false f m).
Proof.
  intros F. unfold map_json. destruct m as [|x m]; [repeat constructor|]. constructor. apply Forall_map, Forall_forall. intros k K. cbn [snd]. apply (Permutation_in _ (sort_perm _)) in K. apply mget_some_key in K. destruct K as (y & ->). apply F.
Qed.
Lemma drv_null_free d : null_free (drv_json (Nils (fun _ => false) (fun _ => false)) d).
Proof.
  unfold drv_json. cbn [nil_field nil_names]. constructor. repeat (apply Forall_cons; [cbn [snd]|]); [apply map_null_free; intros k o|apply strings_null_free|apply map_null_free; intros k l; apply strings_null_free|constructor|constructor|apply strings_null_free|apply map_null_free; intros; constructor|constructor].
  unfold output_json. constructor. constructor; [constructor|]. apply Forall_app. split; [destruct (o_algo o)|destruct (o_hash o)]; repeat constructor.
Qed.
