(** Which derivations are printed as the same JSON value (C90). *)
From Coq Require Import Permutation.
From Verif Require Import Base.Bytes Base.BytesFacts Model.GoIO Model.GoStd Model.Derivation Model.Json Spec.DerivationSpec Spec.JsonSpec Spec.JsonAlikeSpec
  Proof.JsonUtf8 Proof.JsonStr Proof.JsonVal Proof.JsonEnc Proof.JsonDrv Proof.DrvEncode.
Ltac Zify.zify_post_hook ::= idtac.

Definition jalike (v v' : jv) : Prop := exists c, jrepaired v c /\ jrepaired v' c.
Lemma alike_refl s : alike s s.
Proof. destruct (enc_string_any false s) as (t & _ & R). exists t. auto. Qed.
Lemma alike_nil s : alike [] s <-> s = [].
Proof.
  split; [|intros ->; apply alike_refl]. intros (t & A & B). inversion A as [| |]; subst; [|match goal with H : _ ++ _ = [] |- _ => apply app_eq_nil in H; destruct H; subst; match goal with U : utf8 _ [] |- _ => destruct (utf8_len _ _ U eq_refl) end end].
  inversion B as [|c b s0 s1 U R E1 E2|]; subst; [reflexivity|]. match goal with H : _ ++ _ = [] |- _ => apply app_eq_nil in H; destruct H; subst end. destruct (utf8_len _ _ U eq_refl).
Qed.
Lemma alike_sym s s' : alike s s' -> alike s' s.
Proof. intros (t & A & B). exists t. auto. Qed.
Lemma alike_utf8 s s' : is_utf8 s -> is_utf8 s' -> alike s s' -> s = s'.
Proof. intros U U' (t & A & B). rewrite <- (repaired_utf8 _ _ U A). exact (repaired_utf8 _ _ U' B). Qed.
Lemma zip2 {A C} (P : A -> C -> Prop) l l' : (exists c, Forall2 P l c /\ Forall2 P l' c) <-> Forall2 (fun x y => exists z, P x z /\ P y z) l l'.
Proof.
  split.
  - intros (c & A1 & A2). revert l' A2. induction A1 as [|x z l c X A1 IH]; intros l' A2; inversion A2; subst; constructor; eauto.
  - intros F. induction F as [|x y l l' (z & X & Y) F (c & I1 & I2)]; [exists []; auto|]. exists (z :: c). auto.
Qed.
Lemma forall2_ext {A B} (P Q : A -> B -> Prop) l l' : (forall x y, P x y <-> Q x y) -> Forall2 P l l' <-> Forall2 Q l l'.
Proof. intros H. split; intros F; induction F; constructor; auto; apply H; assumption. Qed.
Lemma forall2_map {A B C D} (P : C -> D -> Prop) (f : A -> C) (g : B -> D) l l' : Forall2 P (map f l) (map g l') <-> Forall2 (fun x y => P (f x) (g y)) l l'.
Proof.
  split.
  - revert l'. induction l as [|x l IH]; intros [|y l'] F; inversion F; subst; constructor; auto.
  - intros F. induction F; constructor; auto.
Qed.
Lemma jalike_str s s' : jalike (JStr s) (JStr s') <-> alike s s'.
Proof.
  split.
  - intros (c & A & B). inversion A; subst. inversion B; subst. eexists. eauto.
  - intros (t & A & B). exists (JStr t). split; constructor; assumption.
Qed.
Lemma jalike_arr l l' : jalike (JArr l) (JArr l') <-> Forall2 jalike l l'.
Proof.
  unfold jalike at 2. rewrite <- zip2. split.
  - intros (c & A & B). inversion A; subst. inversion B; subst. eauto.
  - intros (c & A & B). exists (JArr c). split; constructor; assumption.
Qed.
Lemma jalike_obj l l' : jalike (JObj l) (JObj l') <-> Forall2 (fun p q => alike (fst p) (fst q) /\ jalike (snd p) (snd q)) l l'.
Proof.
  transitivity (exists c, Forall2 (fun p q => repaired (fst p) (fst q) /\ jrepaired (snd p) (snd q)) l c /\ Forall2 (fun p q => repaired (fst p) (fst q) /\ jrepaired (snd p) (snd q)) l' c).
  - split; [intros (c & A & B); inversion A; subst; inversion B; subst; eauto|]. intros (c & A & B). exists (JObj c). split; constructor; assumption.
  - rewrite zip2. apply forall2_ext. intros p q. split.
    + intros ((k & v) & (A1 & A2) & B1 & B2). split; [exists k|exists v]; auto.
    + intros ((k & A1 & B1) & v & A2 & B2). exists (k, v). auto.
Qed.
Lemma strings_full l : strings_json false l = JArr (map JStr l).
Proof. destruct l; reflexivity. Qed.
Lemma jalike_strings l l' : jalike (strings_json false l) (strings_json false l') <-> Forall2 alike l l'.
Proof. rewrite !strings_full, jalike_arr, forall2_map. apply forall2_ext. intros. apply jalike_str. Qed.
Lemma sorted_list {A} (m : amap A) : NoDup (mkeys m) -> exists n, in_order m n.
Proof.
  intros N. destruct m as [|(k & z) m'] eqn:E; [exists []; split; [reflexivity|constructor]|]. rewrite <- E in *. exists (ordered m z). apply ordered_in_order. exact N.
Qed.
Lemma map_full {A} (f : bytes -> A -> jv) m n : NoDup (mkeys m) -> in_order m n -> map_json false f m = JObj (map (fun p => (fst p, f (fst p) (snd p))) n).
Proof.
  intros N (P & S). unfold map_json. destruct m as [|x m']; [apply Permutation_nil in P; subst n; reflexivity|]. remember (x :: m') as m eqn:E. clear E x m'. f_equal.
  assert (K : sort_strings (mkeys m) = map fst n) by (symmetry; apply sort_unique; [apply strict_sorted; exact S|unfold mkeys; apply Permutation_map; exact P]).
  rewrite K, map_map. apply map_ext_in. intros (k & x) I. cbn [fst snd]. rewrite (in_mget m k x N); [reflexivity|]. eapply Permutation_in; [apply Permutation_sym; exact P|exact I].
Qed.
Lemma alike_map_in {A} (R : A -> A -> Prop) m m' n n' : in_order m n -> in_order m' n' ->
  alike_map R m m' <-> Forall2 (fun p q => alike (fst p) (fst q) /\ R (snd p) (snd q)) n n'.
Proof.
  intros O O'. split; [|exists n, n'; auto]. intros (l & l' & P & P' & F). rewrite (in_order_unique _ _ _ O P), (in_order_unique _ _ _ O' P'). exact F.
Qed.
Lemma jalike_map {A} (f : bytes -> A -> jv) (R : A -> A -> Prop) m m' : NoDup (mkeys m) -> NoDup (mkeys m') -> (forall k k' x y, jalike (f k x) (f k' y) <-> R x y) ->
  jalike (map_json false f m) (map_json false f m') <-> alike_map R m m'.
Proof.
  intros N N' H. destruct (sorted_list m N) as (n & O). destruct (sorted_list m' N') as (n' & O'). rewrite (map_full f _ _ N O), (map_full f _ _ N' O'), (alike_map_in _ _ _ _ _ O O'), jalike_obj, forall2_map.
  apply forall2_ext. intros p q. cbn [fst snd]. rewrite H. reflexivity.
Qed.
Lemma f2_cons {A B} (R : A -> B -> Prop) x y l l' : Forall2 R (x :: l) (y :: l') <-> R x y /\ Forall2 R l l'.
Proof. split; [intros F; inversion F; auto|intros (? & ?); constructor; assumption]. Qed.
Lemma f2_nil {A B} (R : A -> B -> Prop) : Forall2 R [] [] <-> True.
Proof. split; auto. Qed.
Lemma f2_l {A B} (R : A -> B -> Prop) x l : Forall2 R (x :: l) [] <-> False.
Proof. split; [intros F; inversion F|intros []]. Qed.
Lemma f2_r {A B} (R : A -> B -> Prop) x l : Forall2 R [] (x :: l) <-> False.
Proof. split; [intros F; inversion F|intros []]. Qed.
Lemma same_key (k : bytes) (P : Prop) : alike k k /\ P <-> P.
Proof. split; [intros (_ & H); exact H|intros H; split; [apply alike_refl|exact H]]. Qed.
Lemma algo_hash : alike (bs "hashAlgo") (bs "hash") <-> False.
Proof.
  split; [|intros []]. intros H. apply alike_utf8 in H; [|apply utf8_literal; vm_compute; reflexivity..]. apply (f_equal (@length byte)) in H. discriminate H.
Qed.
Lemma hash_algo : alike (bs "hash") (bs "hashAlgo") <-> False.
Proof. split; [|intros []]. intros H. apply alike_sym, algo_hash in H. exact H. Qed.
Lemma cons_nil x s : alike (x :: s) [] <-> False.
Proof. split; [|intros []]. intros H. apply alike_sym, alike_nil in H. discriminate H. Qed.
Lemma nil_cons x s : alike [] (x :: s) <-> False.
Proof. split; [|intros []]. intros H. apply alike_nil in H. discriminate H. Qed.
Lemma nil_nil : alike [] [] <-> True.
Proof. split; auto using alike_refl. Qed.
Lemma jalike_output o o' : jalike (output_json o) (output_json o') <-> alike_output o o'.
Proof.
  unfold output_json, alike_output. destruct o as [p [|a al] [|h hl]], o' as [p' [|a' al'] [|h' hl']]; cbn [o_path o_algo o_hash app]; rewrite jalike_obj, ?f2_cons, ?f2_l, ?f2_r, ?f2_nil; cbn [fst snd];
  rewrite ?same_key, ?algo_hash, ?hash_algo, ?jalike_str, ?cons_nil, ?nil_cons, ?nil_nil; tauto.
Qed.
Lemma jalike_drv d d' : wf_maps d -> wf_maps d' ->
  jalike (drv_json (Nils (fun _ => false) (fun _ => false)) d) (drv_json (Nils (fun _ => false) (fun _ => false)) d') <-> alike_fields d d'.
Proof.
  intros (N1 & N2 & N3) (N1' & N2' & N3'). unfold drv_json, alike_fields. cbn [nil_field nil_names]. rewrite jalike_obj, !f2_cons, f2_nil. cbn [fst snd]. rewrite !same_key.
  rewrite (jalike_map _ alike_output _ _ N1 N1' (fun _ _ => jalike_output)), (jalike_map _ (Forall2 alike) _ _ N2 N2' (fun _ _ => jalike_strings)), (jalike_map _ alike _ _ N3 N3' (fun _ _ => jalike_str)), !jalike_strings, !jalike_str. tauto.
Qed.
