(** C65. *)
From Verif Require Import Base.Bytes Base.BytesFacts Model.GoIO Model.GoStd Model.Storepath Model.Derivation Model.DrvParser Model.StoreBackends
  Spec.StorePathSpec Spec.BackendSpec Proof.PathFacts Proof.StorePathProps.
Ltac Zify.zify_post_hook ::= idtac.

(** * path.Base *)
Lemma strip_spec c l : exists n, l = repeat c n ++ strip_leading c l /\ match strip_leading c l with [] => True | x :: _ => x <> c end.
Proof.
  induction l as [|x l (n & E & H)]; [exists 0; cbn; auto|]. cbn [strip_leading]. destruct (byte_eqb x c) eqn:X.
  - apply byte_eqb_eq in X. subst x. exists (S n). cbn [repeat app]. split; [f_equal; exact E|exact H].
  - exists 0. split; [reflexivity|]. apply byte_eqb_neq. exact X.
Qed.
Lemma take_spec c l : exists r, l = take_until c l ++ r /\ ~ In c (take_until c l) /\ (r = [] \/ exists s, r = c :: s).
Proof.
  induction l as [|x l (r & E & N & T)]; [exists []; cbn; auto|]. cbn [take_until]. destruct (byte_eqb x c) eqn:X.
  - apply byte_eqb_eq in X. subst x. exists (c :: l). cbn [app In]. split; [reflexivity|]. split; [tauto|]. right. eauto.
  - apply byte_eqb_neq in X. exists r. split; [cbn [app]; f_equal; exact E|]. split; [cbn [In]; intros [Y|Y]; [congruence|contradiction]|exact T].
Qed.
Lemma rev_repeat {A} (x : A) n : rev (repeat x n) = repeat x n.
Proof. induction n as [|n IH]; [reflexivity|]. cbn [repeat rev]. rewrite IH. clear IH. induction n as [|n IH]; [reflexivity|]. cbn [repeat app]. f_equal. exact IH. Qed.
Lemma Base_cases p :
  (p = [] /\ Base p = bs ".") \/ (p <> [] /\ p = repeat "/"%byte (length p) /\ Base p = bs "/") \/ last_component p (Base p).
Proof.
  destruct p as [|x p]; [left; auto|right]. unfold Base. set (q := x :: p). assert (Q : q <> []) by discriminate. clearbody q. destruct q as [|y q']; [congruence|]. set (q := y :: q') in *. clearbody q. clear y q' x p.
  destruct (strip_spec slash (rev q)) as (n & E & H). destruct (take_spec slash (strip_leading slash (rev q))) as (r & E2 & N & T). rewrite E2 in E.
  apply (f_equal (@rev byte)) in E. rewrite rev_involutive, !rev_app_distr, rev_repeat in E.
  destruct (rev (take_until slash (strip_leading slash (rev q)))) as [|y b] eqn:B.
  - left. apply (f_equal (@rev byte)) in B. rewrite rev_involutive in B. cbn [rev] in B. rewrite B in E2. cbn [app] in E2. assert (S : strip_leading slash (rev q) = []).
    { destruct (strip_leading slash (rev q)) as [|z l]; [reflexivity|]. exfalso. cbn [take_until] in B. destruct (byte_eqb z slash) eqn:Z; [apply byte_eqb_eq in Z; contradiction|discriminate]. }
    rewrite S in E2. subst r. cbn [rev app] in E. split; [exact Q|]. split; [|reflexivity]. rewrite E, repeat_length. reflexivity.
  - right. exists (rev r), n. rewrite <- B, E at 1. rewrite B, <- app_assoc. split; [reflexivity|]. split; [|split; [discriminate|]].
    + destruct T as [->|(s & ->)]; [left; reflexivity|right]. exists (rev s). reflexivity.
    + rewrite <- B. intros X. apply in_rev in X. contradiction.
Qed.

(** * path.Join with one more component *)
Lemma split_snoc a b : ~ In slash b -> split_byte (a ++ slash :: b) slash = split_byte a slash ++ [b].
Proof.
  intros N. rewrite <- (split_join a slash) at 1. pose proof (split_no_sep a slash) as F. pose proof (split_byte_nonnil a slash) as NE. set (l := split_byte a slash) in *. clearbody l.
  replace (join_byte l slash ++ slash :: b) with (join_byte (l ++ [b]) slash).
  - apply join_split; [destruct l; discriminate|]. apply Forall_app. split; [exact F|]. constructor; [exact N|constructor].
  - clear F. induction l as [|x l IH]; [congruence|]. destruct l as [|y l]; [reflexivity|]. cbn [app join_byte]. cbn [app join_byte] in IH. rewrite IH by discriminate. rewrite <- app_assoc. reflexivity.
Qed.
Lemma clean_go_snoc r l b : plain b -> forall acc, clean_go r acc (l ++ [b]) = clean_go r acc l ++ [b].
Proof.
  intros (B1 & B2 & B3). apply beq_neq in B1, B2, B3. induction l as [|c l IH]; intros acc; cbn [app clean_go].
  - rewrite B1, B2, B3. cbn [orb rev]. reflexivity.
  - destruct (beq c [] || beq c dot); [apply IH|]. destruct (beq c dotdot); [|apply IH]. destruct acc as [|x acc]; [destruct r; apply IH|]. destruct (beq x dotdot); apply IH.
Qed.
Definition solid (c : bytes) : Prop := c <> [] /\ c <> dot /\ ~ In slash c.
Lemma clean_go_solid r l : Forall (fun x => ~ In slash x) l -> forall acc, Forall solid acc -> Forall solid (clean_go r acc l).
Proof.
  induction l as [|c l IH]; intros NS acc F; cbn [clean_go]; [apply Forall_rev; exact F|]. inversion NS as [|? ? N1 N2]; subst. specialize (IH N2). destruct (beq_spec c []) as [|C1]; cbn [orb]; [apply IH; exact F|]. destruct (beq_spec c dot) as [|C2]; [apply IH; exact F|].
  assert (SC : solid c) by (split; [assumption|split; assumption]). destruct (beq c dotdot); [|apply IH; constructor; assumption]. destruct acc as [|x acc]; [destruct r; apply IH; auto|].
  destruct (beq x dotdot); apply IH; [constructor; assumption|inversion F; assumption].
Qed.
Lemma join_snoc l b : l <> [] -> join_byte (l ++ [b]) slash = join_byte l slash ++ slash :: b.
Proof. induction l as [|x l IH]; [congruence|]. intros _. destruct l as [|y l]; [reflexivity|]. cbn [app join_byte]. cbn [app join_byte] in IH. rewrite IH by discriminate. rewrite <- app_assoc. reflexivity. Qed.
Lemma join_solid l j : Forall solid l -> l <> [] -> j = join_byte l slash -> j <> [] /\ j <> dot /\ j <> bs "/".
Proof.
  destruct l as [|x l]; [congruence|]. intros F _. apply Forall_inv in F. destruct F as (X1 & X2 & X3). destruct l as [|y l]; intros ->.
  - cbn [join_byte]. split; [exact X1|]. split; [exact X2|]. intros ->. apply X3. left. reflexivity.
  - change (join_byte (x :: y :: l) slash) with (x ++ slash :: join_byte (y :: l) slash). generalize (join_byte (y :: l) slash). intros r.
    assert (L : 2 <= length (x ++ slash :: r)) by (rewrite app_length; cbn [length]; destruct x; [congruence|cbn [length]; lia]).
    split; [|split]; intros E; rewrite E in L; cbn in L; lia.
Qed.
Lemma Join_child dir b : dir <> [] -> entry_name b -> Join2 dir b = child (Clean dir) b.
Proof.
  intros D (B1 & B2 & B3 & B4). assert (P : plain b) by (split; [exact B1|split; [exact B2|exact B3]]). unfold Join2. destruct dir as [|x dir'] eqn:ED; [congruence|]. rewrite <- ED. clear D.
  assert (R : is_rooted (dir ++ slash :: b) = is_rooted dir) by (rewrite ED; reflexivity).
  unfold Clean, clean_comps. rewrite R, (split_snoc dir b B4), (clean_go_snoc _ _ b P).
  pose proof (clean_go_solid (is_rooted dir) (split_byte dir slash) (split_no_sep dir slash) [] (Forall_nil _)) as S. set (cs := clean_go (is_rooted dir) [] (split_byte dir slash)) in *. clearbody cs.
  destruct cs as [|c cs]; [destruct (is_rooted dir); reflexivity|]. cbn [app]. change (c :: cs ++ [b]) with ((c :: cs) ++ [b]). rewrite (join_snoc (c :: cs) b) by discriminate.
  destruct (join_solid (c :: cs) _ S ltac:(discriminate) eq_refl) as (J1 & J2 & J3). unfold child. destruct (is_rooted dir).
  - destruct (beq_spec (slash :: join_byte (c :: cs) slash) (bs "/")) as [E|_]; [exfalso; apply J1; apply (f_equal (@tl byte)) in E; exact E|].
    destruct (beq_spec (slash :: join_byte (c :: cs) slash) (bs ".")) as [E|_]; [discriminate E|]. reflexivity.
  - destruct (beq_spec (join_byte (c :: cs) slash) (bs "/")) as [E|_]; [contradiction|]. destruct (beq_spec (join_byte (c :: cs) slash) (bs ".")) as [E|_]; [contradiction|reflexivity].
Qed.
Lemma strip_repeat c n l : (match l with [] => True | x :: _ => x <> c end) -> strip_leading c (repeat c n ++ l) = l.
Proof.
  intros H. induction n as [|n IH]; cbn [repeat app].
  - destruct l as [|x l]; [reflexivity|]. cbn [strip_leading]. apply byte_eqb_neq in H. rewrite H. reflexivity.
  - cbn [strip_leading]. rewrite byte_eqb_refl. exact IH.
Qed.
Lemma take_app c l r : ~ In c l -> (r = [] \/ exists s, r = c :: s) -> take_until c (l ++ r) = l.
Proof.
  intros N H. induction l as [|x l IH]; cbn [app].
  - destruct H as [->|(s & ->)]; [reflexivity|]. cbn [take_until]. rewrite byte_eqb_refl. reflexivity.
  - cbn [take_until]. destruct (byte_eqb x c) eqn:X; [exfalso; apply N; left; apply byte_eqb_eq; exact X|]. f_equal. apply IH. intros Y. apply N. right. exact Y.
Qed.
Lemma Base_last p b : last_component p b -> Base p = b.
Proof.
  intros (pre & n & E & P & B & S).
  assert (R : rev p = repeat slash n ++ rev b ++ rev pre) by (rewrite E, !rev_app_distr, rev_repeat, app_assoc; reflexivity).
  assert (ST : strip_leading slash (rev p) = rev b ++ rev pre).
  { rewrite R. apply strip_repeat. destruct (rev b) as [|x l] eqn:X.
    - exfalso. apply B. rewrite <- (rev_involutive b), X. reflexivity.
    - cbn [app]. intros ->. apply S. apply in_rev. rewrite X. left. reflexivity. }
  assert (T : take_until slash (rev b ++ rev pre) = rev b).
  { apply take_app; [intros X; apply S; apply in_rev; exact X|]. destruct P as [->|(q & ->)]; [left; reflexivity|right]. rewrite rev_app_distr. exists (rev q). reflexivity. }
  unfold Base. destruct p as [|x p'] eqn:EP; [exfalso|rewrite <- EP in *; clear EP].
  - destruct pre; [|discriminate]. destruct b; [congruence|discriminate].
  - rewrite ST, T, rev_involutive. destruct b; [congruence|reflexivity].
Qed.
Lemma store_path_last p : wf_store_path p -> exists b, p = bs "/nix/store/" ++ b /\ entry_name b /\ last_component p b.
Proof.
  intros (h & n & E & (HL & HF) & (NE & NF)). exists (h ++ bs "-" ++ n). split; [exact E|].
  assert (NS : ~ In slash (h ++ bs "-" ++ n)).
  { intros X. apply in_app_iff in X. destruct X as [X|X].
    - revert X. apply name_no_slash. eapply Forall_impl; [|exact HF]. intros a Ha. apply hash_in_name. exact Ha.
    - apply in_app_iff in X. destruct X as [X|X]; [destruct X as [X|[]]; discriminate X|]. revert X. apply name_no_slash. exact NF. }
  assert (LEN : 32 < length (h ++ bs "-" ++ n)) by (rewrite !app_length, HL; cbn [length bs list_byte_of_string]; change (length (bs "-")) with 1; lia).
  split.
  - split; [|split; [|split; [|exact NS]]]; intros X; rewrite X in LEN; cbn in LEN; lia.
  - exists (bs "/nix/store/"), 0. split; [rewrite E; cbn [repeat]; rewrite app_nil_r; reflexivity|]. split; [right; exists (bs "/nix/store"); reflexivity|].
    split; [|exact NS]. intros X; rewrite X in LEN; cbn in LEN; lia.
Qed.
