From Verif Require Import Base.Bytes Base.BytesFacts Model.GoIO Model.GoStd Model.Nixhash Model.Storepath Model.Derivation Model.DrvParser Spec.DerivationSpec
  Proof.StorePathProps Proof.DrvEncode.
Ltac Zify.zify_post_hook ::= idtac.

(** * Skipping over a part of the text *)
Definition skips (k : Z) (x : bytes) : Prop :=
  forall (S : Type) (cb : S -> bytes -> nat -> res S) value rest i count start idx st, (k <= count)%Z -> i + length x < length value ->
    array_loop cb value (x ++ rest) i count start idx false false st = array_loop cb value rest (i + length x) count start idx false false st.
Lemma skips_nil k : skips k [].
Proof. intros S cb value rest i count start idx st _ _. cbn [app length]. rewrite Nat.add_0_r. reflexivity. Qed.
Lemma skips_app k x y : skips k x -> skips k y -> skips k (x ++ y).
Proof.
  intros Hx Hy S cb value rest i count start idx st Hc Hi. rewrite app_length in Hi. rewrite <- app_assoc, Hx by (auto; lia).
  rewrite Hy by (auto; lia). rewrite app_length, Nat.add_assoc. reflexivity.
Qed.
Lemma skips_le k k' x : (k <= k')%Z -> skips k x -> skips k' x.
Proof. intros H Hx S cb value rest i count start idx st Hc Hi. apply Hx; [lia|exact Hi]. Qed.
(** Inside a string literal. *)
Lemma loop_string {S} (cb : S -> bytes -> nat -> res S) value count start idx st : forall n s rest i, length s <= n -> literal s ->
  array_loop cb value (s ++ rest) i count start idx false true st = array_loop cb value rest (i + length s) count start idx false true st.
Proof.
  induction n as [|n IH]; intros s rest i L H.
  - destruct s; [|cbn in L; lia]. cbn [app length]. rewrite Nat.add_0_r. reflexivity.
  - destruct s as [|c s]; [cbn [app length]; rewrite Nat.add_0_r; reflexivity|]. cbn [literal] in H. cbn [app array_loop].
    destruct (byte_eqb c "\") eqn:E.
    + destruct s as [|x s]; [destruct H|]. cbn [app array_loop]. rewrite IH by (cbn in L; auto; lia). f_equal. cbn [length]. lia.
    + destruct H as [H1 H2]. destruct (byte_eqb c x22) eqn:E2; [exfalso; apply H1; apply byte_eqb_eq; exact E2|].
      rewrite IH by (cbn in L; auto; lia). f_equal. cbn [length]. lia.
Qed.
Lemma skips_quoted k s : literal s -> skips k (quoted s).
Proof.
  intros H S cb value rest i count start idx st Hc Hi. unfold quoted. rewrite <- app_assoc. cbn [app].
  assert (E : forall x, array_loop cb value (x22 :: x) i count start idx false false st = array_loop cb value x (i + 1) count start idx false true st) by reflexivity.
  rewrite E, <- app_assoc, (loop_string _ _ _ _ _ _ (length s)) by auto. cbn [app array_loop]. cbn -[array_loop]. f_equal. rewrite app_length. cbn. lia.
Qed.
Lemma skips_comma k : (2 <= k)%Z -> skips k [","%byte].
Proof.
  intros H S cb value rest i count start idx st Hc Hi. cbn [app length]. cbn [length] in Hi. cbn [array_loop].
  change (byte_eqb "," "\") with false. change (byte_eqb "," x22) with false. change (byte_eqb "," ",") with true. cbn iota zeta.
  replace (count =? 1)%Z with false by (symmetry; apply Z.eqb_neq; lia). replace (i =? length value - 1) with false by (symmetry; apply Nat.eqb_neq; lia). reflexivity.
Qed.
Lemma skips_join k items : (2 <= k)%Z -> Forall (skips k) items -> skips k (join_byte items ","%byte).
Proof.
  intros Hk H. induction H as [|x l Hx Hl IH]; [apply skips_nil|]. destruct l as [|y l]; [exact Hx|].
  change (join_byte (x :: y :: l) ","%byte) with (x ++ [","%byte] ++ join_byte (y :: l) ","%byte).
  apply skips_app; [exact Hx|]. apply skips_app; [apply skips_comma; exact Hk|exact IH].
Qed.
Definition closing (o c : byte) : Prop := (o = "("%byte /\ c = ")"%byte) \/ (o = "["%byte /\ c = "]"%byte).
Lemma skips_group k o c x : closing o c -> (1 <= k)%Z -> skips (k + 1) x -> skips k ([o] ++ x ++ [c]).
Proof.
  intros Ho Hk Hx S cb value rest i count start idx st Hc Hi. cbn [app]. cbn [app length] in Hi. rewrite app_length in Hi. cbn [length] in Hi.
  assert (E1 : forall r, array_loop cb value (o :: r) i count start idx false false st = array_loop cb value r (i + 1) (count + 1) start idx false false st).
  { intros r. cbn [array_loop]. replace (i =? length value - 1) with false by (symmetry; apply Nat.eqb_neq; lia).
    destruct Ho as [[-> _]|[-> _]]; cbn -[array_loop Z.add]; rewrite andb_false_r; reflexivity. }
  assert (E2 : forall r j, j + 1 < length value -> array_loop cb value (c :: r) j (count + 1) start idx false false st = array_loop cb value r (j + 1) count start idx false false st).
  { intros r j Hj. cbn [array_loop]. replace (j =? length value - 1) with false by (symmetry; apply Nat.eqb_neq; lia).
    assert (EC : (count + 1 - 1 = count)%Z) by lia.
    destruct Ho as [[_ ->]|[_ ->]]; cbn -[array_loop Z.add Z.sub]; rewrite andb_false_r, EC; reflexivity. }
  rewrite E1, <- app_assoc, Hx by lia. cbn [app]. rewrite E2 by lia. f_equal. cbn [length]. rewrite app_length. cbn. lia.
Qed.
Lemma skips_parens items : Forall (skips 2) items -> skips 1 (parens items).
Proof. intros H. apply skips_group; [left; auto|lia|]. apply skips_join; [lia|exact H]. Qed.
Lemma skips_brackets items : Forall (skips 2) items -> skips 1 (brackets items).
Proof. intros H. apply skips_group; [right; auto|lia|]. apply skips_join; [lia|exact H]. Qed.

(** * arrayEach *)
Fixpoint fold_items {S} (cb : S -> bytes -> nat -> res S) (items : list bytes) (idx : nat) (st : S) : res S :=
  match items with
  | [] => Ok st
  | x :: items' => let* st := cb st x idx in fold_items cb items' (idx + 1) st
  end.
Lemma slice_mid (p x r : bytes) : slice (p ++ x ++ r) (length p) (length p + length x) = Ok x.
Proof.
  rewrite slice_ok by (rewrite ?app_length; lia). f_equal. rewrite skipn_app, skipn_all, Nat.sub_diag. cbn [skipn app].
  replace (length p + length x - length p) with (length x) by lia. rewrite firstn_app, firstn_all, Nat.sub_diag. cbn. apply app_nil_r.
Qed.
Lemma loop_items {S} (cb : S -> bytes -> nat -> res S) o c : closing o c -> forall items idx p st value, items <> [] -> Forall (skips 1) items ->
  value = p ++ join_byte items ","%byte ++ [c] ->
  array_loop cb value (join_byte items ","%byte ++ [c]) (length p) 1 (length p) idx false false st = fold_items cb items idx st.
Proof.
  intros Ho. induction items as [|x items IH]; intros idx p st value NE H Hv; [congruence|]. inversion H as [|? ? Hx Hr]; subst.
  destruct items as [|y items].
  - cbn [join_byte]. rewrite Hx; [|lia|rewrite !app_length; cbn; lia]. cbn [array_loop fold_items].
    replace (length p + length x =? length (p ++ x ++ [c]) - 1) with true by (symmetry; apply Nat.eqb_eq; rewrite !app_length; cbn; lia).
    rewrite slice_mid. destruct Ho as [[-> ->]|[-> ->]]; cbn -[array_loop Z.add Z.sub slice]; destruct (cb st x idx); reflexivity.
  - cbn [fold_items]. set (value := p ++ join_byte (x :: y :: items) "," ++ [c]).
    assert (Ev : value = p ++ x ++ [","%byte] ++ join_byte (y :: items) "," ++ [c]).
    { unfold value. change (join_byte (x :: y :: items) ","%byte) with (x ++ [","%byte] ++ join_byte (y :: items) ","%byte). rewrite <- !app_assoc. reflexivity. }
    change (join_byte (x :: y :: items) ","%byte) with (x ++ [","%byte] ++ join_byte (y :: items) ","%byte). rewrite <- !app_assoc.
    assert (LV : length value = length p + length x + 1 + length (join_byte (y :: items) ",") + 1) by (rewrite Ev, !app_length; cbn [length]; lia).
    rewrite Hx; [|lia|rewrite LV; lia]. cbn [app array_loop]. change (byte_eqb "," "\") with false. change (byte_eqb "," x22) with false. change (byte_eqb "," ",") with true.
    cbn [Z.eqb andb orb Pos.eqb]. assert (SL : slice value (length p) (length p + length x) = Ok x) by (rewrite Ev; apply slice_mid). rewrite SL. cbn [rbind]. destruct (cb st x idx) as [st1|e|w]; cbn [rbind]; try reflexivity.
    change (byte_eqb "," "[") with false. change (byte_eqb "," "]") with false. change (byte_eqb "," "(") with false. change (byte_eqb "," ")") with false. cbn iota.
    specialize (IH (idx + 1) (p ++ x ++ [","%byte]) st1 value). rewrite !app_length in IH. cbn [length] in IH. rewrite Nat.add_assoc in IH. apply IH; [discriminate|exact Hr|].
    rewrite Ev, <- !app_assoc. reflexivity.
Qed.
Lemma nth_last (p : bytes) c : nth (length (p ++ [c]) - 1) (p ++ [c]) x00 = c.
Proof. rewrite app_length. cbn [length]. rewrite Nat.add_sub, app_nth2, Nat.sub_diag by lia. reflexivity. Qed.
Lemma arrayEach_items {S} (cb : S -> bytes -> nat -> res S) o c items st : closing o c -> Forall (skips 1) items -> Forall (fun x => x <> []) items ->
  arrayEach cb ([o] ++ join_byte items ","%byte ++ [c]) st = fold_items cb items 0 st.
Proof.
  intros Ho H HN. destruct items as [|x items]; [reflexivity|].
  assert (J : 1 <= length (join_byte (x :: items) ",")).
  { rewrite join_concat, app_length. inversion HN as [|? ? X _]; subst. destruct x; [congruence|cbn; lia]. }
  unfold arrayEach. set (value := [o] ++ join_byte (x :: items) "," ++ [c]).
  assert (LV : length value = length (join_byte (x :: items) ",") + 2) by (unfold value; rewrite !app_length; cbn [length]; lia).
  replace (length value <? 2) with false by (symmetry; apply Nat.ltb_ge; lia). replace (length value =? 2) with false by (symmetry; apply Nat.eqb_neq; lia).
  assert (EL : nth (length value - 1) value x00 = c).
  { unfold value. rewrite app_assoc. apply nth_last. }
  rewrite EL. change (nth 0 value x00) with o.
  assert (E : array_loop cb value value 0 0 1 0 false false st = fold_items cb (x :: items) 0 st).
  { unfold value at 2. cbn [app array_loop]. replace (0 =? length value - 1) with false by (symmetry; apply Nat.eqb_neq; lia).
    rewrite <- (loop_items cb o c Ho (x :: items) 0 [o] st value); [|discriminate|exact H|reflexivity].
    destruct Ho as [[-> _]|[-> _]]; reflexivity. }
  rewrite E. destruct Ho as [[-> ->]|[-> ->]]; reflexivity.
Qed.
Lemma arrayEach_parens {S} (cb : S -> bytes -> nat -> res S) items st : Forall (skips 1) items -> Forall (fun x => x <> []) items ->
  arrayEach cb (parens items) st = fold_items cb items 0 st.
Proof. intros. apply (arrayEach_items cb "(" ")"); auto. left. auto. Qed.
Lemma arrayEach_brackets {S} (cb : S -> bytes -> nat -> res S) items st : Forall (skips 1) items -> Forall (fun x => x <> []) items ->
  arrayEach cb (brackets items) st = fold_items cb items 0 st.
Proof. intros. apply (arrayEach_items cb "[" "]"); auto. right. auto. Qed.
Lemma quoted_ne s : quoted s <> [].
Proof. discriminate. Qed.
Lemma parens_ne s : parens s <> [].
Proof. discriminate. Qed.
Lemma brackets_ne s : brackets s <> [].
Proof. discriminate. Qed.

Lemma unquote_quoted s : unquoteSlice (quoted s) = Ok s.
Proof.
  unfold unquoteSlice, quoted. replace (length ([x22] ++ s ++ [x22]) <? 2) with false by (symmetry; apply Nat.ltb_ge; rewrite !app_length; cbn; lia).
  assert (E : nth (length ([x22] ++ s ++ [x22]) - 1) ([x22] ++ s ++ [x22]) x00 = x22).
  { rewrite app_assoc. apply nth_last. }
  rewrite E. cbn [nth app]. cbn -[slice]. change (x22 :: s ++ [x22]) with ([x22] ++ s ++ [x22]).
  replace (length (s ++ [x22]) - 0) with (length [x22] + length s) by (rewrite app_length; cbn; lia). apply slice_mid.
Qed.
Lemma escaped_fixed_nobs s : ~ In "\"%byte (escaped s) -> escaped s = s.
Proof.
  intros H. rewrite <- (unescape_escaped s) at 2. revert H. generalize (escaped s). clear. intros l. induction l as [|c l IH]; intros H; [reflexivity|].
  cbn [unescape]. destruct (byte_eqb c "\") eqn:E; [exfalso; apply H; left; apply byte_eqb_eq; exact E|]. f_equal. apply IH. intros X. apply H. right. exact X.
Qed.
Lemma unquote_escaped s : unquote (quoted (escaped s)) = Ok s.
Proof.
  unfold unquote. rewrite unquote_quoted. cbn [rbind]. destruct (contains_byte (quoted (escaped s)) "\") eqn:E; cbn [negb]; [f_equal; apply unescape_escaped|].
  f_equal. apply contains_byte_false in E. apply escaped_fixed_nobs. intros H. apply E. unfold quoted. apply in_or_app. right. apply in_or_app. left. exact H.
Qed.
