From Verif Require Import Base.Bytes Base.BytesFacts Model.GoIO Model.GoStd Model.Nixhash Model.Storepath Model.Derivation Model.DrvParser Spec.StorePathSpec Spec.DerivationSpec
  Proof.StorePathProps Proof.DrvEncode Proof.DrvParse Proof.DrvRound Proof.DrvValidate Proof.DrvText.
Ltac Zify.zify_post_hook ::= idtac.

(** * Arrays *)
Lemma pieces_eq depth esc ins cur c s : pieces depth esc ins cur (c :: s) =
  if esc then pieces depth false ins (cur ++ [c]) s
  else if byte_eqb c "\"%byte then pieces depth true ins (cur ++ [c]) s
  else if byte_eqb c x22 then pieces depth false (negb ins) (cur ++ [c]) s
  else if ins then pieces depth false ins (cur ++ [c]) s
  else
    let depth' := if byte_eqb c "["%byte then (depth + 1)%Z else if byte_eqb c "]"%byte then (depth - 1)%Z
                  else if byte_eqb c "("%byte then (depth + 1)%Z else if byte_eqb c ")"%byte then (depth - 1)%Z else depth in
    match s with
    | [] => [cur]
    | _ => if Z.eqb depth 1 && byte_eqb c ","%byte then cur :: pieces depth' false false [] s else pieces depth' false false (cur ++ [c]) s
    end.
Proof. cbn [pieces]. destruct esc; [reflexivity|]. destruct c; reflexivity. Qed.
Lemma loop_pieces {S} (cb : S -> bytes -> nat -> res S) : forall rest pre cur count idx esc ins st,
  array_loop cb ((pre ++ cur) ++ rest) rest (length (pre ++ cur)) count (length pre) idx esc ins st = fold_items cb (pieces count esc ins cur rest) idx st.
Proof.
  induction rest as [|c rest IH]; intros pre cur count idx esc ins st; [reflexivity|]. rewrite pieces_eq. cbn [array_loop].
  assert (K : forall cur', cur' = cur ++ [c] -> (pre ++ cur) ++ c :: rest = (pre ++ cur') ++ rest /\ length (pre ++ cur) + 1 = length (pre ++ cur')).
  { intros cur' ->. split; [rewrite <- !app_assoc; reflexivity|rewrite !app_length; cbn [length]; lia]. }
  destruct (K _ eq_refl) as [K1 K2].
  assert (N : forall depth e i, array_loop cb ((pre ++ cur) ++ c :: rest) rest (length (pre ++ cur) + 1) depth (length pre) idx e i st = fold_items cb (pieces depth e i (cur ++ [c]) rest) idx st)
    by (intros; rewrite K1, K2; apply IH).
  destruct esc; [apply N|]. destruct (byte_eqb c "\"); [apply N|]. destruct (byte_eqb c x22); [apply N|]. destruct ins; [apply N|]. cbn zeta.
  set (d' := if byte_eqb c "[" then _ else _). clearbody d'.
  assert (L : (length (pre ++ cur) =? length ((pre ++ cur) ++ c :: rest) - 1) = match rest with [] => true | _ => false end).
  { rewrite (app_length (pre ++ cur)). cbn [length]. destruct rest; cbn [length]; [apply Nat.eqb_eq|apply Nat.eqb_neq]; lia. }
  rewrite L. assert (SL : slice ((pre ++ cur) ++ c :: rest) (length pre) (length (pre ++ cur)) = Ok cur).
  { rewrite <- app_assoc, app_length. apply (slice_mid pre cur (c :: rest)). }
  destruct rest as [|c2 rest].
  - rewrite orb_true_r. rewrite SL. cbn [rbind fold_items]. destruct (cb st cur idx); reflexivity.
  - rewrite orb_false_r. destruct (Z.eqb count 1 && byte_eqb c ",") eqn:E; [|apply N].
    rewrite SL. cbn [rbind fold_items]. destruct (cb st cur idx) as [st'|e|w]; cbn [rbind]; [|reflexivity|reflexivity].
    pose proof (IH ((pre ++ cur) ++ [c]) [] d' (idx + 1) false false st') as X. rewrite app_nil_r in X. rewrite app_length in X. cbn [length] in X.
    rewrite <- app_assoc in X. cbn [app] in X. rewrite <- app_assoc in X. rewrite <- app_assoc. exact X.
Qed.
Lemma arrayEach_of {S} (cb : S -> bytes -> nat -> res S) v items : array_of v items -> forall st, arrayEach cb v st = fold_items cb items 0 st.
Proof.
  intros [(L & ->)|(o & s & c & -> & NE & C & ->)] st; unfold arrayEach.
  - rewrite L. reflexivity.
  - assert (LL : length (o :: s ++ [c]) = length s + 2) by (cbn [length]; rewrite app_length; cbn; lia).
    assert (1 <= length s) by (destruct s; [congruence|cbn; lia]).
    replace (length (o :: s ++ [c]) <? 2) with false by (symmetry; apply Nat.ltb_ge; lia).
    replace (length (o :: s ++ [c]) =? 2) with false by (symmetry; apply Nat.eqb_neq; lia).
    assert (X : array_loop cb (o :: s ++ [c]) (o :: s ++ [c]) 0 0 1 0 false false st = fold_items cb (pieces 1 false false [] (s ++ [c])) 0 st).
    { rewrite <- (loop_pieces cb (s ++ [c]) [o] [] 1 0 false false st). cbn [app length]. cbn [array_loop].
      assert (NL : (0 =? length (o :: s ++ [c]) - 1) = false) by (apply Nat.eqb_neq; lia). rewrite NL.
      destruct C as [[-> ->]|[-> ->]]; reflexivity. }
    pose proof (nth_last (o :: s) c) as NL. cbn [app] in NL. rewrite NL. change (nth 0 (o :: s ++ [c]) x00) with o. destruct C as [[-> ->]|[-> ->]]; cbn [byte_eqb Byte.eqb Byte.to_bits]; exact X.
Qed.
Lemma arrayEach_inv {S} (cb : S -> bytes -> nat -> res S) v : (exists items, array_of v items) \/ forall st, exists e, arrayEach cb v st = Err e.
Proof.
  unfold arrayEach. destruct (length v <? 2) eqn:L1; [right; eauto|]. destruct (length v =? 2) eqn:L2.
  - left. exists []. left. apply Nat.eqb_eq in L2. auto.
  - apply Nat.ltb_ge in L1. apply Nat.eqb_neq in L2. destruct v as [|o v]; [cbn in L1; lia|]. cbn [length] in L1, L2.
    destruct (exists_last (l := v)) as (s & c & ->); [destruct v; [cbn in L1; lia|discriminate]|].
    rewrite app_length in L1, L2. cbn [length] in L1, L2. pose proof (nth_last (o :: s) c) as NL. cbn [app] in NL. rewrite NL. change (nth 0 (o :: s ++ [c]) x00) with o.
    destruct (byte_eqb_spec o "("%byte) as [->|N1].
    + destruct (byte_eqb_spec c ")"%byte) as [->|N2]; cbn [negb]; [|right; eauto]. left. eexists. right. exists "("%byte, s, ")"%byte.
      split; [reflexivity|]. split; [destruct s; [cbn in L2; lia|discriminate]|]. split; [left; auto|reflexivity].
    + destruct (byte_eqb_spec o "["%byte) as [->|N3]; [|right; eauto].
      destruct (byte_eqb_spec c "]"%byte) as [->|N2]; cbn [negb]; [|right; eauto]. left. eexists. right. exists "["%byte, s, "]"%byte.
      split; [reflexivity|]. split; [destruct s; [cbn in L2; lia|discriminate]|]. split; [right; auto|reflexivity].
Qed.
Lemma array_unique v i1 i2 : array_of v i1 -> array_of v i2 -> i1 = i2.
Proof.
  intros A B. pose proof (arrayEach_of (fun st x _ => Ok (st ++ [x])) v i1 A []) as X. pose proof (arrayEach_of (fun st x _ => Ok (st ++ [x])) v i2 B []) as Y.
  assert (F : forall l i (st : list bytes), fold_items (fun st x _ => Ok (st ++ [x])) l i st = Ok (st ++ l)).
  { induction l as [|x l IH]; intros i st; cbn [fold_items rbind]; [rewrite app_nil_r; reflexivity|]. rewrite IH, <- app_assoc. reflexivity. }
  rewrite F in X, Y. cbn [app] in X, Y. congruence.
Qed.
Lemma arrayEach_ok {S} (cb : S -> bytes -> nat -> res S) v st st' : arrayEach cb v st = Ok st' <-> exists items, array_of v items /\ fold_items cb items 0 st = Ok st'.
Proof.
  split.
  - intros H. destruct (arrayEach_inv cb v) as [(items & A)|E]; [|destruct (E st) as (e & X); congruence]. exists items. split; [exact A|]. rewrite <- H. symmetry. apply arrayEach_of. exact A.
  - intros (items & A & F). rewrite <- F. apply arrayEach_of. exact A.
Qed.
Lemma fold_no_panic {S} (cb : S -> bytes -> nat -> res S) : (forall st v i, is_panic (cb st v i) = false) -> forall l i st, is_panic (fold_items cb l i st) = false.
Proof.
  intros H. induction l as [|x l IH]; intros i st; cbn [fold_items]; [reflexivity|]. specialize (H st x i). destruct (cb st x i); cbn [rbind]; [apply IH|reflexivity|discriminate].
Qed.
Lemma arrayEach_no_panic {S} (cb : S -> bytes -> nat -> res S) v st : (forall st v i, is_panic (cb st v i) = false) -> is_panic (arrayEach cb v st) = false.
Proof.
  intros H. destruct (arrayEach_inv cb v) as [(items & A)|E]; [|destruct (E st) as (e & X); rewrite X; reflexivity]. rewrite (arrayEach_of cb v items A). apply fold_no_panic. exact H.
Qed.

(** * Strings *)
Lemma unquoteSlice_iff v s : unquoteSlice v = Ok s <-> v = quoted s.
Proof.
  split; [|intros ->; apply unquote_quoted]. unfold unquoteSlice. destruct (length v <? 2) eqn:L; [discriminate|]. apply Nat.ltb_ge in L.
  destruct v as [|a v]; [cbn in L; lia|]. destruct (exists_last (l := v)) as (m & b & ->); [destruct v; [cbn in L; lia|discriminate]|].
  change (a :: m ++ [b]) with ((a :: m) ++ [b]). rewrite nth_last. cbn [app nth]. destruct (byte_eqb_spec a x22) as [->|]; [|discriminate]. destruct (byte_eqb_spec b x22) as [->|]; [|discriminate].
  cbn [negb orb]. intros H. replace (length (x22 :: m ++ [x22]) - 1) with (length [x22] + length m) in H by (cbn [length]; rewrite app_length; cbn; lia).
  change (x22 :: m ++ [x22]) with ([x22] ++ m ++ [x22]) in H. change 1 with (length [x22]) in H at 1. rewrite slice_mid in H. injection H as <-. reflexivity.
Qed.
Lemma unquoteSlice_cases v : (exists s, v = quoted s /\ unquoteSlice v = Ok s) \/ exists e, unquoteSlice v = Err e.
Proof.
  destruct (unquoteSlice v) as [s|e|w] eqn:E; [left|right; eauto|exfalso].
  - exists s. split; [apply unquoteSlice_iff; exact E|reflexivity].
  - revert E. unfold unquoteSlice. destruct (length v <? 2) eqn:L; [discriminate|]. destruct (_ || _); [discriminate|]. apply Nat.ltb_ge in L. unfold slice.
    replace (1 <=? length v - 1) with true by (symmetry; apply Nat.leb_le; lia). replace (length v - 1 <=? length v) with true by (symmetry; apply Nat.leb_le; lia). discriminate.
Qed.
Lemma unescape_byte_eq c : unescape_byte c = unescaped_char c.
Proof. destruct c; reflexivity. Qed.
Lemma unescape_eq : forall n s, length s <= n -> unescape s = unescaped s.
Proof.
  induction n as [|n IH]; intros s L; [destruct s; [reflexivity|cbn in L; lia]|].
  destruct s as [|c s]; [reflexivity|]. cbn [length] in L. cbn [unescape]. destruct (byte_eqb_spec c "\"%byte) as [->|NC].
  - destruct s as [|x s]; [reflexivity|]. cbn [unescaped]. rewrite unescape_byte_eq. cbn [length] in L. destruct (unescaped_char x); [f_equal; apply IH; lia|].
    f_equal. rewrite IH by (cbn; lia). reflexivity.
  - rewrite IH by lia. destruct c; try reflexivity. congruence.
Qed.
Lemma unescaped_plain s : ~ In "\"%byte s -> unescaped s = s.
Proof.
  induction s as [|c s IH]; intros H; [reflexivity|]. cbn [In] in H. cbn [unescaped]. destruct c; try (f_equal; apply IH; tauto). exfalso. apply H. left. reflexivity.
Qed.
Lemma unquote_ok v x : unquote v = Ok x <-> exists w, v = quoted w /\ x = unescaped w.
Proof.
  unfold unquote. destruct (unquoteSlice_cases v) as [(s & E & E1)|(e & E0)]; [rewrite E1|rewrite E0]; cbn [rbind].
  - assert (U : forall y, y = unescaped s <-> (exists w, v = quoted w /\ y = unescaped w)).
    { intros y. split; [eauto|]. intros (w & A & B). assert (X : unquoteSlice v = Ok w) by (apply unquoteSlice_iff; exact A).
      assert (Y : unquoteSlice v = Ok s) by (apply unquoteSlice_iff; exact E). congruence. }
    rewrite <- U. destruct (contains_byte v "\") eqn:C; cbn [negb].
    + rewrite (unescape_eq (length s) s (le_n _)). split; [intros H; injection H as <-; reflexivity|intros ->; reflexivity].
    + apply contains_byte_false in C. rewrite unescaped_plain; [split; [intros H; injection H as <-; reflexivity|intros ->; reflexivity]|].
      intros X. apply C. rewrite E. unfold quoted. apply in_or_app. right. apply in_or_app. left. exact X.
  - split; [discriminate|]. intros (w & A & _). subst v. rewrite unquote_quoted in E0. discriminate.
Qed.
