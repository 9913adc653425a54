(** Bit-level lemmas about numbers and little-endian byte strings. *)
From Verif Require Import Base.Bytes Base.BytesFacts Model.Wire Model.Nixbase32 Spec.Base32Spec Proof.WireFacts.

Arguments N.add : simpl never.
Arguments N.sub : simpl never.
Arguments N.mul : simpl never.
Arguments N.modulo : simpl never.
Arguments N.div : simpl never.
Arguments N.pow : simpl never.

Lemma le_value_le_val b : le_value b = le_val b.
Proof. induction b as [|x b IH]; [reflexivity|]. cbn [le_value le_val fold_right]. fold (le_val b). rewrite IH. reflexivity. Qed.

Lemma add_lor_disjoint a b : N.land a b = 0%N -> (a + b)%N = N.lor a b.
Proof. intros H. rewrite N.add_nocarry_lxor by exact H. apply N.lxor_lor. exact H. Qed.

Lemma small_testbit a k m : (a < 2 ^ k)%N -> (k <= m)%N -> N.testbit a m = false.
Proof.
  intros H Hm. rewrite <- (N.mod_small a (2 ^ k) H). apply N.mod_pow2_bits_high. exact Hm.
Qed.

Lemma lor_shift_add a b k : (a < 2 ^ k)%N -> (a + 2 ^ k * b)%N = N.lor a (N.shiftl b k).
Proof.
  intros H. rewrite N.mul_comm, <- N.shiftl_mul_pow2. apply add_lor_disjoint.
  apply N.bits_inj. intros m. rewrite N.land_spec, N.bits_0.
  destruct (N.le_gt_cases k m) as [Hm|Hm].
  - rewrite (small_testbit a k m) by assumption. reflexivity.
  - rewrite N.shiftl_spec_low by exact Hm. apply andb_false_r.
Qed.

Lemma testbit_lt n k : (n < 2 ^ k)%N <-> N.shiftr n k = 0%N.
Proof.
  rewrite N.shiftr_div_pow2. split.
  - intros H. apply N.div_small. exact H.
  - intros H. apply N.div_small_iff; [apply N.pow_nonzero; discriminate|exact H].
Qed.

Lemma lor_lt a b k : (N.lor a b < 2 ^ k)%N <-> (a < 2 ^ k)%N /\ (b < 2 ^ k)%N.
Proof. rewrite !testbit_lt, N.shiftr_lor, N.lor_eq_0_iff. tauto. Qed.

(** * Bits of bytes *)
Lemma b2n_pow b : (b2n b < 2 ^ 8)%N.
Proof. apply b2n_lt. Qed.
Lemma byte_testbit_high b m : (8 <= m)%N -> N.testbit (b2n b) m = false.
Proof. intros H. apply (small_testbit _ 8); [apply b2n_pow|exact H]. Qed.
Lemma n2b_testbit n m : N.testbit (b2n (n2b n)) m = (m <? 8)%N && N.testbit n m.
Proof.
  rewrite b2n_n2b. change 256%N with (2 ^ 8)%N.
  destruct (N.ltb_spec m 8) as [H|H].
  - rewrite N.mod_pow2_bits_low by exact H. reflexivity.
  - rewrite N.mod_pow2_bits_high by exact H. reflexivity.
Qed.
Lemma byte_bits_inj a b : (forall m, (m < 8)%N -> N.testbit (b2n a) m = N.testbit (b2n b) m) -> a = b.
Proof.
  intros H. apply b2n_inj. apply N.bits_inj. intros m.
  destruct (N.lt_ge_cases m 8) as [Hm|Hm]; [apply H; exact Hm|].
  rewrite !byte_testbit_high by exact Hm. reflexivity.
Qed.
Lemma byte_or_testbit a b m : N.testbit (b2n (byte_or a b)) m = N.testbit (b2n a) m || N.testbit (b2n b) m.
Proof.
  unfold byte_or. rewrite n2b_testbit, N.lor_spec.
  destruct (N.ltb_spec m 8) as [H|H]; [reflexivity|].
  rewrite !byte_testbit_high by exact H. reflexivity.
Qed.
Lemma byte_shl_testbit a j m :
  N.testbit (b2n (byte_shl a j)) m = (m <? 8)%N && (N.of_nat j <=? m)%N && N.testbit (b2n a) (m - N.of_nat j).
Proof.
  unfold byte_shl. rewrite n2b_testbit, <- andb_assoc. f_equal.
  destruct (N.leb_spec (N.of_nat j) m) as [H|H].
  - rewrite N.shiftl_spec_high' by exact H. reflexivity.
  - rewrite N.shiftl_spec_low by exact H. reflexivity.
Qed.
Lemma byte_shr_testbit a j m :
  N.testbit (b2n (byte_shr a j)) m = N.testbit (b2n a) (m + N.of_nat j).
Proof.
  unfold byte_shr. rewrite n2b_testbit, N.shiftr_spec'.
  destruct (N.ltb_spec m 8) as [H|H]; [reflexivity|].
  rewrite byte_testbit_high by lia. reflexivity.
Qed.

(** Bits of a little-endian string. *)
Lemma le_val_testbit l m :
  N.testbit (le_val l) m = N.testbit (b2n (nth (N.to_nat (m / 8)) l x00)) (m mod 8).
Proof.
  revert m. induction l as [|b l IH]; intros m.
  - cbn [le_val fold_right]. rewrite N.bits_0.
    replace (nth (N.to_nat (m / 8)) [] x00) with x00 by (destruct (N.to_nat (m / 8)); reflexivity).
    symmetry. apply N.bits_0.
  - cbn [le_val fold_right]. fold (le_val l). change 256%N with (2 ^ 8)%N.
    rewrite lor_shift_add by apply b2n_pow. rewrite N.lor_spec.
    destruct (N.lt_ge_cases m 8) as [Hm|Hm].
    + rewrite N.shiftl_spec_low by exact Hm. rewrite orb_false_r.
      rewrite N.div_small, N.mod_small by exact Hm. reflexivity.
    + rewrite N.shiftl_spec_high' by exact Hm. rewrite byte_testbit_high by exact Hm.
      cbn [orb]. rewrite IH.
      replace ((m - 8) mod 8)%N with (m mod 8)%N.
      2:{ replace m with (m - 8 + 1 * 8)%N at 1 by lia. apply N.mod_add. discriminate. }
      replace (m / 8)%N with (1 + (m - 8) / 8)%N.
      2:{ replace m with (m - 8 + 1 * 8)%N at 2 by lia. rewrite N.div_add by discriminate. lia. }
      rewrite N2Nat.inj_add. reflexivity.
Qed.

Lemma le_val_inj a b : length a = length b -> le_val a = le_val b -> a = b.
Proof. intros Hl H. rewrite <- (le_bytes_le_val a), <- (le_bytes_le_val b), Hl, H. reflexivity. Qed.
Lemma le_bytes_length k n : length (le_bytes k n) = k.
Proof. revert n. induction k; intros n; cbn [le_bytes length]; auto. Qed.
Lemma le_val_zeros k : le_val (repeat x00 k) = 0%N.
Proof. induction k; [reflexivity|]. cbn [repeat le_val fold_right]. fold (le_val (repeat x00 k)). rewrite IHk. reflexivity. Qed.

Lemma upd_length l i f : length (upd l i f) = length l.
Proof. revert i. induction l as [|x l IH]; intros [|i]; cbn; auto. Qed.
Lemma upd_nth l i f k :
  i < length l ->
  nth k (upd l i f) x00 = if Nat.eqb k i then f (nth i l x00) else nth k l x00.
Proof.
  revert i k. induction l as [|x l IH]; intros [|i] [|k]; cbn [upd nth length Nat.eqb]; intros H; try lia; try reflexivity.
  apply IH. lia.
Qed.
Lemma upd_or_val l i c :
  i < length l ->
  le_val (upd l i (fun x => byte_or x c)) = N.lor (le_val l) (N.shiftl (b2n c) (8 * N.of_nat i)).
Proof.
  intros Hi. apply N.bits_inj. intros m. rewrite N.lor_spec, !le_val_testbit, upd_nth by exact Hi.
  destruct (Nat.eqb_spec (N.to_nat (m / 8)) i) as [E|E].
  - rewrite byte_or_testbit, E. f_equal.
    assert (Hm : m = (8 * N.of_nat i + m mod 8)%N).
    { rewrite (N.div_mod m 8) at 1 by discriminate. lia. }
    rewrite N.shiftl_spec_high' by lia. f_equal. lia.
  - assert (N.testbit (N.shiftl (b2n c) (8 * N.of_nat i)) m = false) as ->; [|symmetry; apply orb_false_r].
    pose proof (N.div_mod m 8 ltac:(discriminate)) as Hdm.
    pose proof (N.mod_lt m 8 ltac:(discriminate)) as Hml.
    destruct (N.lt_ge_cases m (8 * N.of_nat i)) as [H|H].
    + apply N.shiftl_spec_low. exact H.
    + rewrite N.shiftl_spec_high' by exact H. apply byte_testbit_high. lia.
Qed.
