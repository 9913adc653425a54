(** nixbase32: the loops against the numeric specification. *)
From Verif Require Import Base.Bytes Base.BytesFacts Model.Wire Model.Nixbase32 Spec.Base32Spec
  Proof.WireFacts Proof.Bits.

Arguments N.add : simpl never.
Arguments N.sub : simpl never.
Arguments N.mul : simpl never.
Arguments N.modulo : simpl never.
Arguments N.div : simpl never.
Arguments N.pow : simpl never.
Arguments Nat.div : simpl never.
Arguments Nat.modulo : simpl never.

(** * Lengths *)
Lemma EncodedLen_min m : min_chars m (EncodedLen m).
Proof.
  unfold min_chars, EncodedLen. pose proof (Nat.div_mod (m * 8 + 4) 5 ltac:(discriminate)).
  pose proof (Nat.mod_upper_bound (m * 8 + 4) 5 ltac:(discriminate)). split; intros; lia.
Qed.
Lemma min_chars_EncodedLen m n : min_chars m n -> n = EncodedLen m.
Proof. intros [H1 H2]. destruct (EncodedLen_min m) as [H3 H4]. apply Nat.le_antisymm; auto. Qed.
Lemma DecodedLen_EncodedLen m : DecodedLen (EncodedLen m) = m.
Proof.
  unfold DecodedLen, EncodedLen.
  pose proof (Nat.div_mod (m * 8 + 4) 5 ltac:(discriminate)).
  pose proof (Nat.mod_upper_bound (m * 8 + 4) 5 ltac:(discriminate)).
  set (q := (m * 8 + 4) / 5) in *.
  symmetry. apply (Nat.div_unique _ _ _ (q * 5 - 8 * m)); lia.
Qed.
Lemma min_chars_DecodedLen m n : min_chars m n -> m = DecodedLen n.
Proof. intros H. rewrite (min_chars_EncodedLen m n H). symmetry. apply DecodedLen_EncodedLen. Qed.

Definition canon (n : nat) : Prop := n = EncodedLen (DecodedLen n).
Lemma canon_iff n : canon n <-> exists m, min_chars m n.
Proof.
  unfold canon. split.
  - intros E. exists (DecodedLen n). rewrite E at 2. apply EncodedLen_min.
  - intros [m H]. rewrite <- (min_chars_DecodedLen m n H). apply min_chars_EncodedLen. exact H.
Qed.
Lemma canon_dec n : {canon n} + {~ canon n}.
Proof. apply Nat.eq_dec. Qed.
(** Every digit of a canonical string starts inside the output. *)
Lemma canon_index n p : canon n -> p < n -> p * 5 / 8 < DecodedLen n.
Proof.
  unfold canon. intros E Hp. apply Nat.div_lt_upper_bound; [discriminate|].
  set (m := DecodedLen n) in *.
  destruct (EncodedLen_min m) as [_ H]. rewrite <- E in H.
  destruct (Nat.lt_ge_cases (p * 5) (8 * m)) as [|Hge]; [assumption|].
  assert (n <= p) by (apply H; lia). lia.
Qed.
(** The last digit of a non-canonical string lies outside. *)
Lemma noncanon_index n : ~ canon n -> 0 < n /\ DecodedLen n <= (n - 1) * 5 / 8.
Proof.
  intros Hc. assert (Hn : 0 < n).
  { destruct n; [|lia]. exfalso. apply Hc. reflexivity. }
  split; [exact Hn|].
  destruct (Nat.le_gt_cases (DecodedLen n) ((n - 1) * 5 / 8)) as [|Hlt]; [assumption|exfalso].
  apply Hc. apply canon_iff. exists (DecodedLen n). split.
  - unfold DecodedLen. pose proof (Nat.mul_div_le (n * 5) 8 ltac:(discriminate)). lia.
  - intros k Hk. destruct (Nat.le_gt_cases n k) as [|Hkn]; [assumption|exfalso].
    assert (8 * DecodedLen n <= (n - 1) * 5) by lia.
    assert (DecodedLen n <= (n - 1) * 5 / 8) by (apply Nat.div_le_lower_bound; [discriminate|lia]).
    lia.
Qed.

(** * Digits *)
Lemma alphabet_nth_index d : d < 32 -> index_byte Alphabet (nth d Alphabet x00) = Some d.
Proof. intros H. do 32 (destruct d as [|d]; [reflexivity|]). lia. Qed.
Lemma index_lt c d : index_byte Alphabet c = Some d -> d < 32 /\ nth d Alphabet x00 = c.
Proof.
  intros H. apply index_byte_some in H. destruct H as (p & r & E & <- & _). split.
  - change 32 with (length Alphabet). rewrite E, app_length. cbn. lia.
  - rewrite E. rewrite app_nth2, Nat.sub_diag by lia. reflexivity.
Qed.
Definition dig (c : byte) : option N :=
  match index_byte Alphabet c with Some d => Some (N.of_nat d) | None => None end.
Lemma dig_lt c d : dig c = Some d -> (d < 32)%N.
Proof.
  unfold dig. destruct (index_byte Alphabet c) eqn:E; [|discriminate]. intros [= <-].
  apply index_lt in E. lia.
Qed.
Lemma dig_is_digit c d : dig c = Some d <-> is_digit c d.
Proof.
  unfold dig, is_digit. change b32_alphabet with Alphabet. split.
  - destruct (index_byte Alphabet c) as [k|] eqn:E; [|discriminate]. intros [= <-].
    rewrite Nat2N.id. apply index_lt in E. destruct E as [Hk <-].
    apply nth_error_nth'. exact Hk.
  - intros H. assert (Hl : N.to_nat d < 32).
    { change 32 with (length Alphabet). apply nth_error_Some. congruence. }
    apply nth_error_nth with (d := x00) in H. rewrite <- H, alphabet_nth_index by exact Hl.
    rewrite N2Nat.id. reflexivity.
Qed.
Lemma dig_in c : dig c <> None <-> In c Alphabet.
Proof.
  unfold dig. destruct (index_byte Alphabet c) eqn:E.
  - split; [|discriminate]. intros _. apply index_byte_some in E. destruct E as (p & r & -> & _).
    apply in_elt.
  - apply index_byte_none in E. tauto.
Qed.

(** Value of the characters, least significant first. *)
Fixpoint rval (r : bytes) : option N :=
  match r with
  | [] => Some 0%N
  | c :: r' => match dig c, rval r' with Some d, Some v => Some (d + 32 * v)%N | _, _ => None end
  end.
Lemma rval_value s v : b32_value s v <-> rval (rev s) = Some v.
Proof.
  split.
  - induction 1 as [|s v c d H IH Hd]; [reflexivity|].
    rewrite rev_app_distr. cbn [rev app rval]. rewrite (proj2 (dig_is_digit c d) Hd), IH.
    f_equal. lia.
  - revert v. induction s as [|c s IH] using rev_ind; intros v.
    + cbn. intros [= <-]. constructor.
    + rewrite rev_app_distr. cbn [rev app rval].
      destruct (dig c) as [d|] eqn:Ed; [|discriminate].
      destruct (rval (rev s)) as [v'|] eqn:Ev; [|discriminate]. intros [= <-].
      replace (d + 32 * v')%N with (32 * v' + d)%N by lia.
      constructor; [apply IH; reflexivity|apply dig_is_digit; exact Ed].
Qed.
Lemma rval_bound r v : rval r = Some v -> (v < 32 ^ lenN r)%N.
Proof.
  revert v. induction r as [|c r IH]; intros v; cbn [rval].
  - intros [= <-]. reflexivity.
  - destruct (dig c) as [d|] eqn:Ed; [|discriminate].
    destruct (rval r) as [w|]; [|discriminate]. intros [= <-].
    rewrite lenN_cons, N.pow_succ_r by lia. apply dig_lt in Ed. specialize (IH w eq_refl). lia.
Qed.
Lemma rval_inj r1 r2 v : length r1 = length r2 -> rval r1 = Some v -> rval r2 = Some v -> r1 = r2.
Proof.
  revert r2 v. induction r1 as [|c r1 IH]; intros [|c2 r2] v Hl; try discriminate; [reflexivity|].
  cbn [rval]. destruct (dig c) as [d|] eqn:Ed; [|discriminate].
  destruct (rval r1) as [w|] eqn:Ew; [|discriminate]. intros [= <-].
  destruct (dig c2) as [d2|] eqn:Ed2; [|discriminate].
  destruct (rval r2) as [w2|] eqn:Ew2; [|discriminate]. intros [= E].
  pose proof (dig_lt _ _ Ed). pose proof (dig_lt _ _ Ed2).
  assert (d2 = d /\ w2 = w) as [-> ->] by lia.
  f_equal.
  - apply dig_is_digit in Ed, Ed2. unfold is_digit in *. congruence.
  - injection Hl as Hl. eapply IH; eauto.
Qed.

(** * Encoding *)
Lemma shift_div v n : (v / 32 ^ N.of_nat n)%N = N.shiftr v (N.of_nat (n * 5)).
Proof.
  rewrite N.shiftr_div_pow2. f_equal. change 32%N with (2 ^ 5)%N. rewrite <- N.pow_mul_r. f_equal. lia.
Qed.
Lemma encode_digit src n :
  b2n (byte_and (let c := byte_shr (nth (n * 5 / 8) src x00) (n * 5 mod 8) in
                 if n * 5 / 8 + 1 <? length src
                 then byte_or c (byte_shl (nth (n * 5 / 8 + 1) src x00) (8 - n * 5 mod 8)) else c) x1f)
  = ((le_val src / 32 ^ N.of_nat n) mod 32)%N.
Proof.
  set (i := n * 5 / 8). set (j := n * 5 mod 8).
  assert (Hb : n * 5 = 8 * i + j) by apply (Nat.div_mod (n * 5) 8 ltac:(discriminate)).
  assert (Hj : j < 8) by (apply Nat.mod_upper_bound; discriminate).
  clearbody i j.
  assert (Hc : forall m, N.testbit (b2n (let c := byte_shr (nth i src x00) j in
                 if i + 1 <? length src
                 then byte_or c (byte_shl (nth (i + 1) src x00) (8 - j)) else c)) m =
               N.testbit (b2n (nth i src x00)) (m + N.of_nat j) ||
               ((m <? 8)%N && (8 <=? m + N.of_nat j)%N && N.testbit (b2n (nth (i + 1) src x00)) (m + N.of_nat j - 8))).
  { intros m. cbv zeta. destruct (Nat.ltb_spec (i + 1) (length src)) as [Hlt|Hge].
    - rewrite byte_or_testbit, byte_shr_testbit, byte_shl_testbit. f_equal.
      destruct (N.leb_spec (N.of_nat (8 - j)) m), (N.leb_spec 8 (m + N.of_nat j)); try lia.
      f_equal. f_equal. lia.
    - rewrite byte_shr_testbit, (nth_overflow src (n := i + 1)) by lia.
      change (b2n x00) with 0%N. rewrite N.bits_0.
      rewrite andb_false_r. symmetry. apply orb_false_r. }
  match goal with |- b2n (byte_and ?x _) = _ => revert Hc; generalize x end. intros c Hc.
  apply N.bits_inj. intros t. unfold byte_and. rewrite n2b_testbit, N.land_spec.
  change (b2n x1f) with (N.ones 5). change 32%N with (2 ^ 5)%N at 2.
  rewrite shift_div.
  destruct (N.lt_ge_cases t 5) as [Ht|Ht].
  - rewrite N.ones_spec_low, N.mod_pow2_bits_low by exact Ht. rewrite andb_true_r.
    destruct (N.ltb_spec t 8); [|lia]. cbn [andb].
    rewrite Hc, N.shiftr_spec', le_val_testbit. destruct (N.ltb_spec t 8); [|lia]. cbn [andb].
    replace (t + N.of_nat (n * 5))%N with (t + N.of_nat j + N.of_nat i * 8)%N by lia.
    rewrite N.div_add, N.mod_add by discriminate.
    destruct (N.leb_spec 8 (t + N.of_nat j)) as [H8|H8].
    + replace ((t + N.of_nat j) / 8)%N with 1%N.
      2:{ apply (N.div_unique _ _ _ (t + N.of_nat j - 8)); lia. }
      replace ((t + N.of_nat j) mod 8)%N with (t + N.of_nat j - 8)%N.
      2:{ apply (N.mod_unique _ _ 1); lia. }
      rewrite byte_testbit_high by lia. cbn [orb andb]. do 3 f_equal. lia.
    + rewrite N.div_small, N.mod_small by lia. cbn [andb]. rewrite orb_false_r.
      do 3 f_equal. lia.
  - rewrite N.ones_spec_high, N.mod_pow2_bits_high by exact Ht. rewrite !andb_false_r. reflexivity.
Qed.

Lemma encode_char_spec src n :
  dig (encode_char src n) = Some ((le_val src / 32 ^ N.of_nat n) mod 32)%N.
Proof.
  unfold encode_char. cbv zeta. pose proof (encode_digit src n) as H. cbv zeta in H. rewrite H.
  unfold dig. pose proof (N.mod_lt (le_val src / 32 ^ N.of_nat n) 32 ltac:(discriminate)).
  rewrite alphabet_nth_index by lia. rewrite N2Nat.id. reflexivity.
Qed.

Lemma encode_loop_length src k : length (encode_loop src k) = k.
Proof. induction k; cbn [encode_loop length]; auto. Qed.

Fixpoint encode_rev (src : bytes) (n k : nat) : bytes :=
  match k with O => [] | S k' => encode_char src n :: encode_rev src (S n) k' end.
Lemma encode_rev_snoc src n k : encode_rev src n (S k) = encode_rev src n k ++ [encode_char src (n + k)].
Proof.
  revert n. induction k as [|k IH]; intros n.
  - cbn. rewrite Nat.add_0_r. reflexivity.
  - cbn [encode_rev] in *. rewrite IH. replace (n + S k) with (S n + k) by lia. reflexivity.
Qed.
Lemma encode_loop_rev src k : rev (encode_loop src k) = encode_rev src 0 k.
Proof.
  induction k as [|k IH]; [reflexivity|].
  rewrite encode_rev_snoc. cbn [encode_loop rev]. rewrite IH. reflexivity.
Qed.
Lemma encode_rev_val src n k :
  rval (encode_rev src n k) = Some ((le_val src / 32 ^ N.of_nat n) mod 32 ^ N.of_nat k)%N.
Proof.
  revert n. induction k as [|k IH]; intros n; cbn [encode_rev rval].
  - change (32 ^ N.of_nat 0)%N with 1%N. rewrite N.mod_1_r. reflexivity.
  - rewrite encode_char_spec, IH. f_equal.
    rewrite (Nat2N.inj_succ k), N.pow_succ_r by lia.
    rewrite N.mod_mul_r by (try apply N.pow_nonzero; discriminate). f_equal. f_equal.
    rewrite Nat2N.inj_succ, N.pow_succ_r, N.div_div by (try apply N.pow_nonzero; try discriminate; lia).
    f_equal. f_equal. lia.
Qed.

Lemma pow_256_32 m n : 8 * m <= 5 * n -> (256 ^ N.of_nat m <= 32 ^ N.of_nat n)%N.
Proof.
  intros H. change 256%N with (2 ^ 8)%N. change 32%N with (2 ^ 5)%N. rewrite <- !N.pow_mul_r.
  apply N.pow_le_mono_r; [discriminate|]. lia.
Qed.

Lemma encode_form b : b32_form (EncodeToString b) b.
Proof.
  unfold b32_form, EncodeToString. rewrite encode_loop_length. split; [apply EncodedLen_min|].
  apply rval_value. rewrite le_value_le_val, encode_loop_rev, encode_rev_val.
  f_equal. change (32 ^ N.of_nat 0)%N with 1%N. rewrite N.div_1_r. apply N.mod_small.
  eapply N.lt_le_trans; [apply le_val_bound|]. apply pow_256_32. apply EncodedLen_min.
Qed.
Lemma form_unique_string b s1 s2 : b32_form s1 b -> b32_form s2 b -> s1 = s2.
Proof.
  intros [M1 V1] [M2 V2]. apply rval_value in V1, V2.
  rewrite <- (rev_involutive s1), <- (rev_involutive s2). f_equal.
  eapply rval_inj; eauto. rewrite !rev_length.
  rewrite (min_chars_EncodedLen _ _ M1), (min_chars_EncodedLen _ _ M2). reflexivity.
Qed.
Lemma form_unique_bytes s b1 b2 : b32_form s b1 -> b32_form s b2 -> b1 = b2.
Proof.
  intros [M1 V1] [M2 V2]. apply rval_value in V1, V2. rewrite !le_value_le_val in *.
  apply le_val_inj; [|congruence].
  rewrite (min_chars_DecodedLen _ _ M1), (min_chars_DecodedLen _ _ M2). reflexivity.
Qed.

(** * Decoding: the loop as a recursion over the reversed string *)
Fixpoint decode_r (maxDst : nat) (r : bytes) (n : nat) (dst : bytes) : res nat * bytes :=
  match r with
  | [] => (Ok maxDst, dst)
  | c :: r' =>
      let i := n * 5 / 8 in
      let j := n * 5 mod 8 in
      match index_byte Alphabet c with
      | None => (Err (EMsg "character not in Nix alphabet"), dst)
      | Some digit =>
          if length dst <=? i then (Err (EMsg "ErrInvalidHash"), dst)
          else
            let d := n2b (N.of_nat digit) in
            let dst1 := upd dst i (fun x => byte_or x (byte_shl d j)) in
            let carry := byte_shr d (8 - j) in
            if i + 1 <? maxDst then
              if i + 1 <? length dst1
              then decode_r maxDst r' (S n) (upd dst1 (i + 1) (fun x => byte_or x carry))
              else (Panic "index out of range", dst1)
            else if negb (byte_eqb carry x00) then (Err (EMsg "non-zero padding"), dst1)
            else decode_r maxDst r' (S n) dst1
      end
  end.

Lemma nth_error_rev (l : bytes) n : n < length l -> nth_error l (length l - n - 1) = nth_error (rev l) n.
Proof.
  intros H. rewrite (nth_error_nth' l x00) by lia. rewrite (nth_error_nth' (rev l) x00) by (rewrite rev_length; lia).
  rewrite rev_nth by lia. do 2 f_equal. lia.
Qed.
Lemma skipn_cons_nth {A} (l : list A) n x : nth_error l n = Some x -> skipn n l = x :: skipn (S n) l.
Proof.
  revert n. induction l as [|y l IH]; intros [|n]; cbn; try discriminate; [intros [= ->]; reflexivity|apply IH].
Qed.

Lemma decode_loop_r src maxDst k n dst :
  n + k = length src ->
  decode_loop src maxDst k n dst = decode_r maxDst (skipn n (rev src)) n dst.
Proof.
  revert n dst. induction k as [|k IH]; intros n dst Hn.
  - rewrite skipn_all2 by (rewrite rev_length; lia). reflexivity.
  - cbn [decode_loop]. unfold decode_step. rewrite nth_error_rev by lia.
    destruct (nth_error (rev src) n) as [c|] eqn:E.
    2:{ apply nth_error_None in E. rewrite rev_length in E. lia. }
    rewrite (skipn_cons_nth _ _ _ E). cbn [decode_r].
    destruct (index_byte Alphabet c) as [d|]; [|reflexivity].
    destruct (length dst <=? n * 5 / 8); [reflexivity|].
    destruct (n * 5 / 8 + 1 <? maxDst).
    + destruct (_ <? length (upd _ _ _)); [|reflexivity]. apply IH. lia.
    + destruct (negb _); [reflexivity|]. apply IH. lia.
Qed.
Lemma Decode_r dst s : Decode dst s = decode_r (DecodedLen (length s)) (rev s) 0 dst.
Proof. unfold Decode. rewrite decode_loop_r by lia. reflexivity. Qed.

(** What one digit contributes. *)
Lemma shl_shr_split d i j n :
  n * 5 = 8 * i + j -> j < 8 -> (b2n d < 32)%N ->
  N.lor (N.shiftl (b2n (byte_shl d j)) (8 * N.of_nat i)) (N.shiftl (b2n (byte_shr d (8 - j))) (8 * N.of_nat (i + 1)))
  = N.shiftl (b2n d) (N.of_nat (n * 5)).
Proof.
  intros Hb Hj Hd. apply N.bits_inj. intros m. rewrite N.lor_spec.
  destruct (N.lt_ge_cases m (8 * N.of_nat i)) as [H1|H1].
  { rewrite !N.shiftl_spec_low by lia. reflexivity. }
  rewrite N.shiftl_spec_high' by lia. rewrite byte_shl_testbit.
  destruct (N.lt_ge_cases m (8 * N.of_nat (i + 1))) as [H2|H2].
  - rewrite (N.shiftl_spec_low _ (8 * N.of_nat (i + 1))) by lia. rewrite orb_false_r.
    destruct (N.ltb_spec (m - 8 * N.of_nat i) 8); [|lia]. cbn [andb].
    destruct (N.leb_spec (N.of_nat j) (m - 8 * N.of_nat i)) as [H3|H3]; cbn [andb].
    + rewrite N.shiftl_spec_high' by lia. f_equal. lia.
    + rewrite N.shiftl_spec_low by lia. reflexivity.
  - destruct (N.ltb_spec (m - 8 * N.of_nat i) 8); [lia|]. cbn [andb orb].
    rewrite N.shiftl_spec_high' by lia. rewrite byte_shr_testbit.
    rewrite N.shiftl_spec_high' by lia. f_equal. lia.
Qed.
Lemma carry_zero d i j n :
  n * 5 = 8 * i + j -> j < 8 -> (b2n d < 32)%N ->
  (byte_shr d (8 - j) = x00 <-> (N.shiftl (b2n d) (N.of_nat (n * 5)) < 2 ^ (8 * N.of_nat (i + 1)))%N).
Proof.
  intros Hb Hj Hd. rewrite <- (shl_shr_split d i j n) by assumption. rewrite lor_lt. split.
  - intros ->. change (b2n x00) with 0%N. rewrite N.shiftl_0_l. split.
    + rewrite N.shiftl_mul_pow2. replace (8 * N.of_nat (i + 1))%N with (8 + 8 * N.of_nat i)%N by lia.
      rewrite N.pow_add_r. apply N.mul_lt_mono_pos_r; [apply N.neq_0_lt_0, N.pow_nonzero; discriminate|].
      apply b2n_pow.
    + apply N.neq_0_lt_0, N.pow_nonzero. discriminate.
  - intros [_ H]. apply b2n_inj. change (b2n x00) with 0%N.
    rewrite N.shiftl_mul_pow2 in H.
    assert (Hp : (0 < 2 ^ (8 * N.of_nat (i + 1)))%N) by (apply N.neq_0_lt_0, N.pow_nonzero; discriminate).
    nia.
Qed.

Lemma shift_mul d n : N.shiftl d (N.of_nat (n * 5)) = (32 ^ N.of_nat n * d)%N.
Proof.
  rewrite N.shiftl_mul_pow2, N.mul_comm. f_equal. change 32%N with (2 ^ 5)%N. rewrite <- N.pow_mul_r. f_equal. lia.
Qed.
Lemma digits_lor d v n :
  (d < 32)%N ->
  (32 ^ N.of_nat n * (d + 32 * v))%N = N.lor (N.shiftl d (N.of_nat (n * 5))) (32 ^ N.of_nat (S n) * v)%N.
Proof.
  intros Hd. change 32%N with (2 ^ 5)%N in Hd. 
  rewrite <- !shift_mul. change (d + 32 * v)%N with (d + 2 ^ 5 * v)%N.
  rewrite (lor_shift_add d v 5) by exact Hd. rewrite N.shiftl_lor, N.shiftl_shiftl.
  do 2 f_equal. lia.
Qed.

(** The decoder on a string all of whose digits start inside dst. *)
Lemma decode_r_spec maxDst r n dst :
  maxDst <= length dst ->
  (forall p, p < n + length r -> p * 5 / 8 < maxDst) ->
  let ok := match rval r with
            | Some v => (32 ^ N.of_nat n * v <? 2 ^ (8 * N.of_nat maxDst))%N
            | None => false
            end in
  exists dst', length dst' = length dst /\
    (if ok then decode_r maxDst r n dst = (Ok maxDst, dst') /\
                match rval r with
                | Some v => le_val dst' = N.lor (le_val dst) (32 ^ N.of_nat n * v)%N
                | None => False
                end
     else exists e, decode_r maxDst r n dst = (Err e, dst')).
Proof.
  cbv zeta. revert n dst. induction r as [|c r IH]; intros n dst Hlen Hidx.
  - exists dst. split; [reflexivity|]. cbn [rval decode_r]. rewrite N.mul_0_r, N.lor_0_r.
    assert (Hp : (0 <? 2 ^ (8 * N.of_nat maxDst))%N = true).
    { apply N.ltb_lt. apply N.neq_0_lt_0, N.pow_nonzero. discriminate. }
    rewrite Hp. auto.
  - cbn [rval decode_r].
    assert (Hi : n * 5 / 8 < maxDst) by (apply Hidx; cbn [length]; lia).
    assert (Hb : n * 5 = 8 * (n * 5 / 8) + n * 5 mod 8) by apply (Nat.div_mod (n * 5) 8 ltac:(discriminate)).
    assert (Hj : n * 5 mod 8 < 8) by (apply Nat.mod_upper_bound; discriminate).
    set (i := n * 5 / 8) in *. set (j := n * 5 mod 8) in *. clearbody i j.
    unfold dig. destruct (index_byte Alphabet c) as [k|] eqn:Ek.
    2:{ exists dst. eauto. }
    apply index_lt in Ek. destruct Ek as [Hk _].
    destruct (Nat.leb_spec (length dst) i) as [|Hil]; [lia|].
    set (d := n2b (N.of_nat k)).
    assert (Hd : b2n d = N.of_nat k) by (apply b2n_n2b_small; lia).
    assert (Hd32 : (b2n d < 32)%N) by lia.
    set (dst1 := upd dst i (fun x => byte_or x (byte_shl d j))).
    assert (Hl1 : length dst1 = length dst) by apply upd_length.
    assert (Hv1 : le_val dst1 = N.lor (le_val dst) (N.shiftl (b2n (byte_shl d j)) (8 * N.of_nat i)))
      by (apply upd_or_val; exact Hil).
    assert (Hidx' : forall p, p < S n + length r -> p * 5 / 8 < maxDst).
    { intros p Hp. apply Hidx. cbn [length]. lia. }
    assert (Hgen : forall dst2, length dst2 = length dst ->
      le_val dst2 = N.lor (le_val dst) (N.shiftl (b2n d) (N.of_nat (n * 5))) ->
      (N.shiftl (b2n d) (N.of_nat (n * 5)) < 2 ^ (8 * N.of_nat maxDst))%N ->
      exists dst', length dst' = length dst /\
        (if match match rval r with Some v => Some (N.of_nat k + 32 * v)%N | None => None end with
            | Some v => (32 ^ N.of_nat n * v <? 2 ^ (8 * N.of_nat maxDst))%N
            | None => false
            end
         then decode_r maxDst r (S n) dst2 = (Ok maxDst, dst') /\
              match match rval r with Some v => Some (N.of_nat k + 32 * v)%N | None => None end with
              | Some v => le_val dst' = N.lor (le_val dst) (32 ^ N.of_nat n * v)%N
              | None => False
              end
         else exists e, decode_r maxDst r (S n) dst2 = (Err e, dst'))).
    { intros dst2 Hl2 Hv2 Hs2. destruct (IH (S n) dst2 ltac:(lia) Hidx') as (dst' & Hl' & H').
      exists dst'. split; [lia|].
      destruct (rval r) as [v|]; [|exact H'].
      rewrite <- Hd, digits_lor by exact Hd32.
      assert (Hiff : (N.lor (N.shiftl (b2n d) (N.of_nat (n * 5))) (32 ^ N.of_nat (S n) * v) <? 2 ^ (8 * N.of_nat maxDst))%N
              = (32 ^ N.of_nat (S n) * v <? 2 ^ (8 * N.of_nat maxDst))%N).
      { apply eq_true_iff_eq. rewrite !N.ltb_lt, lor_lt. tauto. }
      rewrite Hiff. destruct (_ <? _)%N; [|exact H']. destruct H' as [H1 H2]. split; [exact H1|].
      rewrite H2, Hv2, <- N.lor_assoc. reflexivity. }
    destruct (Nat.ltb_spec (i + 1) maxDst) as [Hm|Hm].
    + destruct (Nat.ltb_spec (i + 1) (length dst1)) as [Hm1|]; [|lia].
      apply Hgen.
      * rewrite upd_length. exact Hl1.
      * rewrite upd_or_val by exact Hm1. rewrite Hv1, <- N.lor_assoc.
        rewrite (shl_shr_split d i j n) by assumption. reflexivity.
      * rewrite N.shiftl_mul_pow2.
        apply N.lt_le_trans with (2 ^ 5 * 2 ^ N.of_nat (n * 5))%N.
        { apply N.mul_lt_mono_pos_r; [apply N.neq_0_lt_0, N.pow_nonzero; discriminate|exact Hd32]. }
        rewrite <- N.pow_add_r. apply N.pow_le_mono_r; [discriminate|]. lia.
    + assert (Him : i + 1 = maxDst) by lia.
      pose proof (carry_zero d i j n Hb Hj Hd32) as Hcz. rewrite Him in Hcz.
      destruct (byte_eqb_spec (byte_shr d (8 - j)) x00) as [Ez|Ez]; cbn [negb].
      * apply Hgen; [exact Hl1| |apply Hcz; exact Ez].
        rewrite Hv1, <- (shl_shr_split d i j n) by assumption. rewrite Ez.
        change (b2n x00) with 0%N. rewrite N.shiftl_0_l, N.lor_0_r. reflexivity.
      * exists dst1. split; [exact Hl1|].
        destruct (rval r) as [v|]; [|eauto].
        assert (Hf : (32 ^ N.of_nat n * (N.of_nat k + 32 * v) <? 2 ^ (8 * N.of_nat maxDst))%N = false).
        { apply N.ltb_ge. rewrite <- Hd, digits_lor by exact Hd32.
          destruct (N.le_gt_cases (2 ^ (8 * N.of_nat maxDst))
            (N.lor (N.shiftl (b2n d) (N.of_nat (n * 5))) (32 ^ N.of_nat (S n) * v))) as [|Hlt]; [assumption|].
          exfalso. apply Ez, Hcz. apply lor_lt in Hlt. tauto. }
        rewrite Hf. eauto.
Qed.

(** A digit that starts outside a dst of exactly the announced size: error. *)
Lemma decode_r_outside maxDst r n dst :
  maxDst = length dst -> r <> [] -> maxDst <= (n + length r - 1) * 5 / 8 ->
  exists e dst', decode_r maxDst r n dst = (Err e, dst').
Proof.
  revert n dst. induction r as [|c r IH]; intros n dst Hlen Hr Hout; [congruence|].
  cbn [decode_r]. destruct (index_byte Alphabet c) as [k|]; [|eauto].
  destruct (Nat.leb_spec (length dst) (n * 5 / 8)) as [|Hil]; [eauto|].
  assert (Hr' : r <> []).
  { intros ->. cbn [length] in Hout. replace (n + 1 - 1) with n in Hout by lia. lia. }
  assert (Hout' : maxDst <= (S n + length r - 1) * 5 / 8).
  { cbn [length] in Hout. replace (S n + length r - 1) with (n + S (length r) - 1) by lia. exact Hout. }
  destruct (Nat.ltb_spec (n * 5 / 8 + 1) maxDst) as [Hm|Hm].
  - rewrite upd_length. destruct (Nat.ltb_spec (n * 5 / 8 + 1) (length dst)); [|lia].
    apply IH; auto. rewrite !upd_length. exact Hlen.
  - destruct (negb _); [eauto|]. apply IH; auto. rewrite upd_length. exact Hlen.
Qed.

Lemma le_val_bound_pow l : (le_val l < 2 ^ (8 * N.of_nat (length l)))%N.
Proof.
  pose proof (le_val_bound l) as H. change 256%N with (2 ^ 8)%N in H.
  rewrite <- N.pow_mul_r in H. exact H.
Qed.

(** DecodeString is exact. *)
Lemma DecodeString_exact s b : DecodeString s = Ok b <-> b32_form s b.
Proof.
  unfold DecodeString. rewrite Decode_r. set (m := DecodedLen (length s)).
  destruct (canon_dec (length s)) as [Hc|Hc].
  - destruct (decode_r_spec m (rev s) 0 (repeat x00 m)) as (dst' & Hl & H).
    { rewrite repeat_length. lia. }
    { intros p Hp. apply canon_index; [exact Hc|]. rewrite rev_length in Hp. exact Hp. }
    rewrite repeat_length in Hl.
    assert (Hmc : min_chars m (length s)).
    { apply canon_iff in Hc. destruct Hc as [m' Hm']. unfold m. rewrite <- (min_chars_DecodedLen _ _ Hm'). exact Hm'. }
    change (32 ^ N.of_nat 0)%N with 1%N in H.
    destruct (rval (rev s)) as [v|] eqn:Ev.
    + rewrite N.mul_1_l in H. destruct (N.ltb_spec v (2 ^ (8 * N.of_nat m))) as [Hlt|Hge].
      * destruct H as [-> Hv]. cbn [rbind]. rewrite firstn_all2 by lia.
        rewrite le_val_zeros, N.lor_0_l in Hv. split.
        -- intros [= <-]. split; [rewrite Hl; exact Hmc|]. apply rval_value.
           rewrite le_value_le_val, Hv. exact Ev.
        -- intros [M V]. apply rval_value in V. rewrite le_value_le_val in V. f_equal.
           apply le_val_inj; [|congruence]. rewrite Hl. symmetry. apply (min_chars_DecodedLen _ _ M).
      * destruct H as [e ->]. cbn [rbind]. split; [discriminate|].
        intros [M V]. apply rval_value in V. rewrite le_value_le_val in V. exfalso.
        pose proof (le_val_bound_pow b). rewrite (min_chars_DecodedLen _ _ M) in H.
        assert (v = le_val b) by congruence. subst v. fold m in H. lia.
    + destruct H as [e ->]. cbn [rbind]. split; [discriminate|].
      intros [M V]. apply rval_value in V. congruence.
  - destruct (noncanon_index _ Hc) as [Hn Ho].
    destruct (decode_r_outside m (rev s) 0 (repeat x00 m)) as (e & dst' & ->).
    + rewrite repeat_length. reflexivity.
    + intros E. apply (f_equal (@List.length byte)) in E. rewrite rev_length in E. cbn in E. lia.
    + rewrite rev_length. exact Ho.
    + cbn [rbind]. split; [discriminate|]. intros [M _]. exfalso. apply Hc, canon_iff. eauto.
Qed.
Lemma DecodeString_no_panic s : is_panic (DecodeString s) = false.
Proof.
  unfold DecodeString. rewrite Decode_r. set (m := DecodedLen (length s)).
  destruct (canon_dec (length s)) as [Hc|Hc].
  - destruct (decode_r_spec m (rev s) 0 (repeat x00 m)) as (dst' & Hl & H).
    { rewrite repeat_length. lia. }
    { intros p Hp. apply canon_index; [exact Hc|]. rewrite rev_length in Hp. exact Hp. }
    destruct (match rval (rev s) with Some _ => _ | None => _ end).
    + destruct H as [-> _]. reflexivity.
    + destruct H as [e ->]. reflexivity.
  - destruct (noncanon_index _ Hc) as [Hn Ho].
    destruct (decode_r_outside m (rev s) 0 (repeat x00 m)) as (e & dst' & ->); [..|reflexivity].
    + rewrite repeat_length. reflexivity.
    + intros E. apply (f_equal (@List.length byte)) in E. rewrite rev_length in E. cbn in E. lia.
    + rewrite rev_length. exact Ho.
Qed.
