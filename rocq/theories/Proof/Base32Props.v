(** Proofs of the nixbase32 properties C09-C13. *)
From Verif Require Import Base.Bytes Base.BytesFacts Model.Wire Model.Nixbase32 Spec.Base32Spec
  Proof.WireFacts Proof.Bits Proof.Base32Facts.

Arguments N.add : simpl never.
Arguments N.sub : simpl never.
Arguments N.mul : simpl never.
Arguments N.modulo : simpl never.
Arguments N.div : simpl never.
Arguments N.pow : simpl never.
Arguments Nat.div : simpl never.
Arguments Nat.modulo : simpl never.

Lemma decode_encode b : DecodeString (EncodeToString b) = Ok b.
Proof. apply DecodeString_exact, encode_form. Qed.
Lemma decode_iff_encode s b : DecodeString s = Ok b <-> EncodeToString b = s.
Proof.
  rewrite DecodeString_exact. split.
  - intros H. eapply form_unique_string; [apply encode_form|exact H].
  - intros <-. apply encode_form.
Qed.
Lemma decode_inj s1 s2 b : DecodeString s1 = Ok b -> DecodeString s2 = Ok b -> s1 = s2.
Proof. rewrite !decode_iff_encode. congruence. Qed.

(** Acceptance, in terms of length, alphabet and value. *)
Lemma b32_value_exists s : (exists v, b32_value s v) <-> Forall (fun c => In c b32_alphabet) s.
Proof.
  change b32_alphabet with Alphabet. split.
  - intros [v H]. induction H as [|s v c d H IH Hd]; [constructor|].
    apply Forall_app. split; [exact IH|]. constructor; [|constructor].
    apply dig_in. apply dig_is_digit in Hd. congruence.
  - induction s as [|c s IH] using rev_ind; intros H; [exists 0%N; constructor|].
    apply Forall_app in H. destruct H as [H1 H2]. destruct (IH H1) as [v Hv].
    inversion H2 as [|? ? Hc _]; subst. apply dig_in in Hc.
    destruct (dig c) as [d|] eqn:Ed; [|congruence]. apply dig_is_digit in Ed.
    eexists. constructor; eauto.
Qed.
Lemma decode_accepts s :
  (exists b, DecodeString s = Ok b) <->
  (exists m v, min_chars m (length s) /\ b32_value s v /\ (v < 256 ^ N.of_nat m)%N).
Proof.
  split.
  - intros [b H]. apply DecodeString_exact in H. destruct H as [M V].
    exists (length b), (le_value b). repeat split; auto; [apply M..|].
    rewrite le_value_le_val. apply le_val_bound.
  - intros (m & v & M & V & Hv). exists (le_bytes m v). apply DecodeString_exact.
    split; rewrite ?le_bytes_length; [exact M|].
    rewrite le_value_le_val, le_val_le_bytes, N.mod_small by exact Hv. exact V.
Qed.

(** * Lengths and alphabet *)
Lemma encode_length b : length (EncodeToString b) = EncodedLen (length b).
Proof. apply encode_loop_length. Qed.
Lemma encode_alphabet b : Forall (fun c => In c Alphabet) (EncodeToString b).
Proof.
  destruct (encode_form b) as [_ V]. change Alphabet with b32_alphabet. apply b32_value_exists. eauto.
Qed.
Lemma decode_length s b : DecodeString s = Ok b -> length b = DecodedLen (length s).
Proof. intros H. apply DecodeString_exact in H. destruct H as [M _]. apply min_chars_DecodedLen. exact M. Qed.
Lemma Is_alphabet c : Is c = true <-> In c Alphabet.
Proof.
  rewrite <- contains_byte_iff.
  assert (H : eqb (Is c) (contains_byte Alphabet c) = true).
  { apply (byte_sweep (fun c => eqb (Is c) (contains_byte Alphabet c))). vm_compute. reflexivity. }
  apply eqb_prop in H. rewrite H. tauto.
Qed.

(** * ValidateString *)
Fixpoint validate_r (maxDst : nat) (r : bytes) (n : nat) : res unit :=
  match r with
  | [] => Ok tt
  | c :: r' =>
      match index_byte Alphabet c with
      | None => Err (EMsg "character not in Nix alphabet")
      | Some digit =>
          if (maxDst <=? n * 5 / 8 + 1) && negb (byte_eqb (byte_shr (n2b (N.of_nat digit)) (8 - n * 5 mod 8)) x00)
          then Err (EMsg "non-zero padding")
          else validate_r maxDst r' (S n)
      end
  end.
Lemma validate_loop_r src maxDst k n :
  n + k = length src -> validate_loop src maxDst k n = validate_r maxDst (skipn n (rev src)) n.
Proof.
  revert n. induction k as [|k IH]; intros n Hn.
  - rewrite skipn_all2 by (rewrite rev_length; lia). reflexivity.
  - cbn [validate_loop]. rewrite nth_error_rev by lia.
    destruct (nth_error (rev src) n) as [c|] eqn:E.
    2:{ apply nth_error_None in E. rewrite rev_length in E. lia. }
    rewrite (skipn_cons_nth _ _ _ E). cbn [validate_r].
    destruct (index_byte Alphabet c) as [d|]; [|reflexivity].
    destruct (_ && _); [reflexivity|]. apply IH. lia.
Qed.
Lemma Validate_r s : ValidateString s = validate_r (DecodedLen (length s)) (rev s) 0.
Proof. unfold ValidateString. rewrite validate_loop_r by lia. reflexivity. Qed.

(** The validator and the decoder make the same decisions as long as the
    decoder does not run out of dst. *)
Lemma validate_decode_r maxDst r n dst :
  length dst = maxDst ->
  (forall p, p < n + length r -> p * 5 / 8 < maxDst) ->
  is_ok (validate_r maxDst r n) = is_ok (fst (decode_r maxDst r n dst)).
Proof.
  revert n dst. induction r as [|c r IH]; intros n dst Hl Hidx; [reflexivity|].
  cbn [validate_r decode_r]. destruct (index_byte Alphabet c) as [d|]; [|reflexivity].
  assert (Hi : n * 5 / 8 < maxDst) by (apply Hidx; cbn [length]; lia).
  assert (Hidx' : forall p, p < S n + length r -> p * 5 / 8 < maxDst) by (intros p Hp; apply Hidx; cbn [length]; lia).
  destruct (Nat.leb_spec (length dst) (n * 5 / 8)); [lia|].
  destruct (Nat.ltb_spec (n * 5 / 8 + 1) maxDst) as [H1|H1];
    destruct (Nat.leb_spec maxDst (n * 5 / 8 + 1)) as [H2|H2]; try lia; cbn [andb].
  - rewrite upd_length. destruct (Nat.ltb_spec (n * 5 / 8 + 1) (length dst)); [|lia].
    apply IH; [rewrite !upd_length; exact Hl|exact Hidx'].
  - destruct (negb _); [reflexivity|]. apply IH; [rewrite !upd_length; exact Hl|exact Hidx'].
Qed.
Lemma validate_no_panic_r maxDst r n : is_panic (validate_r maxDst r n) = false.
Proof.
  revert n. induction r as [|c r IH]; intros n; cbn [validate_r]; [reflexivity|].
  destruct (index_byte Alphabet c); [|reflexivity]. destruct (_ && _); [reflexivity|apply IH].
Qed.
Lemma validate_no_panic s : is_panic (ValidateString s) = false.
Proof. rewrite Validate_r. apply validate_no_panic_r. Qed.

Lemma validate_canonical s :
  (exists m, min_chars m (length s)) ->
  is_ok (ValidateString s) = is_ok (DecodeString s).
Proof.
  intros Hc. apply canon_iff in Hc. rewrite Validate_r. unfold DecodeString. rewrite Decode_r.
  rewrite (validate_decode_r _ (rev s) 0 (repeat x00 (DecodedLen (length s)))).
  - destruct (decode_r _ _ _ _) as [[k|e|w] dst']; reflexivity.
  - apply repeat_length.
  - intros p Hp. rewrite rev_length in Hp. apply canon_index; [exact Hc|exact Hp].
Qed.
Lemma decode_implies_validate s b : DecodeString s = Ok b -> ValidateString s = Ok tt.
Proof.
  intros H. assert (Hv : is_ok (ValidateString s) = true).
  { rewrite validate_canonical; [rewrite H; reflexivity|].
    apply DecodeString_exact in H. destruct H as [M _]. eauto. }
  destruct (ValidateString s) as [[]| |]; [reflexivity|discriminate..].
Qed.
(** A validated string that is not decodable has a length no encoding has. *)
Lemma validate_only s :
  ValidateString s = Ok tt ->
  (exists b, DecodeString s = Ok b) \/ ~ (exists m, min_chars m (length s)).
Proof.
  intros H. destruct (canon_dec (length s)) as [Hc|Hc]; [left|right; rewrite <- canon_iff; exact Hc].
  apply canon_iff in Hc. apply validate_canonical in Hc. rewrite H in Hc.
  destruct (DecodeString s); try discriminate. eauto.
Qed.

(** * Decode into a caller's buffer *)
Lemma le_val_nth l k : k < length l -> nth k l x00 = n2b (le_val l / 256 ^ N.of_nat k).
Proof.
  revert l. induction k as [|k IH]; intros [|x l] H; cbn [length] in H; try lia.
  - cbn [nth le_val fold_right]. fold (le_val l). change (256 ^ N.of_nat 0)%N with 1%N. rewrite N.div_1_r.
    apply b2n_inj. rewrite b2n_n2b. rewrite (N.mul_comm 256), N.mod_add by discriminate.
    symmetry. apply N.mod_small, b2n_lt.
  - cbn [nth le_val fold_right]. fold (le_val l). rewrite IH by lia. f_equal.
    rewrite Nat2N.inj_succ, N.pow_succ_r, <- N.div_div by (try apply N.pow_nonzero; try discriminate; lia).
    rewrite (N.mul_comm 256), N.div_add by discriminate.
    rewrite (N.div_small (b2n x)) by apply b2n_lt. rewrite N.add_0_l. reflexivity.
Qed.
Lemma le_val_or_nth dst dst' v k :
  length dst' = length dst -> le_val dst' = N.lor (le_val dst) v ->
  k < length dst -> nth k dst' x00 = byte_or (nth k dst x00) (n2b (v / 256 ^ N.of_nat k)).
Proof.
  intros Hl Hv Hk. rewrite !le_val_nth by lia. apply b2n_inj.
  unfold byte_or. rewrite !b2n_n2b, Hv. change 256%N with (2 ^ 8)%N.
  rewrite <- N.pow_mul_r, <- !N.shiftr_div_pow2, N.shiftr_lor.
  apply N.bits_inj. intros m.
  destruct (N.lt_ge_cases m 8) as [H|H].
  - rewrite !N.mod_pow2_bits_low, !N.lor_spec, !N.mod_pow2_bits_low by exact H. reflexivity.
  - rewrite !N.mod_pow2_bits_high by exact H. reflexivity.
Qed.

Lemma decode_into dst s b :
  DecodeString s = Ok b -> length b <= length dst ->
  exists dst', Decode dst s = (Ok (length b), dst') /\ length dst' = length dst /\
    forall k, k < length dst ->
      nth k dst' x00 = if k <? length b then byte_or (nth k dst x00) (nth k b x00) else nth k dst x00.
Proof.
  intros H Hl. pose proof (decode_length s b H) as Hb.
  apply DecodeString_exact in H. destruct H as [M V]. apply rval_value in V. rewrite le_value_le_val in V.
  rewrite Decode_r, <- Hb.
  destruct (decode_r_spec (length b) (rev s) 0 dst Hl) as (dst' & Hl' & H).
  { intros p Hp. rewrite rev_length in Hp. rewrite Hb. apply canon_index; [|exact Hp]. apply canon_iff. eauto. }
  rewrite V in H. change (32 ^ N.of_nat 0)%N with 1%N in H. rewrite N.mul_1_l in H.
  rewrite (proj2 (N.ltb_lt _ _) (le_val_bound_pow b)) in H. destruct H as [-> Hv].
  exists dst'. split; [reflexivity|]. split; [exact Hl'|].
  intros k Hk. rewrite (le_val_or_nth dst dst' _ k Hl' Hv Hk).
  destruct (Nat.ltb_spec k (length b)) as [Hkb|Hkb].
  - rewrite <- le_val_nth by exact Hkb. reflexivity.
  - rewrite N.div_small.
    2:{ eapply N.lt_le_trans; [apply le_val_bound|]. apply N.pow_le_mono_r; [discriminate|]. unfold lenN. lia. }
    apply byte_bits_inj. intros m _. rewrite byte_or_testbit. change (b2n (n2b 0)) with 0%N.
    rewrite N.bits_0. apply orb_false_r.
Qed.

Lemma byte_or_0_l x : byte_or x00 x = x.
Proof. apply byte_bits_inj. intros m _. rewrite byte_or_testbit. change (b2n x00) with 0%N. rewrite N.bits_0. reflexivity. Qed.

Lemma decode_into_clean dst s b :
  DecodeString s = Ok b -> length b <= length dst ->
  firstn (length b) dst = repeat x00 (length b) ->
  Decode dst s = (Ok (length b), b ++ skipn (length b) dst).
Proof.
  intros H Hl Hz. destruct (decode_into dst s b H Hl) as (dst' & -> & Hl' & Hn). f_equal.
  apply (nth_ext dst' _ x00 x00); [rewrite app_length, skipn_length; lia|].
  intros k Hk. rewrite Hn by lia.
  destruct (Nat.ltb_spec k (length b)) as [Hkb|Hkb].
  - rewrite app_nth1 by exact Hkb.
    assert (nth k dst x00 = x00) as ->; [|apply byte_or_0_l].
    rewrite <- (firstn_skipn (length b) dst), app_nth1 by (rewrite firstn_length; lia).
    rewrite Hz. apply nth_repeat.
  - rewrite app_nth2 by exact Hkb.
    rewrite <- (firstn_skipn (length b) dst) at 1. rewrite app_nth2; rewrite firstn_length, Nat.min_l by lia; [reflexivity|lia].
Qed.

Lemma decode_r_no_panic maxDst r n dst :
  maxDst <= length dst -> is_panic (fst (decode_r maxDst r n dst)) = false.
Proof.
  revert n dst. induction r as [|c r IH]; intros n dst Hl; [reflexivity|].
  cbn [decode_r]. destruct (index_byte Alphabet c) as [d|]; [|reflexivity].
  destruct (_ <=? _); [reflexivity|].
  destruct (Nat.ltb_spec (n * 5 / 8 + 1) maxDst).
  - rewrite upd_length. destruct (Nat.ltb_spec (n * 5 / 8 + 1) (length dst)); [|lia].
    apply IH. rewrite !upd_length. exact Hl.
  - destruct (negb _); [reflexivity|]. apply IH. rewrite upd_length. exact Hl.
Qed.
Lemma Decode_no_panic dst s : DecodedLen (length s) <= length dst -> is_panic (fst (Decode dst s)) = false.
Proof. intros H. rewrite Decode_r. apply decode_r_no_panic. exact H. Qed.

Lemma Encode_into dst b :
  EncodedLen (length b) <= length dst ->
  Encode dst b = Ok (EncodeToString b ++ skipn (EncodedLen (length b)) dst).
Proof. intros H. unfold Encode. destruct (Nat.ltb_spec (length dst) (EncodedLen (length b))); [lia|reflexivity]. Qed.

(** Every src[i] the encoder reads is in range. *)
Lemma enc_index_in_range len n : n < EncodedLen len -> n * 5 / 8 < len.
Proof.
  intros H. rewrite <- (DecodedLen_EncodedLen len). apply canon_index; [|exact H].
  unfold canon. rewrite DecodedLen_EncodedLen. reflexivity.
Qed.
