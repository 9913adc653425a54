(** Properties C09-C13: nixbase32. *)
From Verif Require Import Base.Bytes Model.Nixbase32 Spec.Base32Spec Proof.Base32Facts Proof.Base32Props Proof.Base32More.

(** C09 *)
Theorem C09_decode_encode : forall b, DecodeString (EncodeToString b) = Ok b.
Proof. exact decode_encode. Qed.
Print Assumptions C09_decode_encode.
(** Encoding writes the little-endian number in base 32 ([b32_form] of
    Spec/Base32Spec.v), the only string that does. *)
Theorem C09_encode_meets_spec : forall b s, EncodeToString b = s <-> b32_form s b.
Proof.
  exact (fun b s => iff_trans (iff_sym (decode_iff_encode s b)) (DecodeString_exact s b)).
Qed.
Print Assumptions C09_encode_meets_spec.
Theorem C09_encode_stays_in_range : forall len n, n < EncodedLen len -> n * 5 / 8 < len.
Proof. exact enc_index_in_range. Qed.
Print Assumptions C09_encode_stays_in_range.
Example C09_nonvacuous : EncodeToString [x1f; x74] = bs "0x0z" /\ DecodeString (bs "0x0z") = Ok [x1f; x74].
Proof. vm_compute. auto. Qed.

(** C10 *)
Theorem C10_decode_exact : forall s b, DecodeString s = Ok b <-> b32_form s b.
Proof. exact DecodeString_exact. Qed.
Print Assumptions C10_decode_exact.
Theorem C10_canonical : forall s b, DecodeString s = Ok b -> EncodeToString b = s.
Proof. exact (fun s b H => proj1 (decode_iff_encode s b) H). Qed.
Print Assumptions C10_canonical.
Theorem C10_injective : forall s1 s2 b, DecodeString s1 = Ok b -> DecodeString s2 = Ok b -> s1 = s2.
Proof. exact decode_inj. Qed.
Print Assumptions C10_injective.
Theorem C10_acceptance : forall s,
  (exists b, DecodeString s = Ok b) <->
  (exists m v, min_chars m (length s) /\ b32_value s v /\ (v < 256 ^ N.of_nat m)%N).
Proof. exact decode_accepts. Qed.
Print Assumptions C10_acceptance.
Theorem C10_value_means_alphabet : forall s,
  (exists v, b32_value s v) <-> Forall (fun c => In c b32_alphabet) s.
Proof. exact b32_value_exists. Qed.
Print Assumptions C10_value_means_alphabet.
Theorem C10_never_panics : forall s, is_panic (DecodeString s) = false.
Proof. exact DecodeString_no_panic. Qed.
Print Assumptions C10_never_panics.
Example C10_nonvacuous :
  is_ok (DecodeString (bs "0x0z")) = true /\ is_err (DecodeString (bs "00z")) = true /\
  is_err (DecodeString (bs "zz0z")) = true /\ is_err (DecodeString (bs "e000")) = true.
Proof. vm_compute. auto. Qed.

(** C11 *)
Theorem C11_encode_length_alphabet : forall b,
  length (EncodeToString b) = EncodedLen (length b) /\ Forall (fun c => In c Alphabet) (EncodeToString b).
Proof. exact (fun b => conj (encode_length b) (encode_alphabet b)). Qed.
Print Assumptions C11_encode_length_alphabet.
Theorem C11_decode_length : forall s b, DecodeString s = Ok b -> length b = DecodedLen (length s).
Proof. exact decode_length. Qed.
Print Assumptions C11_decode_length.
Theorem C11_lengths_inverse : forall n, DecodedLen (EncodedLen n) = n /\ min_chars n (EncodedLen n).
Proof. exact (fun n => conj (DecodedLen_EncodedLen n) (EncodedLen_min n)). Qed.
Print Assumptions C11_lengths_inverse.
Theorem C11_is_alphabet : forall c, Is c = true <-> In c Alphabet.
Proof. exact Is_alphabet. Qed.
Print Assumptions C11_is_alphabet.
Example C11_nonvacuous : EncodedLen 20 = 32 /\ DecodedLen 32 = 20 /\ length Alphabet = 32.
Proof. vm_compute. auto. Qed.

(** C12 is false for lengths no encoding has: *)
Theorem C12_refuted : exists s, ValidateString s = Ok tt /\ is_err (DecodeString s) = true.
Proof. exists (bs "z00"). vm_compute. auto. Qed.
Print Assumptions C12_refuted.
(** ... and only there. *)
Theorem C12_agree_on_canonical_lengths_partial : forall s,
  (exists m, min_chars m (length s)) -> is_ok (ValidateString s) = is_ok (DecodeString s).
Proof. exact validate_canonical. Qed.
Print Assumptions C12_agree_on_canonical_lengths_partial.
Theorem C12_decodable_is_valid : forall s b, DecodeString s = Ok b -> ValidateString s = Ok tt.
Proof. exact decode_implies_validate. Qed.
Print Assumptions C12_decodable_is_valid.
Theorem C12_valid_but_undecodable_only_by_length : forall s,
  ValidateString s = Ok tt ->
  (exists b, DecodeString s = Ok b) \/ ~ (exists m, min_chars m (length s)).
Proof. exact validate_only. Qed.
Print Assumptions C12_valid_but_undecodable_only_by_length.
Theorem C12_never_panics : forall s, is_panic (ValidateString s) = false.
Proof. exact validate_no_panic. Qed.
Print Assumptions C12_never_panics.
Example C12_nonvacuous : exists m, min_chars m (length (bs "0x0z")).
Proof. exists 2. exact (EncodedLen_min 2). Qed.

(** C13 is false as stated: Decode ORs into dst, so old contents show through,
    it panics for a dst that is too short by some amounts, and with a dst longer
    than needed it accepts lengths DecodeString rejects. *)
Theorem C13_refuted_stale :
  DecodeString (bs "00") = Ok [x00] /\ Decode [x41] (bs "00") = (Ok 1, [x41]).
Proof. vm_compute. auto. Qed.
Print Assumptions C13_refuted_stale.
Theorem C13_refuted_panic : is_panic (fst (Decode [x00] (bs "0000"))) = true.
Proof. vm_compute. reflexivity. Qed.
Print Assumptions C13_refuted_panic.
Theorem C13_refuted_long_dst : Decode [x00] (bs "z") = (Ok 0, [x1f]) /\ is_err (DecodeString (bs "z")) = true.
Proof. vm_compute. auto. Qed.
Print Assumptions C13_refuted_long_dst.
(** What holds: the decoded bytes are OR-ed into the first bytes of dst, the rest
    stays; on a zeroed buffer that is the property. *)
Theorem C13_decode_ors_into_dst_partial : forall dst s b,
  DecodeString s = Ok b -> length b <= length dst ->
  exists dst', Decode dst s = (Ok (length b), dst') /\ length dst' = length dst /\
    forall k, k < length dst ->
      nth k dst' x00 = if k <? length b then byte_or (nth k dst x00) (nth k b x00) else nth k dst x00.
Proof. exact decode_into. Qed.
Print Assumptions C13_decode_ors_into_dst_partial.
Theorem C13_decode_into_zeroed : forall dst s b,
  DecodeString s = Ok b -> length b <= length dst ->
  firstn (length b) dst = repeat x00 (length b) ->
  Decode dst s = (Ok (length b), b ++ skipn (length b) dst).
Proof. exact decode_into_clean. Qed.
Print Assumptions C13_decode_into_zeroed.
Theorem C13_no_panic_if_large_enough : forall dst s,
  DecodedLen (length s) <= length dst -> is_panic (fst (Decode dst s)) = false.
Proof. exact Decode_no_panic. Qed.
Print Assumptions C13_no_panic_if_large_enough.
(** Exactly when it panics: a dst that is neither empty nor long enough, and a
    string whose last characters, up to the first one that does not fit any more,
    are all in the alphabet. *)
Theorem C13_panic_exact : forall dst s,
  is_panic (fst (Decode dst s)) = true <->
  0 < length dst < DecodedLen (length s) /\
  exists a z q, s = a ++ z /\ min_chars (length dst - 1) q /\ length z = S q /\ Forall (fun c => In c b32_alphabet) z.
Proof. exact Decode_panic. Qed.
Print Assumptions C13_panic_exact.
(** Exactly when it succeeds: the string is valid and fits, with a byte to spare
    if no byte string has an encoding of that length. *)
Theorem C13_success_exact : forall dst s,
  (exists n, fst (Decode dst s) = Ok n) <->
  ValidateString s = Ok tt /\ DecodedLen (length s) <= length dst /\
  ((exists m, min_chars m (length s)) \/ DecodedLen (length s) < length dst).
Proof. exact Decode_ok. Qed.
Print Assumptions C13_success_exact.
(** ... and what it then leaves in dst, whatever the length of the string: what
    was there, read as a number, OR-ed with the number the string denotes. *)
Theorem C13_success_value : forall dst s n dst', Decode dst s = (Ok n, dst') ->
  n = DecodedLen (length s) /\ length dst' = length dst /\
  exists v, b32_value s v /\ le_value dst' = N.lor (le_value dst) v.
Proof. exact Decode_value. Qed.
Print Assumptions C13_success_value.
Theorem C13_encode_into_buffer : forall dst b,
  EncodedLen (length b) <= length dst ->
  Encode dst b = Ok (EncodeToString b ++ skipn (EncodedLen (length b)) dst).
Proof. exact Encode_into. Qed.
Print Assumptions C13_encode_into_buffer.
Example C13_nonvacuous : Decode [x00; x00; x00; x07] (bs "0x0z") = (Ok 2, [x1f; x74; x00; x07]) /\
  (is_panic (fst (Decode [x00] (bs "e0x0z"))) = true /\ is_err (fst (Decode [x00] (bs "0x0e"))) = true /\
   is_err (fst (Decode [] (bs "0x0z"))) = true) /\
  (Decode [x00; x80] (bs "170") = (Ok 1, [xe0; x84]) /\ is_err (fst (Decode [x00] (bs "170"))) = true).
Proof. repeat split; vm_compute; reflexivity. Qed.
