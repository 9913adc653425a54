(** Properties C01-C08: the wire package. *)
From Verif Require Import Base.Bytes Model.GoIO Model.Wire Spec.WireSpec Spec.WireHist Proof.WireProps.
From Verif Require Proof.WireFacts.

(** C01: whatever is written by Write*, Read* reads back from any stream that
    holds those bytes first, however fragmented, and stops right behind them. *)
Theorem C01_uint64_roundtrip : forall n o,
  (n < 2 ^ 64)%N ->
  exists w f, WriteUint64 (Sink o []) n = (None, w) /\ out w = o ++ f /\
  forall s rest e, flat s = (f ++ rest, e) ->
  exists s', ReadUint64 s = (Ok n, s') /\ flat s' = (rest, e).
Proof. exact C01_uint64. Qed.
Print Assumptions C01_uint64_roundtrip.

Theorem C01_bool_roundtrip : forall b o,
  exists w f, WriteBool (Sink o []) b = (None, w) /\ out w = o ++ f /\
  forall s rest e, flat s = (f ++ rest, e) ->
  exists s', ReadBool s = (Ok b, s') /\ flat s' = (rest, e).
Proof. exact C01_bool. Qed.
Print Assumptions C01_bool_roundtrip.

Theorem C01_bytes_roundtrip : forall c o,
  (lenN c < 2 ^ 63)%N ->
  exists w f, WriteBytes (Sink o []) c = (None, w) /\ out w = o ++ f /\
  forall s rest e max, flat s = (f ++ rest, e) -> (lenN c <= max)%N ->
  exists s', ReadBytesFull s max = (Ok c, s') /\ flat s' = (rest, e).
Proof. exact C01_bytes. Qed.
Print Assumptions C01_bytes_roundtrip.

Theorem C01_string_roundtrip : forall c o,
  (lenN c < 2 ^ 63)%N ->
  exists w f, WriteString (Sink o []) c = (None, w) /\ out w = o ++ f /\
  forall s rest e max, flat s = (f ++ rest, e) -> (lenN c <= max)%N ->
  exists s', ReadString s max = (Ok c, s') /\ flat s' = (rest, e).
Proof. exact C01_string. Qed.
Print Assumptions C01_string_roundtrip.

Example C01_nonvacuous :
  exists s', ReadString (Src [[]; firstn 3 (field (bs "hello")); skipn 3 (field (bs "hello")) ++ [x07]] EEOF true) 5
             = (Ok (bs "hello"), s') /\ flat s' = ([x07], EEOF).
Proof. eexists. vm_compute. auto. Qed.

(** C02: the exact layout; [field], [uint_field], [bool_field] are in
    Spec/WireSpec.v. *)
Theorem C02_layout : forall o,
  (forall n, WriteUint64 (Sink o []) n = (None, Sink (o ++ uint_field n) [])) /\
  (forall b, WriteBool (Sink o []) b = (None, Sink (o ++ bool_field b) [])) /\
  (forall c, WriteBytes (Sink o []) c = (None, Sink (o ++ field c) [])) /\
  (forall c, WriteString (Sink o []) c = (None, Sink (o ++ field c) [])).
Proof.
  exact (fun o => conj (WriteUint64_ok o) (conj (WriteBool_ok o) (conj (WriteBytes_ok o) (WriteString_ok o)))).
Qed.
Print Assumptions C02_layout.

Theorem C02_padding_is_least : forall c,
  length (field c) mod 8 = 0 /\
  forall k, (length c + k) mod 8 = 0 -> pad_len (length c) <= k.
Proof. exact (fun c => conj (field_length c) (Verif.Proof.WireFacts.pad_len_least (length c))). Qed.
Print Assumptions C02_padding_is_least.

Theorem C02_le8_is_little_endian : forall n,
  (n < 2 ^ 64)%N -> le_val (le8 n) = n /\ length (le8 n) = 8.
Proof. exact (fun n H => conj (Verif.Proof.WireFacts.le_val_le8 n H) (Verif.Proof.WireFacts.le8_length n)). Qed.
Print Assumptions C02_le8_is_little_endian.

Example C02_nonvacuous :
  field (bs "ab") = [x02; x00; x00; x00; x00; x00; x00; x00; x61; x62; x00; x00; x00; x00; x00; x00].
Proof. reflexivity. Qed.

(** C03: fragmentation never matters. *)
Theorem C03_fragmentation : forall s1 s2,
  flat s1 = flat s2 ->
  same_result (ReadUint64 s1) (ReadUint64 s2) /\
  same_result (ReadBool s1) (ReadBool s2) /\
  same_result (ReadBytes s1) (ReadBytes s2) /\
  (forall max, same_result (ReadBytesFull s1 max) (ReadBytesFull s2 max)) /\
  (forall max, same_result (ReadString s1 max) (ReadString s2 max)).
Proof.
  exact (fun s1 s2 H => conj (C03_uint64 s1 s2 H) (conj (C03_bool s1 s2 H) (conj (C03_bytes s1 s2 H)
    (conj (fun max => C03_bytes_full s1 s2 max H) (fun max => C03_bytes_full s1 s2 max H))))).
Qed.
Print Assumptions C03_fragmentation.

Example C03_nonvacuous :
  let d := field (bs "x") ++ [x01] in
  let s1 := Src [d] EEOF true in
  let s2 := Src (map (fun b => [b]) d) EEOF false in
  flat s1 = flat s2 /\ s1 <> s2.
Proof. split; [reflexivity|discriminate]. Qed.

(** C04: the limit of ReadBytesFull/ReadString. *)
Theorem C04_result_bounded : forall s max b s',
  ReadBytesFull s max = (Ok b, s') -> (lenN b <= max)%N.
Proof. exact C04_bounded. Qed.
Print Assumptions C04_result_bounded.
Theorem C04_too_long_rejected : forall s d e n max,
  flat s = (le8 n ++ d, e) -> (n < 2 ^ 64)%N -> (max < n)%N ->
  exists s' er, ReadBytesFull s max = (Err er, s') /\ flat s' = (d, e).
Proof. exact C04_too_long. Qed.
Print Assumptions C04_too_long_rejected.
Theorem C04_never_panics : forall s max,
  (max < 2 ^ 63)%N -> is_panic (fst (ReadBytesFull s max)) = false.
Proof. exact C04_no_panic. Qed.
Print Assumptions C04_never_panics.
(** Acceptance of everything within the limit is [C08_acceptance_exact]. *)

Example C04_nonvacuous :
  exists s' er, ReadString (Src [le8 6 ++ bs "abcdef"] EEOF false) 5 = (Err er, s')
                /\ flat s' = (bs "abcdef", EEOF).
Proof. do 2 eexists. vm_compute. auto. Qed.

(** C05: ReadBool. *)
Theorem C05_bool_exact : forall s d e b,
  flat s = (d, e) ->
  (fst (ReadBool s) = Ok b <-> exists rest, d = bool_field b ++ rest).
Proof. exact C05_bool. Qed.
Print Assumptions C05_bool_exact.
Theorem C05_bool_no_panic : forall s, is_panic (fst (ReadBool s)) = false.
Proof. exact C05_no_panic. Qed.
Print Assumptions C05_bool_no_panic.
Example C05_nonvacuous : fst (ReadBool (Src [le8 1] EEOF false)) = Ok true /\
                         is_err (fst (ReadBool (Src [le8 2] EEOF false))) = true.
Proof. vm_compute. auto. Qed.

(** C06: every history of BytesWriter calls on a working writer looks to the
    caller, and to the reader of the output, like the abstract writer
    [bw_abs_run] of Spec/WireHist.v. *)
Theorem C06_writer_protocol : forall n o ops,
  (n < 2 ^ 63)%N ->
  (forall p, In (BWrite p) ops -> lenN p < 2 ^ 63)%N ->
  exists bw w l st' abs',
    NewBytesWriter (Sink o []) n = (Ok bw, w) /\
    bw_run ops (bw, w) = (l, st') /\
    bw_abs_run n ops ([], false) = (l, abs') /\
    out (snd st') = o ++ bw_abs_out n abs' /\ (lenN (fst abs') <= n)%N.
Proof. exact C06_refines. Qed.
Print Assumptions C06_writer_protocol.
Theorem C06_closed_is_field : forall n ops l abs',
  bw_abs_run n ops ([], false) = (l, abs') -> snd abs' = true ->
  bw_abs_out n abs' = field (fst abs') /\ lenN (fst abs') = n.
Proof. exact C06_closed_field. Qed.
Print Assumptions C06_closed_is_field.
(** On a writer that may fail or write short at any call: a Close that reports
    success after any Writes means the complete field of the bytes reported. *)
Theorem C06_success_is_complete : forall n w0 bw w ps l bw1 w1 st2,
  (n < 2 ^ 63)%N -> Forall (fun p => lenN p < 2 ^ 63)%N ps ->
  NewBytesWriter w0 n = (Ok bw, w) ->
  bw_run (map BWrite ps) (bw, w) = (l, (bw1, w1)) ->
  bw_close bw1 w1 = (None, st2) ->
  out (snd st2) = out w0 ++ field (reported ps l) /\ lenN (reported ps l) = n.
Proof. exact C06_failing_writer. Qed.
Print Assumptions C06_success_is_complete.
Example C06_nonvacuous :
  bw_abs_run 3 [BWrite (bs "ab"); BWrite (bs "xy"); BClose; BWrite (bs "c"); BClose; BClose] ([], false)
  = ([SWrite 2 true; SWrite 0 false; SClose false; SWrite 1 true; SClose true; SClose true], (bs "abc", true)).
Proof. reflexivity. Qed.

(** C07: BytesReader. *)
Theorem C07_reads_then_close : forall s c rest e ns,
  flat s = (field c ++ rest, e) -> (lenN c < 2 ^ 63)%N -> polite s \/ rest <> [] ->
  exists br s1 l br2 s2 k br3 s3,
    ReadBytes s = (Ok (lenN c, br), s1) /\
    br_reads ns (br, s1) = (l, (br2, s2)) /\
    concat (map fst l) = ntake k c /\ (k <= lenN c)%N /\
    Forall2 (fun n p => lenN (fst p) <= n)%N ns l /\
    Forall (fun p => snd p = None \/ (snd p = Some EEOF /\ k = lenN c)) l /\
    br_close br2 s2 = (None, (br3, s3)) /\ flat s3 = (rest, e).
Proof. exact C07_close_ok. Qed.
Print Assumptions C07_reads_then_close.
Theorem C07_bad_padding_fails : forall s c tail e ns,
  flat s = (le8 (lenN c) ++ c ++ tail, e) -> (lenN c < 2 ^ 63)%N -> polite s \/ tail <> [] ->
  firstn (pad_len (length c)) tail <> repeat x00 (pad_len (length c)) ->
  exists br s1 l br2 s2 er st3,
    ReadBytes s = (Ok (lenN c, br), s1) /\
    br_reads ns (br, s1) = (l, (br2, s2)) /\
    br_close br2 s2 = (Some er, st3).
Proof. exact C07_close_bad. Qed.
Print Assumptions C07_bad_padding_fails.
(** A reader that hands out an error other than io.EOF together with the very last
    bytes: Close reports it although the field was there. *)
Theorem C07_restriction_needed : let s := Src [le8 8; bs "abcdefgh"] (EMsg "broken pipe") true in flat s = (field (bs "abcdefgh"), EMsg "broken pipe") /\
  exists br s1 st, ReadBytes s = (Ok (8%N, br), s1) /\ br_close br s1 = (Some (EMsg "broken pipe"), st).
Proof. split; [vm_compute; reflexivity|]. do 3 eexists. split; vm_compute; reflexivity. Qed.
Print Assumptions C07_restriction_needed.
Example C07_nonvacuous :
  let s := Src [field (bs "abc") ++ [x09]] EEOF false in
  flat s = (field (bs "abc") ++ [x09], EEOF) /\ polite s /\
  exists l st, br_reads [2; 2; 5]%N (NewBytesReader 3, Src [skipn 8 (field (bs "abc"))] EEOF false) = (l, st)
    /\ l = [(bs "ab", None); (bs "c", None); ([], Some EEOF)].
Proof. split; [reflexivity|]. split; [left; reflexivity|]. do 2 eexists. vm_compute. auto. Qed.

(** C08 is false of the code: ReadBytesFull drops the error of Close. *)
Theorem C08_refuted_nonzero :
  let s := Src [le8 1 ++ [x41] ++ [x00; x00; x00; x00; x00; x00; xff]; le8 7] EEOF false in
  exists s', ReadString s 10 = (Ok [x41], s') /\ flat s' = (le8 7, EEOF).
Proof. exact C08_refuted_witness. Qed.
Print Assumptions C08_refuted_nonzero.
Theorem C08_refuted_missing :
  let s := Src [le8 1 ++ [x41]] EEOF false in
  exists s', ReadString s 10 = (Ok [x41], s').
Proof. exact C08_refuted_truncated. Qed.
Print Assumptions C08_refuted_missing.
(** What holds instead: a string is accepted exactly when length and content
    are there and within the limit; the padding is not looked at. *)
Theorem C08_acceptance_exact_partial : forall s d e max b,
  flat s = (d, e) -> (max < 2 ^ 63)%N ->
  (fst (ReadString s max) = Ok b <->
   exists tail, d = le8 (lenN b) ++ b ++ tail /\ (lenN b <= max)%N).
Proof. exact C08_exact. Qed.
Print Assumptions C08_acceptance_exact_partial.
