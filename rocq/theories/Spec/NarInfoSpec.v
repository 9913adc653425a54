(** The .narinfo text format, for C41-C44. *)
From Verif Require Import Base.Bytes Model.GoStd Model.Nixhash Model.Signature Model.NarInfo Spec.HashSpec Spec.SignatureSpec.

(** * Lines *)
Fixpoint drop_last_empty (l : list bytes) : list bytes :=
  match l with
  | [] => []
  | [[]] => []
  | x :: l' => x :: drop_last_empty l'
  end.
(** The pieces between line feeds; nothing after the last line feed is no line. *)
Definition lines_of (text : bytes) : list bytes := drop_last_empty (split_byte text x0a).
Definition without_cr (l : bytes) : bytes :=
  match rev l with
  | x0d :: r => rev r
  | _ => l
  end.
(** Lines without their CR that are not blank. *)
Definition text_lines (text : bytes) : list bytes :=
  filter (fun l => negb (beq l [])) (map without_cr (lines_of text)).
(** Every line, counted without its line feed, fits a buffer of 1 MiB. *)
Definition lines_at_most (n : N) (text : bytes) : Prop := Forall (fun l => (lenN l <= n)%N) (split_byte text x0a).
Definition lines_below (n : N) (text : bytes) : Prop := Forall (fun l => (lenN l < n)%N) (split_byte text x0a).
(** A buffer of [n] bytes takes a line with its line feed, and the last line,
    which has none, has to leave room for one more byte -- unless the end of the
    stream is reported [together] with the last bytes. *)
Definition lines_fit (together : bool) (n : N) (text : bytes) : Prop :=
  exists ls last, split_byte text x0a = ls ++ [last] /\ Forall (fun l => (lenN l < n)%N) ls /\
    ((lenN last < n)%N \/ together = true /\ lenN last = n).

(** A line "key: value" with exactly one ": ". *)
Definition key_value (line k v : bytes) : Prop :=
  line = k ++ bs ": " ++ v /\ forall p r, line = p ++ bs ": " ++ r -> p = k.
Definition known_keys : list bytes :=
  map bs ["StorePath"; "URL"; "Compression"; "FileHash"; "FileSize"; "NarHash"; "NarSize";
          "References"; "Deriver"; "System"; "Sig"; "CA"]%string.
(** The values of a key, in order. *)
Definition values (k : string) (kvs : list (bytes * bytes)) : list bytes :=
  map snd (filter (fun kv => beq (fst kv) (bs k)) kvs).

(** [n] is what the text says: the last scalar line wins, hashes, sizes and
    signatures must all parse, references and signatures accumulate. *)
Definition reads (text : bytes) (n : narinfo) : Prop :=
  exists kvs,
    Forall2 (fun l kv => key_value l (fst kv) (snd kv)) (text_lines text) kvs /\
    Forall (fun kv => In (fst kv) known_keys) kvs /\
    ni_StorePath n = last (values "StorePath" kvs) [] /\
    ni_URL n = last (values "URL" kvs) [] /\
    ni_Compression n = match last (values "Compression" kvs) [] with [] => bs "bzip2" | c => c end /\
    (exists hs, Forall2 (fun v h => ParseAny v None = Ok h) (values "FileHash" kvs) hs /\
       ni_FileHash n = last (map Some hs) None) /\
    (exists xs, Forall2 (fun v x => ParseUint v = Ok x) (values "FileSize" kvs) xs /\ ni_FileSize n = last xs 0%N) /\
    (exists hs, Forall2 (fun v h => ParseAny v None = Ok h) (values "NarHash" kvs) hs /\
       ni_NarHash n = last (map Some hs) None) /\
    (exists xs, Forall2 (fun v x => ParseUint v = Ok x) (values "NarSize" kvs) xs /\ ni_NarSize n = last xs 0%N) /\
    ni_References n = concat (map (fun v => match v with [] => [] | _ => split_byte v " "%byte end) (values "References" kvs)) /\
    ni_Deriver n = last (filter (fun v => negb (beq v (bs "unknown-deriver"))) (values "Deriver" kvs)) [] /\
    ni_System n = last (values "System" kvs) [] /\
    Forall2 (fun v s => ParseSignature v = Ok s) (values "Sig" kvs) (ni_Signatures n) /\
    ni_CA n = last (values "CA" kvs) [].

(** * Well-formed values (C41) *)
(** Text that fits on a "key: value" line. *)
Definition line_text (v : bytes) : Prop :=
  ~ In x0a v /\ (forall p, v <> p ++ [x0d]) /\ (forall p r, v <> p ++ bs ": " ++ r).
(** References, printed with a space between them, can be told apart: none has a
    space in it, together they fit on a line, and they are not one empty one. *)
Definition reference_list (l : list bytes) : Prop :=
  Forall (fun r => ~ In " "%byte r) l /\ line_text (join_byte l " "%byte) /\ l <> [[]].
(** A hash that prints with its algorithm. *)
Definition printable_hash (h : hash_enc) : Prop :=
  wf_hash (he_hash h) /\ known_encoding (he_enc h) = true /\ he_incl h = true.
(** A hash whose own text is read back, which is wider: a base64 digest need not
    have the size its algorithm demands (see C15). *)
Definition readable_hash (h : hash_enc) : Prop := exists s, he_String h = Ok s /\ ParseAny s None = Ok h.
Definition narinfo_form (good : hash_enc -> Prop) (n : narinfo) : Prop :=
  line_text (ni_StorePath n) /\ line_text (ni_URL n) /\ line_text (ni_Compression n) /\ ni_Compression n <> [] /\
  match ni_FileHash n with
  | None => ni_FileSize n = 0%N
  | Some h => good h /\ (0 < ni_FileSize n < 2 ^ 64)%N
  end /\
  (exists h, ni_NarHash n = Some h /\ good h) /\ (ni_NarSize n < 2 ^ 64)%N /\
  reference_list (ni_References n) /\
  line_text (ni_Deriver n) /\ ni_Deriver n <> bs "unknown-deriver" /\ line_text (ni_System n) /\ line_text (ni_CA n) /\
  Forall (fun s => key_name (sig_name s) /\ ~ In x0a (sig_name s) /\ length (sig_data s) = 64) (ni_Signatures n).
Definition wf_narinfo : narinfo -> Prop := narinfo_form printable_hash.
Definition lossless : narinfo -> Prop := narinfo_form readable_hash.

(** * Printing what was read (C98) *)
(** What String prints of a narinfo: the hash and the size of the file only together. *)
Definition printed (n : narinfo) : narinfo :=
  let both := match ni_FileHash n with Some _ => negb (N.eqb (ni_FileSize n) 0) | None => false end in
  NarInfo (ni_StorePath n) (ni_URL n) (ni_Compression n)
    (if both then ni_FileHash n else None) (if both then ni_FileSize n else 0%N)
    (ni_NarHash n) (ni_NarSize n) (ni_References n) (ni_Deriver n) (ni_System n) (ni_Signatures n) (ni_CA n).
(** The lines of the text that give references. *)
Definition reference_lines (text : bytes) : list bytes :=
  filter (fun l => has_prefix l (bs "References: ")) (text_lines text).

(** * Fingerprint (C43) *)
Definition fingerprint_text (sp hash size : bytes) (refs : list bytes) : bytes :=
  bs "1;" ++ sp ++ bs ";" ++ hash ++ bs ";" ++ size ++ bs ";" ++
  join_byte (map (fun r => bs "/nix/store/" ++ r) refs) ","%byte.
Definition fingerprintable (n : narinfo) : Prop :=
  ~ In ";"%byte (ni_StorePath n) /\ (exists h, ni_NarHash n = Some h /\ wf_hash (he_hash h)) /\
  (ni_NarSize n < 2 ^ 64)%N /\ Forall (fun r => ~ In ","%byte r) (ni_References n).

(** * Consistency of an uncompressed narinfo (C44) *)
Definition consistent (n : narinfo) : Prop :=
  ni_Compression n = bs "none" ->
  (ni_FileSize n <> 0%N -> ni_FileSize n = ni_NarSize n) /\
  (forall f h, ni_FileHash n = Some f -> ni_NarHash n = Some h -> he_hash f = he_hash h).
(** The hash algorithms are known ones. *)
Definition known_algorithms (n : narinfo) : Prop :=
  forall h, ni_FileHash n = Some h \/ ni_NarHash n = Some h -> digest_size (h_algo (he_hash h)) <> None.
