(** C126: exactly which texts ParseAny reads, and as what.  C42 and C45 against
    texts spelt out without a parser. *)
From Verif Require Import Base.Bytes Base.BytesFacts Model.GoIO Model.GoStd Model.Nixhash Model.Signature Model.NarInfo Spec.HashSpec Spec.HashTextSpec
  Spec.SignatureSpec Spec.NarInfoSpec Spec.NarInfoText Proof.HashProps Proof.HashText Proof.SignatureProps Proof.NarInfoMore Proof.NarInfoTextFacts.
Ltac Zify.zify_post_hook ::= idtac.

(** * C126 *)
Theorem C126_exact : forall s known h, ParseAny s known = Ok h <-> hash_says s known h.
Proof. exact ParseAny_exact. Qed.
Print Assumptions C126_exact.
(** A text says at most one thing: the encodings of one algorithm cannot be
    mistaken for each other, nor a bare text for a prefixed one. *)
Theorem C126_unambiguous : forall s known h1 h2, hash_says s known h1 -> hash_says s known h2 -> h1 = h2.
Proof. intros s known h1 h2 H1 H2. apply ParseAny_exact in H1. apply ParseAny_exact in H2. congruence. Qed.
Print Assumptions C126_unambiguous.
(** What Format writes of a digest of the right size says that digest. *)
Theorem C126_format_says : forall h e incl s, wf_hash h -> known_encoding e = true -> Format h e incl = Ok s ->
  hash_says s (if incl || is_SRI e then None else Some (h_algo h)) (HashEnc h e (incl || is_SRI e)).
Proof.
  intros h e incl s Hw He Hf. apply ParseAny_exact.
  destruct (parse_format h e incl (if incl || is_SRI e then None else Some (h_algo h)) Hw He) as (s' & A & B).
  - destruct incl; [right; auto|]. destruct e; cbn; auto.
  - assert (s' = s) by congruence. subst s'. exact B.
Qed.
Print Assumptions C126_format_says.
(** The decoders underneath: base 16 in both cases, base 64 with line breaks
    anywhere and the spare bits of the last digit unread; both unambiguous. *)
Theorem C126_decoders : forall t d, (hex_decode t = Ok d <-> hex_text t d) /\ (b64_decode t = Ok d <-> b64_text t d).
Proof. exact (fun t d => conj (hex_text_iff t d) (b64_text_iff t d)). Qed.
Print Assumptions C126_decoders.
(** The encoder writes a text of the bytes, and the only one without line breaks
    and with its spare bits zero. *)
Theorem C126_base64_only : forall t d, b64_text t d -> canonical_text Base64 t -> t = b64_encode d.
Proof. intros t d H [C1 C2]. apply b64_text_iff in H. symmetry. apply b64_printback; assumption. Qed.
Print Assumptions C126_base64_only.
Theorem C126_base64_of : forall d, b64_text (b64_encode d) d.
Proof. intros d. apply b64_text_iff, Codec.b64_roundtrip. Qed.
Print Assumptions C126_base64_of.
Definition sample_sha1 : hash := Hash SHA1 (repeat x41 20).
Example C126_nonvacuous :
  hash_says (bs "sha1-QUFBQUFBQUFBQUFBQUFBQUFBQUE=") None (HashEnc sample_sha1 SRI true) /\
  hash_says (bs "QUFBQUFBQUFBQUFBQUFBQUFBQUF=") (Some SHA1) (HashEnc sample_sha1 Base64 false) /\
  hash_says (bs "sha1:4141414141414141414141414141414141414141") (Some SHA1) (HashEnc sample_sha1 Base16 true) /\
  (forall h, ~ hash_says (bs "sha1-4141414141414141414141414141414141414141") None h) /\
  b64_text (bs "QQ==") [x41] /\ b64_text (x0a :: bs "QR==") [x41] /\ (forall d, ~ b64_text (bs "Q===") d) /\ hex_text (bs "fF") [xff].
Proof.
  split; [apply ParseAny_exact; vm_compute; reflexivity|]. split; [apply ParseAny_exact; vm_compute; reflexivity|].
  split; [apply ParseAny_exact; vm_compute; reflexivity|]. split.
  { intros h H. apply ParseAny_exact in H. vm_compute in H. discriminate. }
  split; [apply b64_text_iff; vm_compute; reflexivity|]. split; [apply b64_text_iff; vm_compute; reflexivity|].
  split; [intros d H; apply b64_text_iff in H; vm_compute in H; discriminate|apply hex_text_iff; vm_compute; reflexivity].
Qed.

(** * C45: signatures and keys *)
Theorem C45_exact : forall s,
  (forall r, ParseSignature s = Ok r <-> key_text 64 s (sig_name r) (sig_data r)) /\
  (forall r, ParsePublicKey s = Ok r <-> key_text 32 s (pk_name r) (pk_data r)) /\
  (forall r, LoadSecretKey s = Ok r <-> key_text 64 s (sk_name r) (sk_data r)).
Proof. exact (fun s => conj (sig_exact s) (conj (pk_exact s) (sk_exact s))). Qed.
Print Assumptions C45_exact.
(** Parsing never loses anything: what was parsed prints as a text that parses to
    the same value. *)
Theorem C45_again : forall s,
  (forall r, ParseSignature s = Ok r -> ParseSignature (sig_String r) = Ok r) /\
  (forall r, ParsePublicKey s = Ok r -> ParsePublicKey (pk_String r) = Ok r) /\
  (forall r, LoadSecretKey s = Ok r -> LoadSecretKey (sk_String r) = Ok r).
Proof.
  intros s. split; [|split]; intros [n d] H.
  - apply sig_exact in H. destruct H as (A & B & _). apply sig_exact. split; [exact A|]. split; [exact B|]. exists (b64_encode d).
    split; [reflexivity|apply b64_text_iff, Codec.b64_roundtrip].
  - apply pk_exact in H. destruct H as (A & B & _). apply pk_exact. split; [exact A|]. split; [exact B|]. exists (b64_encode d).
    split; [reflexivity|apply b64_text_iff, Codec.b64_roundtrip].
  - apply sk_exact in H. destruct H as (A & B & _). apply sk_exact. split; [exact A|]. split; [exact B|]. exists (b64_encode d).
    split; [reflexivity|apply b64_text_iff, Codec.b64_roundtrip].
Qed.
Print Assumptions C45_again.
Example C45_exact_nonvacuous : key_text 64 (bs "k:" ++ b64_encode (repeat x41 64)) (bs "k") (repeat x41 64).
Proof. apply (sig_exact _ (Sig (bs "k") (repeat x41 64))). vm_compute. reflexivity. Qed.

(** * C42: the whole text, without a parser in the statement *)
Theorem C42_text_exact : forall r n, Forall (fun c => c <> []) (chunks r) ->
  Parse r = Ok n <-> fin r = EEOF /\ narinfo_text (src_data r) n /\ lines_fit (eager r) 1048576 (src_data r).
Proof. intros r n H. rewrite <- reads_text. exact (Parse_exact r n H). Qed.
Print Assumptions C42_text_exact.
Theorem C42_reads_is_text : forall text n, reads text n <-> narinfo_text text n.
Proof. exact reads_text. Qed.
Print Assumptions C42_reads_is_text.
Definition small_text : bytes := bs "URL: a" ++ [x0a] ++ bs "NarSize: 42" ++ [x0d; x0a].
Example C42_text_nonvacuous : exists n, narinfo_text small_text n /\ ni_NarSize n = 42%N /\ lines_fit false 1048576 small_text.
Proof.
  destruct (Parse (Src [small_text] EEOF false)) as [n|e|w] eqn:E; [|vm_compute in E; discriminate|vm_compute in E; discriminate].
  exists n. pose proof E as E'. apply C42_text_exact in E'; [|constructor; [discriminate|constructor]]. destruct E' as (_ & A & B).
  split; [exact A|]. split; [|exact B]. assert (X : Ok (ni_NarSize n) = (let* n := Parse (Src [small_text] EEOF false) in Ok (ni_NarSize n))) by (rewrite E; reflexivity).
  vm_compute in X. inversion X. reflexivity.
Qed.
