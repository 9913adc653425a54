(** Properties C14-C18: nixhash. *)
From Verif Require Import Base.Bytes Model.GoStd Model.Nixhash Spec.HashSpec Proof.HashProps.

(** C14: parsing what Format printed gives the hash back and remembers the
    encoding; the algorithm comes from the string or from optAlgo. *)
Theorem C14_parse_inverts_format : forall h e incl opt,
  wf_hash h -> known_encoding e = true ->
  (opt = Some (h_algo h) \/ (opt = None /\ (incl = true \/ e = SRI))) ->
  exists s, Format h e incl = Ok s /\ ParseAny s opt = Ok (HashEnc h e (incl || is_SRI e)).
Proof. exact parse_format. Qed.
Print Assumptions C14_parse_inverts_format.
Theorem C14_ParseNixBase32 : forall h, wf_hash h ->
  exists s, Format h NixBase32 true = Ok s /\ ParseNixBase32 s = Ok h.
Proof.
  intros h Hw. destruct (parse_format h NixBase32 true None Hw eq_refl) as (s & A & B); [auto|].
  exists s. split; [exact A|]. unfold ParseNixBase32. rewrite B. reflexivity.
Qed.
Print Assumptions C14_ParseNixBase32.
(** ParseNixBase32 accepts nothing else. *)
Theorem C14_ParseNixBase32_exact : forall s h,
  ParseNixBase32 s = Ok h <-> wf_hash h /\ Format h NixBase32 true = Ok s.
Proof.
  intros s h. split.
  - unfold ParseNixBase32. destruct (ParseAny s None) as [r|e|w] eqn:E; try discriminate. cbn [rbind].
    destruct (he_enc r) eqn:Ee; try discriminate. intros H. injection H as <-.
    pose proof (parse_digest_size _ _ _ E) as Hw. rewrite Ee in Hw. split; [exact Hw|].
    destruct (ParseAny_inv _ _ _ E) as (text & b & H1 & _ & _ & H4 & _).
    assert (Hi : he_incl r = true) by (destruct (he_incl r); [reflexivity|discriminate (H4 eq_refl)]).
    pose proof (printback _ _ _ _ E H1) as HP. rewrite Ee in HP. specialize (HP I). unfold he_String in HP. rewrite Ee, Hi in HP. exact HP.
  - intros [Hw HF]. destruct (C14_ParseNixBase32 h Hw) as (s' & H1 & H2). congruence.
Qed.
Print Assumptions C14_ParseNixBase32_exact.
Example C14_nonvacuous :
  let h := Hash SHA1 (repeat x41 20) in
  wf_hash h /\ Format h SRI false = Ok (bs "sha1-QUFBQUFBQUFBQUFBQUFBQUFBQUE=") /\
  Format h Base16 true = Ok (bs "sha1:4141414141414141414141414141414141414141").
Proof. vm_compute. auto. Qed.

(** C15 is false: the base64 branch checks only the length of the text. *)
Theorem C15_refuted_short : exists s r, ParseAny s None = Ok r /\ h_algo (he_hash r) = SHA256 /\
  length (h_digest (he_hash r)) = 31.
Proof.
  exists (bs "sha256:QUFBQUFBQUFBQUFBQUFBQUFBQUFBQUFBQUFBQUFBQQ==").
  eexists. vm_compute. auto.
Qed.
Print Assumptions C15_refuted_short.
Theorem C15_refuted_long : exists s r, ParseAny s None = Ok r /\ h_algo (he_hash r) = SHA256 /\
  length (h_digest (he_hash r)) = 33.
Proof.
  exists (bs "sha256-QUFBQUFBQUFBQUFBQUFBQUFBQUFBQUFBQUFBQUFBQUFB").
  eexists. vm_compute. auto.
Qed.
Print Assumptions C15_refuted_long.
(** Even 0 bytes, from 44 line feeds. *)
Theorem C15_refuted_newlines : exists r, ParseAny (repeat x0a 44) (Some SHA256) = Ok r /\ h_digest (he_hash r) = [].
Proof. eexists. vm_compute. auto. Qed.
Print Assumptions C15_refuted_newlines.
(** What holds: the length is right for the other encodings, and bounded for base64. *)
Theorem C15_digest_length_partial : forall s opt r, ParseAny s opt = Ok r ->
  match he_enc r with
  | Base16 | NixBase32 => wf_hash (he_hash r)
  | _ => exists n, digest_size (h_algo (he_hash r)) = Some n /\ length (h_digest (he_hash r)) <= (n + 2) / 3 * 3
  end.
Proof. exact parse_digest_size. Qed.
Print Assumptions C15_digest_length_partial.
Example C15_nonvacuous :
  is_ok (ParseAny (bs "sha1:4141414141414141414141414141414141414141") None) = true /\
  is_ok (ParseAny (bs "sha1-QUFBQUFBQUFBQUFBQUFBQUFBQUE=") None) = true.
Proof. vm_compute. auto. Qed.

(** C16 *)
Theorem C16_algorithm_honoured : forall s opt r, ParseAny s opt = Ok r ->
  (forall o, opt = Some o -> o = h_algo (he_hash r)) /\
  (he_incl r = false -> opt = Some (h_algo (he_hash r))) /\
  (exists text, s = hash_prefix (h_algo (he_hash r)) (he_enc r) (he_incl r) ++ text) /\
  (exists n, digest_size (h_algo (he_hash r)) = Some n).
Proof.
  exact (fun s opt r H => match ParseAny_inv s opt r H with
    ex_intro _ t (ex_intro _ b (conj A (conj B (conj C (conj D E))))) =>
      conj C (conj D (conj (ex_intro _ t A)
        (match parse_rest_inv _ _ _ _ _ B with ex_intro _ n (ex_intro _ _ (ex_intro _ _ (conj Hn _))) => ex_intro _ n Hn end)))
    end).
Qed.
Print Assumptions C16_algorithm_honoured.
Theorem C16_algorithm_required : forall s, ~ In ":"%byte s -> ~ In "-"%byte s -> is_err (ParseAny s None) = true.
Proof. exact ParseAny_no_algo. Qed.
Print Assumptions C16_algorithm_required.
Theorem C16_unknown_prefix_fails : forall p t opt c,
  (c = ":"%byte \/ (c = "-"%byte /\ ~ In ":"%byte (p ++ t))) ->
  p <> [] -> ~ In c p -> (forall a, p = algo_name a -> digest_size a = None) ->
  is_err (ParseAny (p ++ c :: t) opt) = true.
Proof. exact ParseAny_unknown_prefix. Qed.
Print Assumptions C16_unknown_prefix_fails.
Theorem C16_never_panics : forall s opt,
  (forall o, opt = Some o -> digest_size o <> None) -> is_panic (ParseAny s opt) = false.
Proof. exact ParseAny_no_panic. Qed.
Print Assumptions C16_never_panics.
Example C16_nonvacuous :
  is_err (ParseAny (bs "sha3:4141414141414141414141414141414141414141") (Some SHA1)) = true /\
  is_err (ParseAny (bs "sha1:4141414141414141414141414141414141414141") (Some MD5)) = true /\
  is_ok (ParseAny (bs "4141414141414141414141414141414141414141") (Some SHA1)) = true.
Proof. vm_compute. auto. Qed.

(** C17 *)
Theorem C17_prints_back : forall s opt r text,
  ParseAny s opt = Ok r ->
  s = hash_prefix (h_algo (he_hash r)) (he_enc r) (he_incl r) ++ text ->
  canonical_text (he_enc r) text ->
  he_String r = Ok s.
Proof. exact printback. Qed.
Print Assumptions C17_prints_back.
(** The restriction is needed: upper-case hex and spare base64 bits are accepted
    and print back differently. *)
Theorem C17_restriction_needed :
  (exists s r, ParseAny s (Some MD5) = Ok r /\ he_enc r = Base16 /\ he_String r <> Ok s) /\
  (exists s r, ParseAny s (Some MD5) = Ok r /\ he_enc r = Base64 /\ he_String r <> Ok s).
Proof.
  split.
  - exists (bs "AAAAAAAAAAAAAAAAAAAAAAAAAAAAAAAA"). eexists. vm_compute. split; [reflexivity|]. split; [reflexivity|discriminate].
  - exists (bs "QUFBQUFBQUFBQUFBQUFBQX=="). eexists. vm_compute. split; [reflexivity|]. split; [reflexivity|discriminate].
Qed.
Print Assumptions C17_restriction_needed.
Example C17_nonvacuous :
  exists r, ParseAny (bs "md5:QUFBQUFBQUFBQUFBQUFBQQ==") None = Ok r /\
    canonical_text (he_enc r) (bs "QUFBQUFBQUFBQUFBQUFBQQ==") /\ he_String r = Ok (bs "md5:QUFBQUFBQUFBQUFBQUFBQQ==").
Proof.
  eexists. split; [vm_compute; reflexivity|]. split; [|vm_compute; reflexivity].
  cbn [he_enc canonical_text]. split; [repeat constructor; discriminate|].
  vm_compute. intros _ v [= <-]. reflexivity.
Qed.

(** C18 *)
Theorem C18_compress_xor : forall input n, n <> 0 ->
  exists out, CompressHash input n = Ok out /\ length out = n /\
    forall i, i < n -> nth i out x00 = xor_fold input n i.
Proof. exact compress_spec. Qed.
Print Assumptions C18_compress_xor.
Theorem C18_linear : forall a b n ca cb, length a = length b -> n <> 0 ->
  CompressHash a n = Ok ca -> CompressHash b n = Ok cb ->
  CompressHash (xor_bytes a b) n = Ok (xor_bytes ca cb).
Proof. exact compress_linear. Qed.
Print Assumptions C18_linear.
(** It panics exactly if asked to fold something into nothing. *)
Theorem C18_panics_iff : forall input n, (is_panic (CompressHash input n) = true <-> n = 0 /\ input <> []) /\ CompressHash [] 0 = Ok [].
Proof.
  intros input n. split; [|reflexivity]. destruct n as [|n], input as [|b l]; cbn; (split; [intros H; try discriminate H; split; congruence|intros (A & B); try reflexivity; congruence]).
Qed.
Print Assumptions C18_panics_iff.
Example C18_nonvacuous : CompressHash [x01; x02; x04; x08; x10] 2 = Ok [x15; x0a].
Proof. vm_compute. reflexivity. Qed.

(** C111: what the constructors of Hash and HashWithEncoding accept, and what
    they give back.  [digest_size] is the table of the four algorithms. *)
Theorem C111_NewHash : forall a d,
  match digest_size a with
  | None => is_panic (NewHash a d) = true
  | Some n =>
      if Nat.eqb (length d) n
      then exists h, NewHash a d = Ok h /\ h_Algo h = a /\ h_Digest h = d /\ wf_hash h
      else is_err (NewHash a d) = true
  end.
Proof.
  intros a d. unfold NewHash. destruct a; cbn [digest_size algo_Size rbind is_panic]; try reflexivity;
    rewrite (Nat.eqb_sym (length d)); destruct (Nat.eqb _ (length d)) eqn:E; try reflexivity;
    apply Nat.eqb_eq in E; eexists; repeat split; unfold wf_hash; cbn; congruence.
Qed.
Print Assumptions C111_NewHash.
(** The same for the variant that remembers an encoding, whatever the encoding;
    the Must variants panic where the others return an error, and never return one. *)
Theorem C111_constructors : forall a d e incl,
  (forall he, NewHashWithEncoding a d e incl = Ok he <->
     exists h, NewHash a d = Ok h /\ he_hash he = h /\ he_enc he = e /\ he_incl he = incl) /\
  (is_err (NewHashWithEncoding a d e incl) = is_err (NewHash a d)) /\
  (is_panic (NewHashWithEncoding a d e incl) = is_panic (NewHash a d)) /\
  (forall h, MustNewHash a d = Ok h <-> NewHash a d = Ok h) /\
  (forall he, MustNewHashWithEncoding a d e incl = Ok he <-> NewHashWithEncoding a d e incl = Ok he) /\
  is_err (MustNewHash a d) = false /\ is_err (MustNewHashWithEncoding a d e incl) = false.
Proof.
  intros a d e incl. unfold MustNewHashWithEncoding, MustNewHash, NewHashWithEncoding.
  destruct (NewHash a d) as [h|er|w]; cbn; repeat split; try discriminate; try congruence; intros H; try exact H.
  - injection H as <-. exists h. auto.
  - destruct H as (h' & H & <- & <- & <-). injection H as ->. destruct he; reflexivity.
  - destruct H as (h' & H & _). discriminate.
  - destruct H as (h' & H & _). discriminate.
Qed.
Print Assumptions C111_constructors.
Theorem C111_MustParseNixBase32 : forall s,
  (forall h, MustParseNixBase32 s = Ok h <-> wf_hash h /\ Format h NixBase32 true = Ok s) /\
  is_err (MustParseNixBase32 s) = false.
Proof.
  intros s. split.
  - intros h. rewrite <- C14_ParseNixBase32_exact. unfold MustParseNixBase32.
    destruct (ParseNixBase32 s); cbn; split; congruence.
  - unfold MustParseNixBase32. destruct (ParseNixBase32 s); reflexivity.
Qed.
Print Assumptions C111_MustParseNixBase32.
(** Every value the constructor returns for a known encoding prints, and the text
    reads back as the same hash in the same encoding and prints the same again. *)
Theorem C111_prints : forall a d e incl he, known_encoding e = true ->
  NewHashWithEncoding a d e incl = Ok he ->
  exists s he', he_String he = Ok s /\ ParseAny s (Some a) = Ok he' /\ he_String he' = Ok s /\
    h_Algo (he_hash he') = a /\ h_Digest (he_hash he') = d /\ he_enc he' = e /\
    (e <> SRI -> he' = he) /\
    (incl = true \/ e = SRI -> ParseAny s None = Ok he').
Proof.
  intros a d e incl he Hk HN.
  destruct (proj1 (proj1 (C111_constructors a d e incl) he) HN) as (h & H1 & H2 & H3 & H4).
  assert (Hw : wf_hash h /\ h_algo h = a /\ h_digest h = d).
  { pose proof (C111_NewHash a d) as H. rewrite H1 in H. destruct (digest_size a); [|discriminate H].
    destruct (Nat.eqb _ _); [|discriminate H]. destruct H as (h' & A & B & C & D). injection A as <-. auto. }
  destruct Hw as (Hw & Ha & Hd).
  destruct he as [hh ee ii]; cbn in H2, H3, H4; subst hh ee ii.
  destruct (parse_format h e incl (Some a) Hw Hk) as (s & A & B); [left; congruence|].
  exists s, (HashEnc h e (incl || is_SRI e)). unfold he_String. cbn [he_hash he_enc he_incl h_Algo h_Digest].
  repeat split; auto.
  - destruct e; cbn [is_SRI]; try rewrite orb_false_r; exact A.
  - intros Hn. destruct e; cbn [is_SRI]; try rewrite orb_false_r; try reflexivity; congruence.
  - intros Hi. destruct (parse_format h e incl None Hw Hk) as (s2 & A2 & B2); [right; auto|]. congruence.
Qed.
Print Assumptions C111_prints.
Example C111_nonvacuous :
  let d := repeat x41 20 in
  NewHash SHA1 d = Ok (Hash SHA1 d) /\ is_err (NewHash SHA256 d) = true /\ is_panic (NewHash (ABad 0) d) = true /\
  is_err (NewHash SHA1 (x41 :: d)) = true /\ is_panic (MustNewHash SHA256 d) = true /\
  (exists he, NewHashWithEncoding SHA1 d SRI false = Ok he /\ he_String he = Ok (bs "sha1-QUFBQUFBQUFBQUFBQUFBQUFBQUE=")).
Proof.
  repeat split; try (vm_compute; reflexivity).
  exists (HashEnc (Hash SHA1 (repeat x41 20)) SRI false). split; vm_compute; reflexivity.
Qed.
