(** Properties C45-C48 of /repo/pkg/narinfo/signature. *)
From Verif Require Import Base.Bytes Base.BytesFacts Model.GoStd Model.Nixhash Model.Signature Spec.HashSpec Spec.SignatureSpec
  Proof.Codec Proof.HashProps Proof.SignatureProps.
Ltac Zify.zify_post_hook ::= idtac.

(** C45: printing and parsing. *)
Theorem C45_signature_roundtrip : forall name data, key_name name -> length data = 64 ->
  ParseSignature (sig_String (Sig name data)) = Ok (Sig name data).
Proof. intros name data H1 H2. unfold ParseSignature, sig_String. cbn [sig_name sig_data]. rewrite decode_encode; auto; discriminate. Qed.
Print Assumptions C45_signature_roundtrip.
Theorem C45_public_key_roundtrip : forall name data, key_name name -> length data = 32 ->
  ParsePublicKey (pk_String (PK name data)) = Ok (PK name data).
Proof. intros name data H1 H2. unfold ParsePublicKey, pk_String. cbn [pk_name pk_data]. rewrite decode_encode; auto; discriminate. Qed.
Print Assumptions C45_public_key_roundtrip.
Theorem C45_secret_key_roundtrip : forall name data, key_name name -> length data = 64 ->
  LoadSecretKey (sk_String (SK name data)) = Ok (SK name data).
Proof. intros name data H1 H2. unfold LoadSecretKey, sk_String. cbn [sk_name sk_data]. rewrite decode_encode; auto; discriminate. Qed.
Print Assumptions C45_secret_key_roundtrip.
(** Only texts "<name>:<base64>" with a non-empty name and exactly the right
    number of bytes are accepted, and nothing panics. *)
Theorem C45_accepted : forall s,
  (forall r, ParseSignature s = Ok r -> key_name (sig_name r) /\ length (sig_data r) = 64 /\
     exists t, s = sig_name r ++ ":"%byte :: t /\ b64_decode t = Ok (sig_data r)) /\
  (forall r, ParsePublicKey s = Ok r -> key_name (pk_name r) /\ length (pk_data r) = 32 /\
     exists t, s = pk_name r ++ ":"%byte :: t /\ b64_decode t = Ok (pk_data r)) /\
  (forall r, LoadSecretKey s = Ok r -> key_name (sk_name r) /\ length (sk_data r) = 64 /\
     exists t, s = sk_name r ++ ":"%byte :: t /\ b64_decode t = Ok (sk_data r)) /\
  is_panic (ParseSignature s) = false /\ is_panic (ParsePublicKey s) = false /\ is_panic (LoadSecretKey s) = false.
Proof.
  intros s. unfold ParseSignature, ParsePublicKey, LoadSecretKey.
  assert (P : forall n A (f : bytes * bytes -> A), is_panic (let* r := decode s n in Ok (f r)) = false).
  { intros n A f. pose proof (decode_no_panic s n) as H. destruct (decode s n); [reflexivity|reflexivity|discriminate]. }
  repeat split; try apply P; revert r H;
    match goal with |- context [decode s ?n] => destruct (decode s n) as [[nm d]|e|w] eqn:E end;
    cbn [rbind fst snd]; intros r H; try discriminate; apply ok_inj in H; subst r;
    apply decode_inv in E; destruct E as ((A1 & A2) & B & t & C & _ & D); cbn; eauto.
Qed.
Print Assumptions C45_accepted.
(** A canonical text prints back. *)
Theorem C45_prints_back : forall s r t, ParseSignature s = Ok r -> s = sig_name r ++ ":"%byte :: t ->
  canonical_text Base64 t -> sig_String r = s.
Proof.
  intros s r t. unfold ParseSignature. destruct (decode s SignatureSize) as [[nm d]|e|w] eqn:E; cbn [rbind]; try discriminate.
  intros H. apply ok_inj in H. subst r. cbn [sig_name fst snd]. intros H1 H2. eapply decode_printback; eauto.
Qed.
Print Assumptions C45_prints_back.
Definition ex_name : bytes := bs "cache.nixos.org-1".
Example C45_nonvacuous : key_name ex_name /\
  is_ok (ParseSignature (sig_String (Sig ex_name (repeat x61 64)))) = true /\
  is_err (ParseSignature (sig_String (Sig ex_name (repeat x61 63)))) = true /\
  is_err (ParseSignature (sig_String (Sig [] (repeat x61 64)))) = true /\
  is_err (ParsePublicKey (ex_name)) = true.
Proof.
  split; [split; [discriminate|cbn; intuition discriminate]|]. vm_compute. auto.
Qed.

(** C46 *)
Theorem C46_verify_sound : forall ed_verify fp sigs keys,
  VerifyFirst ed_verify fp sigs keys = Ok true ->
  exists s k, In s sigs /\ In k keys /\ genuine ed_verify fp s k.
Proof. exact VerifyFirst_sound. Qed.
Print Assumptions C46_verify_sound.
Theorem C46_verify_single_sound : forall ed_verify fp s k,
  pk_Verify ed_verify k fp s = Ok true <-> genuine ed_verify fp s k.
Proof. intros ed_verify fp s k. apply pk_Verify_true. Qed.
Print Assumptions C46_verify_single_sound.
Theorem C46_no_panic : forall ed_verify fp sigs keys,
  Forall (fun k => length (pk_data k) = 32) keys -> is_panic (VerifyFirst ed_verify fp sigs keys) = false.
Proof. exact VerifyFirst_no_panic. Qed.
Print Assumptions C46_no_panic.

(** C47 holds only if every signature that bears the name of a key is genuine ... *)
Theorem C47_verify_complete_partial : forall ed_verify fp sigs keys s k,
  In s sigs -> In k keys -> genuine ed_verify fp s k ->
  (forall s' k', In s' sigs -> In k' keys -> sig_name s' = pk_name k' -> genuine ed_verify fp s' k') ->
  VerifyFirst ed_verify fp sigs keys = Ok true.
Proof. intros ed_verify fp sigs keys s k H1 H2 (H3 & _) H4. eapply VerifyFirst_complete; eauto. Qed.
Print Assumptions C47_verify_complete_partial.
(** ... because the verdict is that of the first match, in the order of the keys. *)
Theorem C47_first_match_decides_partial : forall ed_verify fp sigs ks k ks' l s l',
  sigs = l ++ s :: l' -> sig_name s = pk_name k -> Forall (fun x => sig_name x <> pk_name k) l ->
  Forall (fun k' => Forall (fun x => sig_name x <> pk_name k') sigs) ks ->
  VerifyFirst ed_verify fp sigs (ks ++ k :: ks') = pk_Verify ed_verify k fp s.
Proof. exact VerifyFirst_first. Qed.
Print Assumptions C47_first_match_decides_partial.
Theorem C47_verify_complete_refuted : forall ed_verify fp k good bad,
  genuine ed_verify fp good k -> sig_name bad = pk_name k -> ~ genuine ed_verify fp bad k ->
  VerifyFirst ed_verify fp [bad; good] [k] <> Ok true.
Proof.
  intros ed_verify fp k good bad H1 H2 H3 H. apply H3. apply pk_Verify_true. rewrite <- H.
  symmetry. apply (VerifyFirst_first ed_verify fp [bad; good] [] k [] [] bad [good]); auto.
Qed.
Print Assumptions C47_verify_complete_refuted.

(** C48: a fresh key's signature verifies, also after printing and parsing. *)
Theorem C48_signing_verifies : forall ed_pub ed_sign ed_verify,
  ed25519_correct ed_pub ed_sign ed_verify -> forall name seed sk pk fp,
  length seed = 32 -> GenerateKeypair ed_pub name (Ok seed) = Ok (sk, pk) ->
  exists s, sk_Sign ed_sign sk fp = Ok s /\ ToPublicKey sk = Ok pk /\
    pk_Verify ed_verify pk fp s = Ok true /\ VerifyFirst ed_verify fp [s] [pk] = Ok true /\
    (key_name name ->
     LoadSecretKey (sk_String sk) = Ok sk /\
     ParsePublicKey (pk_String pk) = Ok pk /\ ParseSignature (sig_String s) = Ok s).
Proof.
  intros ep es ev HC name seed sk pk fp Hs H.
  destruct (sign_verifies ep es ev name seed sk pk fp HC Hs H) as (s & A & B & C & D & E & F & G).
  exists s. split; [exact A|]. split; [exact B|]. split; [apply pk_Verify_true; exact C|]. split.
  - destruct C as (C1 & C2). eapply VerifyFirst_complete with (s := s) (k := pk); [left; reflexivity|left; reflexivity|exact C1|].
    intros s' k' [<-|[]] [<-|[]] _. split; [exact C1|exact C2].
  - intros Hn. destruct C as (_ & C2 & C3 & _). destruct s, pk, sk. cbn in *. subst.
    split; [apply C45_secret_key_roundtrip; auto|]. split; [apply C45_public_key_roundtrip; auto|apply C45_signature_roundtrip; auto].
Qed.
Print Assumptions C48_signing_verifies.
(** The assumption on ed25519 can be met, and distinguishes messages. *)
Definition toy_pub (seed : bytes) : bytes := firstn 32 (seed ++ repeat x00 32).
Definition toy_sign (key msg : bytes) : bytes := firstn 64 (msg ++ repeat x00 64).
Definition toy_verify (pub msg sig : bytes) : bool := beq sig (firstn 64 (msg ++ repeat x00 64)).
Example C48_nonvacuous : ed25519_correct toy_pub toy_sign toy_verify /\
  exists sk pk s, GenerateKeypair toy_pub ex_name (Ok (repeat x07 32)) = Ok (sk, pk) /\
    sk_Sign toy_sign sk (bs "1;a") = Ok s /\ pk_Verify toy_verify pk (bs "1;b") s = Ok false.
Proof.
  split.
  - unfold ed25519_correct, toy_pub, toy_sign, toy_verify. split; [|split].
    + intros seed H. rewrite firstn_length, app_length, repeat_length. lia.
    + intros key msg. rewrite firstn_length, app_length, repeat_length. lia.
    + intros. apply beq_refl.
  - eexists _, _, _. split; [reflexivity|]. split; [reflexivity|]. vm_compute. reflexivity.
Qed.
Example C47_nonvacuous : exists k good bad,
  genuine toy_verify (bs "1;a") good k /\ sig_name bad = pk_name k /\ ~ genuine toy_verify (bs "1;a") bad k.
Proof.
  exists (PK ex_name (repeat x07 32)), (Sig ex_name (toy_sign [] (bs "1;a"))), (Sig ex_name (toy_sign [] (bs "1;b"))).
  split; [vm_compute; auto|]. split; [reflexivity|]. intros (_ & _ & _ & H). vm_compute in H. discriminate.
Qed.
