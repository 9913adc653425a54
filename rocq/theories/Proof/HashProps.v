(** Proofs of the nixhash properties C14-C18. *)
From Verif Require Import Base.Bytes Base.BytesFacts Model.GoStd Model.Nixbase32 Model.Nixhash
  Spec.Base32Spec Spec.HashSpec Proof.Bits Proof.Base32Facts Proof.Base32Props Proof.Codec.
Ltac Zify.zify_post_hook ::= idtac.
Arguments N.add : simpl never.
Arguments N.sub : simpl never.
Arguments N.mul : simpl never.
Arguments N.modulo : simpl never.
Arguments N.div : simpl never.
Arguments Nat.div : simpl never.
Arguments Nat.modulo : simpl never.

Lemma ok_inj {A} (a b : A) : Ok a = Ok b -> a = b.
Proof. congruence. Qed.

Lemma size_spec a n : algo_Size a = Ok n <-> digest_size a = Some n.
Proof. destruct a; cbn; split; congruence. Qed.
Lemma name_spec a n : digest_size a = Some n -> algo_String a = Ok (algo_name a).
Proof. destruct a; cbn; congruence. Qed.
Lemma ParseAlgorithm_name a n : digest_size a = Some n -> ParseAlgorithm (algo_name a) = Ok a.
Proof. destruct a; cbn; try reflexivity; discriminate. Qed.
Lemma ParseAlgorithm_inv s a : ParseAlgorithm s = Ok a -> s = algo_name a /\ exists n, digest_size a = Some n.
Proof.
  unfold ParseAlgorithm.
  destruct (beq_spec s (bs "md5")); [intros [= <-]; cbn; eauto|].
  destruct (beq_spec s (bs "sha1")); [intros [= <-]; cbn; eauto|].
  destruct (beq_spec s (bs "sha256")); [intros [= <-]; cbn; eauto|].
  destruct (beq_spec s (bs "sha512")); [intros [= <-]; cbn; eauto|]. discriminate.
Qed.
Lemma ParseAlgorithm_no_panic s : is_panic (ParseAlgorithm s) = false.
Proof. unfold ParseAlgorithm. repeat (destruct (beq _ _); [reflexivity|]). reflexivity. Qed.

(** * Bodies *)
Definition body (e : encoding) (d : bytes) : bytes :=
  match e with
  | Base16 => hex_encode d
  | NixBase32 => EncodeToString d
  | _ => b64_encode d
  end.
Lemma Format_ok h e incl n : digest_size (h_algo h) = Some n -> known_encoding e = true ->
  Format h e incl = Ok (hash_prefix (h_algo h) e incl ++ body e (h_digest h)).
Proof.
  intros Hs He. unfold Format, hash_prefix. rewrite (name_spec _ _ Hs).
  destruct e; try discriminate He; destruct incl; reflexivity.
Qed.

Definition sep_free (s : bytes) : Prop := ~ In ":"%byte s /\ ~ In "-"%byte s.
Lemma Forall_notin (c : byte) (l al : bytes) :
  existsb (byte_eqb c) al = false -> Forall (fun x => In x al) l -> ~ In c l.
Proof.
  intros Ha Hl Hin. rewrite Forall_forall in Hl. apply Hl in Hin.
  apply contains_byte_iff in Hin. unfold contains_byte in Hin. congruence.
Qed.
Lemma b64_ch_in l : Forall b64_ch l -> Forall (fun c => In c (pad_char :: b64_alphabet)) l.
Proof. apply Forall_impl. intros c [H| ->]; [right; exact H|left; reflexivity]. Qed.
Lemma body_sep e d : sep_free (body e d).
Proof.
  assert (H64 : sep_free (b64_encode d)).
  { split; eapply Forall_notin; try (apply b64_ch_in, b64_encode_chars); reflexivity. }
  destruct e; cbn [body]; try exact H64.
  - split; eapply Forall_notin; try apply hex_encode_chars; reflexivity.
  - split; eapply Forall_notin; try apply encode_alphabet; reflexivity.
Qed.
Lemma index_pos_none s c : ~ In c s -> index_pos s c = None.
Proof. intros H. unfold index_pos. apply index_byte_none in H. rewrite H. reflexivity. Qed.
Lemma index_pos_first p c r : p <> [] -> ~ In c p -> index_pos (p ++ c :: r) c = Some (length p).
Proof.
  intros Hp H. unfold index_pos. rewrite index_byte_first by exact H.
  destruct p; [congruence|reflexivity].
Qed.
Lemma name_sep a n : digest_size a = Some n -> sep_free (algo_name a) /\ algo_name a <> [].
Proof.
  intros H. split; [|destruct a; cbn in *; discriminate].
  split; apply contains_byte_false; destruct a; reflexivity.
Qed.

(** The four encodings of one size have different lengths (SRI shares Base64's). *)
Lemma body_length e d : length (body e d) =
  match e with
  | Base16 => hex_EncodedLen (length d)
  | NixBase32 => EncodedLen (length d)
  | _ => b64_EncodedLen (length d)
  end.
Proof.
  destruct e; cbn [body]; try apply b64_encode_length.
  - rewrite hex_encode_length. unfold hex_EncodedLen. lia.
  - apply encode_length.
Qed.
Lemma parse_rest_body a d e incl :
  digest_size a = Some (length d) -> known_encoding e = true ->
  parse_rest a incl (is_SRI e) (body e d) = Ok (HashEnc (Hash a d) e incl).
Proof.
  intros Hs He. unfold parse_rest. pose proof (proj2 (size_spec _ _) Hs) as Hz. rewrite Hz.
  cbn [rbind]. rewrite body_length.
  assert (Hl : length d = 16 \/ length d = 20 \/ length d = 32 \/ length d = 64).
  { destruct a; cbn in Hs; try discriminate Hs; injection Hs; lia. }
  assert (Hne : Nat.eqb (EncodedLen (length d)) (hex_EncodedLen (length d)) = false /\
    Nat.eqb (b64_EncodedLen (length d)) (hex_EncodedLen (length d)) = false /\
    Nat.eqb (b64_EncodedLen (length d)) (EncodedLen (length d)) = false).
  { destruct Hl as [-> | [-> | [-> | ->]]]; vm_compute; auto. }
  destruct Hne as (N1 & N2 & N3).
  destruct e; try discriminate He; cbn [body is_SRI]; rewrite ?N1, ?N2, ?N3, ?Nat.eqb_refl;
    rewrite ?hex_roundtrip, ?b64_roundtrip, ?decode_encode; reflexivity.
Qed.

Lemma parse_format h e incl opt :
  wf_hash h -> known_encoding e = true ->
  (opt = Some (h_algo h) \/ (opt = None /\ (incl = true \/ e = SRI))) ->
  exists s, Format h e incl = Ok s /\
    ParseAny s opt = Ok (HashEnc h e (incl || is_SRI e)).
Proof.
  intros Hw He Hopt. unfold wf_hash in Hw.
  destruct (name_sep _ _ Hw) as [[N1 N2] N3]. destruct (body_sep e (h_digest h)) as [B1 B2].
  eexists. split; [eapply Format_ok; eauto|]. unfold ParseAny.
  assert (Hh : HashEnc (Hash (h_algo h) (h_digest h)) e (incl || is_SRI e) = HashEnc h e (incl || is_SRI e))
    by (destruct h; reflexivity).
  assert (Heqb : algo_eqb (h_algo h) (h_algo h) = true) by (destruct (h_algo h); try reflexivity; discriminate Hw).
  unfold hash_prefix. destruct (is_SRI e) eqn:Es.
  - rewrite <- app_assoc. change (bs "-" ++ body e (h_digest h)) with ("-"%byte :: body e (h_digest h)).
    rewrite index_pos_none.
    2:{ rewrite in_app_iff. intros [H|[H|H]]; [auto|discriminate|auto]. }
    rewrite index_pos_first by auto.
    rewrite firstn_app, firstn_all, Nat.sub_diag, app_nil_r.
    rewrite (ParseAlgorithm_name _ _ Hw). cbn [rbind].
    replace (S (length (algo_name (h_algo h)))) with (length (algo_name (h_algo h) ++ ["-"%byte]))
      by (rewrite app_length; cbn; lia).
    change ("-"%byte :: body e (h_digest h)) with (["-"%byte] ++ body e (h_digest h)).
    rewrite app_assoc, skipn_app, skipn_all, Nat.sub_diag. cbn [skipn app].
    rewrite <- Es, parse_rest_body by auto. rewrite Es, orb_true_r in *.
    destruct Hopt as [-> | [-> _]]; rewrite ?Heqb; f_equal; exact Hh.
  - rewrite orb_false_r in *. destruct incl.
    + rewrite <- app_assoc. change (bs ":" ++ body e (h_digest h)) with (":"%byte :: body e (h_digest h)).
      rewrite index_pos_first by auto.
      rewrite firstn_app, firstn_all, Nat.sub_diag, app_nil_r.
      rewrite (ParseAlgorithm_name _ _ Hw). cbn [rbind].
      replace (S (length (algo_name (h_algo h)))) with (length (algo_name (h_algo h) ++ [":"%byte]))
        by (rewrite app_length; cbn; lia).
      change (":"%byte :: body e (h_digest h)) with ([":"%byte] ++ body e (h_digest h)).
      rewrite app_assoc, skipn_app, skipn_all, Nat.sub_diag. cbn [skipn app].
      rewrite <- Es, parse_rest_body by auto.
      destruct Hopt as [-> | [-> _]]; rewrite ?Heqb; f_equal; exact Hh.
    + cbn [app]. rewrite !index_pos_none by auto.
      destruct Hopt as [-> | [-> [H|H]]]; [|discriminate|subst e; discriminate].
      rewrite <- Es, parse_rest_body by auto. f_equal. rewrite Es. exact Hh.
Qed.

(** * Inversion of ParseAny *)
Lemma parse_rest_inv a incl isSRI s r : parse_rest a incl isSRI s = Ok r ->
  exists n d e0, digest_size a = Some n /\
    r = HashEnc (Hash a d) (if isSRI then SRI else e0) incl /\ (isSRI = true -> e0 = Base64) /\
    ((e0 = Base16 /\ length s = hex_EncodedLen n /\ hex_decode s = Ok d) \/
     (e0 = NixBase32 /\ length s = EncodedLen n /\ DecodeString s = Ok d) \/
     (e0 = Base64 /\ length s = b64_EncodedLen n /\ b64_decode s = Ok d)).
Proof.
  unfold parse_rest. destruct (algo_Size a) as [n| |] eqn:Ez; try discriminate.
  cbn [rbind]. apply size_spec in Ez.
  destruct (Nat.eqb_spec (length s) (hex_EncodedLen n)) as [E1|E1];
    [|destruct (Nat.eqb_spec (length s) (EncodedLen n)) as [E2|E2];
      [|destruct (Nat.eqb_spec (length s) (b64_EncodedLen n)) as [E3|E3]; [|discriminate]]].
  - destruct (hex_decode s) as [d| |] eqn:Ed; try discriminate. cbn [rbind].
    destruct isSRI; [discriminate|]. intros [= <-]. exists n, d, Base16. intuition congruence.
  - destruct (DecodeString s) as [d| |] eqn:Ed; try discriminate. cbn [rbind].
    destruct isSRI; [discriminate|]. intros [= <-]. exists n, d, NixBase32. intuition congruence.
  - destruct (b64_decode s) as [d| |] eqn:Ed; try discriminate. cbn [rbind].
    destruct isSRI; intros [= <-]; exists n, d, Base64; intuition congruence.
Qed.

Lemma index_pos_some s c i : index_pos s c = Some i ->
  exists p r, s = p ++ c :: r /\ length p = i /\ p <> [] /\ ~ In c p.
Proof.
  unfold index_pos. destruct (index_byte s c) as [[|k]|] eqn:E; try discriminate. intros [= <-].
  apply index_byte_some in E. destruct E as (p & r & E & Hl & Hn).
  exists p, r. repeat split; auto. intros ->. discriminate Hl.
Qed.
Lemma split_at (p r : bytes) c : firstn (length p) (p ++ c :: r) = p /\ skipn (S (length p)) (p ++ c :: r) = r.
Proof.
  rewrite firstn_app, firstn_all, Nat.sub_diag, app_nil_r. split; [reflexivity|].
  change (c :: r) with ([c] ++ r). rewrite app_assoc.
  replace (S (length p)) with (length (p ++ [c])) by (rewrite app_length; cbn; lia).
  rewrite skipn_app, skipn_all, Nat.sub_diag. reflexivity.
Qed.
Lemma ParseAny_inv s opt r : ParseAny s opt = Ok r ->
  exists text isSRI,
    s = hash_prefix (h_algo (he_hash r)) (he_enc r) (he_incl r) ++ text /\
    parse_rest (h_algo (he_hash r)) (he_incl r) isSRI text = Ok r /\
    (forall o, opt = Some o -> o = h_algo (he_hash r)) /\
    (he_incl r = false -> opt = Some (h_algo (he_hash r))) /\
    is_SRI (he_enc r) = isSRI.
Proof.
  unfold ParseAny.
  assert (Hal : forall a o, algo_eqb a o = true -> o = a).
  { intros [] []; cbn; try discriminate; try reflexivity. intros H. apply N.eqb_eq in H. congruence. }
  assert (Hsri : forall a incl isSRI t, parse_rest a incl isSRI t = Ok r ->
     h_algo (he_hash r) = a /\ he_incl r = incl /\ is_SRI (he_enc r) = isSRI).
  { intros a incl b t H. apply parse_rest_inv in H.
    destruct H as (n & d & e0 & _ & -> & H1 & H2). cbn. repeat split.
    destruct b; [reflexivity|]. destruct H2 as [[-> _]|[[-> _]|[-> _]]]; reflexivity. }
  destruct (index_pos s ":"%byte) as [i|] eqn:E1.
  - apply index_pos_some in E1. destruct E1 as (p & t & -> & <- & _ & _).
    destruct (split_at p t ":"%byte) as [-> ->].
    destruct (ParseAlgorithm p) as [a| |] eqn:Ep; try discriminate. cbn [rbind].
    apply ParseAlgorithm_inv in Ep. destruct Ep as [-> _]. intros H.
    assert (H' : parse_rest a true false t = Ok r /\ forall o, opt = Some o -> o = a).
    { destruct opt as [o|]; [|split; [exact H|discriminate]].
      destruct (algo_eqb a o) eqn:Ea; [|discriminate]. split; [exact H|]. intros ? [= <-]. auto. }
    destruct H' as [H1 H2]. destruct (Hsri _ _ _ _ H1) as (A1 & A2 & A3).
    exists t, false. rewrite A1, A2, A3. unfold hash_prefix. rewrite A3.
    repeat split; auto; [|discriminate]. rewrite <- app_assoc. reflexivity.
  - destruct (index_pos s "-"%byte) as [i|] eqn:E2.
    + apply index_pos_some in E2. destruct E2 as (p & t & -> & <- & _ & _).
      destruct (split_at p t "-"%byte) as [-> ->].
      destruct (ParseAlgorithm p) as [a| |] eqn:Ep; try discriminate. cbn [rbind].
      apply ParseAlgorithm_inv in Ep. destruct Ep as [-> _]. intros H.
      assert (H' : parse_rest a true true t = Ok r /\ forall o, opt = Some o -> o = a).
      { destruct opt as [o|]; [|split; [exact H|discriminate]].
        destruct (algo_eqb a o) eqn:Ea; [|discriminate]. split; [exact H|]. intros ? [= <-]. auto. }
      destruct H' as [H1 H2]. destruct (Hsri _ _ _ _ H1) as (A1 & A2 & A3).
      exists t, true. rewrite A1, A2, A3. unfold hash_prefix. rewrite A3.
      repeat split; auto; [|discriminate]. rewrite <- app_assoc. reflexivity.
    + destruct opt as [o|]; [|discriminate]. intros H. destruct (Hsri _ _ _ _ H) as (A1 & A2 & A3).
      exists s, false. rewrite A1, A2, A3. unfold hash_prefix. rewrite A3.
      repeat split; auto. intros ? [= <-]. reflexivity.
Qed.

(** * C15 *)
Lemma parse_digest_size s opt r : ParseAny s opt = Ok r ->
  match he_enc r with
  | Base16 | NixBase32 => wf_hash (he_hash r)
  | _ => exists n, digest_size (h_algo (he_hash r)) = Some n /\ length (h_digest (he_hash r)) <= (n + 2) / 3 * 3
  end.
Proof.
  intros H. apply ParseAny_inv in H. destruct H as (t & b & _ & H & _ & _ & Hb).
  apply parse_rest_inv in H. destruct H as (n & d & e0 & Hn & Hr & H1 & H2).
  rewrite Hr in *. cbn [he_enc he_hash h_algo h_digest] in *. unfold wf_hash. cbn [h_algo h_digest].
  destruct H2 as [(-> & L & D)|[(-> & L & D)|(-> & L & D)]].
  - destruct b; [discriminate (H1 eq_refl)|]. apply hex_decode_length in D. rewrite Hn.
    unfold hex_EncodedLen in L. f_equal. lia.
  - destruct b; [discriminate (H1 eq_refl)|]. apply decode_length in D. rewrite Hn, D, L, DecodedLen_EncodedLen.
    reflexivity.
  - assert (length d <= (n + 2) / 3 * 3).
    { apply b64_decode_length in D. rewrite L in D. unfold b64_EncodedLen in D. lia. }
    destruct b; eauto.
Qed.

(** * C16: no panic *)
Lemma parse_rest_no_panic a incl b s n : digest_size a = Some n -> is_panic (parse_rest a incl b s) = false.
Proof.
  intros H. unfold parse_rest. rewrite (proj2 (size_spec _ _) H). cbn [rbind].
  pose proof (hex_decode_no_panic s). pose proof (DecodeString_no_panic s). pose proof (b64_no_panic s).
  destruct (length s =? hex_EncodedLen n); [|destruct (length s =? EncodedLen n); [|destruct (length s =? b64_EncodedLen n)]].
  - destruct (hex_decode s); cbn in *; try congruence; try reflexivity. destruct b; reflexivity.
  - destruct (DecodeString s); cbn in *; try congruence; try reflexivity. destruct b; reflexivity.
  - destruct (b64_decode s); cbn in *; try congruence; try reflexivity. destruct b; reflexivity.
  - reflexivity.
Qed.
Lemma ParseAny_no_panic s opt : (forall o, opt = Some o -> digest_size o <> None) ->
  is_panic (ParseAny s opt) = false.
Proof.
  intros Ho. unfold ParseAny.
  assert (Hpre : forall p b t,
    is_panic (let* a := ParseAlgorithm p in
      match opt with
      | Some o => if algo_eqb a o then parse_rest a true b t else Err (EMsg "algo doesn't match expected algo")
      | None => parse_rest a true b t
      end) = false).
  { intros p b t. pose proof (ParseAlgorithm_no_panic p).
    destruct (ParseAlgorithm p) as [a| |] eqn:E; cbn [rbind]; try assumption; try reflexivity.
    apply ParseAlgorithm_inv in E. destruct E as [_ [n Hn]].
    destruct opt as [o|]; [destruct (algo_eqb a o); [|reflexivity]|]; eapply parse_rest_no_panic; eauto. }
  destruct (index_pos s ":"%byte); [apply Hpre|].
  destruct (index_pos s "-"%byte); [apply Hpre|].
  destruct opt as [o|]; [|reflexivity].
  destruct (digest_size o) as [n|] eqn:E; [|elim (Ho o eq_refl E)].
  eapply parse_rest_no_panic; eauto.
Qed.
Lemma ParseAny_no_algo s : ~ In ":"%byte s -> ~ In "-"%byte s -> is_err (ParseAny s None) = true.
Proof. intros H1 H2. unfold ParseAny. rewrite !index_pos_none by auto. reflexivity. Qed.
Lemma ParseAny_unknown_prefix p t opt c : (c = ":"%byte \/ (c = "-"%byte /\ ~ In ":"%byte (p ++ t))) ->
  p <> [] -> ~ In c p -> (forall a, p = algo_name a -> digest_size a = None) ->
  is_err (ParseAny (p ++ c :: t) opt) = true.
Proof.
  intros Hc Hp Hin Hun. unfold ParseAny.
  assert (He : is_err (ParseAlgorithm p) = true).
  { pose proof (ParseAlgorithm_no_panic p). destruct (ParseAlgorithm p) as [a| |] eqn:E; try reflexivity; try discriminate.
    apply ParseAlgorithm_inv in E. destruct E as [-> [n Hn]]. rewrite (Hun a eq_refl) in Hn. discriminate. }
  destruct Hc as [-> | [-> Hno]].
  - rewrite index_pos_first by auto. destruct (split_at p t ":"%byte) as [-> _].
    destruct (ParseAlgorithm p); try discriminate He. reflexivity.
  - rewrite index_pos_none.
    2:{ rewrite in_app_iff in *. cbn [In]. intros [H|[H|H]]; [tauto|discriminate|tauto]. }
    rewrite index_pos_first by auto. destruct (split_at p t "-"%byte) as [-> _].
    destruct (ParseAlgorithm p); try discriminate He. reflexivity.
Qed.

(** * C17: printing back *)
Lemma upper_hex_eq c : upper_hex c = is_upper_hex c.
Proof.
  assert (H : forall c, Bool.eqb (upper_hex c) (is_upper_hex c) = true).
  { apply byte_sweep. vm_compute. reflexivity. }
  apply Bool.eqb_prop, H.
Qed.
Lemma enc3 x y z w : (x < 64)%N -> (y < 64)%N -> (z < 64)%N -> (w < 64)%N ->
  let v := (x * 262144 + y * 4096 + z * 64 + w)%N in
  (v / 262144 = x /\ v / 4096 mod 64 = y /\ v / 64 mod 64 = z /\ v mod 64 = w)%N.
Proof.
  intros Hx Hy Hz Hw v.
  assert (E1 : (v / 262144 = x)%N) by (symmetry; apply N.div_unique with (y * 4096 + z * 64 + w)%N; unfold v; lia).
  assert (E2 : (v / 4096 = x * 64 + y)%N) by (symmetry; apply N.div_unique with (z * 64 + w)%N; unfold v; lia).
  assert (E3 : (v / 64 = (x * 64 + y) * 64 + z)%N) by (symmetry; apply N.div_unique with w; unfold v; lia).
  repeat split; auto.
  - rewrite E2, N.add_comm, N.mod_add by discriminate. apply N.mod_small. exact Hy.
  - rewrite E3, N.add_comm, N.mod_add by discriminate. apply N.mod_small. exact Hz.
  - symmetry. apply N.mod_unique with ((x * 64 + y) * 64 + z)%N; [exact Hw|unfold v; lia].
Qed.
Lemma join3 v : (v < 16777216)%N ->
  (b2n (n2b (v / 65536)) * 65536 + b2n (n2b (v / 256 mod 256)) * 256 + b2n (n2b (v mod 256)))%N = v.
Proof.
  intros H. rewrite !b2n_n2b_small; try (apply N.mod_lt; discriminate).
  2:{ apply N.div_lt_upper_bound; [discriminate|lia]. }
  pose proof (N.div_mod v 256 ltac:(discriminate)). pose proof (N.div_mod (v / 256) 256 ltac:(discriminate)).
  rewrite N.div_div in * by discriminate. change (256 * 256)%N with 65536%N in *.
  assert (v = 256 * (256 * (v / 65536) + (v / 256) mod 256) + v mod 256)%N by congruence. lia.
Qed.
Lemma b64_go_printback s d : b64_decode_go s = Ok d -> b64_spare_bits_zero s -> b64_encode d = s.
Proof.
  revert d. induction s as [|a|a b|a b c|a b c d0 s IH] using list_ind4; intros d;
    try (cbn [b64_decode_go]; discriminate).
  - intros [= <-] _. reflexivity.
  - cbn [b64_decode_go].
    destruct (b64_val a) as [x|] eqn:Ea; [|discriminate]. destruct (b64_val b) as [y|] eqn:Eb; [|discriminate].
    destruct (b64_val_lt _ _ Ea) as [Lx Cx]. destruct (b64_val_lt _ _ Eb) as [Ly Cy].
    destruct (b64_val c) as [z|] eqn:Ec.
    + destruct (b64_val_lt _ _ Ec) as [Lz Cz].
      destruct (b64_val d0) as [w|] eqn:Ed.
      * destruct (b64_val_lt _ _ Ed) as [Lw Cw].
        destruct (b64_decode_go s) as [r| |] eqn:Er; try discriminate. cbn [rbind]. intros [= <-] Hz.
        assert (Hs : b64_encode r = s).
        { apply IH; [reflexivity|]. destruct s; [exact I|]. exact Hz. }
        cbn [b64_encode]. set (v := (x * 262144 + y * 4096 + z * 64 + w)%N).
        assert (Hv : (v < 16777216)%N) by (unfold v; lia).
        rewrite join3 by exact Hv. pose proof (enc3 x y z w Lx Ly Lz Lw) as Q. cbn zeta in Q. fold v in Q.
        destruct Q as (-> & -> & -> & ->).
        rewrite Cx, Cy, Cz, Cw, Hs. reflexivity.
      * destruct (byte_eqb_spec d0 pad_char) as [Hd|]; [|discriminate]. subst d0.
        destruct s; [|discriminate]. intros [= <-] Hz.
        cbn [b64_spare_bits_zero] in Hz. specialize (Hz eq_refl).
        assert (Hc : byte_eqb c "="%byte = false).
        { destruct (byte_eqb_spec c "="%byte) as [->|]; [discriminate Ec|reflexivity]. }
        rewrite Hc in Hz. specialize (Hz _ Ec).
        cbn [b64_encode]. set (v := (x * 262144 + y * 4096 + z * 64)%N).
        assert (Hv : (v < 16777216)%N) by (unfold v; lia).
        assert (Hm : (v mod 256 = 0)%N).
        { pose proof (N.div_mod z 4 ltac:(discriminate)) as Q. rewrite Hz in Q.
          symmetry. apply N.mod_unique with (x * 1024 + y * 16 + z / 4)%N; [lia|]. unfold v. lia. }
        assert (J := join3 v Hv). rewrite Hm in J. change (b2n (n2b 0)) with 0%N in J. rewrite N.add_0_r in J.
        rewrite J. pose proof (enc3 x y z 0 Lx Ly Lz ltac:(lia)) as Q. cbn zeta in Q. rewrite N.add_0_r in Q. fold v in Q.
        destruct Q as (-> & -> & -> & _).
        rewrite Cx, Cy, Cz. reflexivity.
    + destruct (byte_eqb_spec c pad_char) as [Hc|]; [|discriminate].
      destruct (byte_eqb_spec d0 pad_char) as [Hd|]; [|discriminate]. subst c d0. cbn [andb].
      destruct s; [|discriminate]. intros [= <-] Hz.
      cbn [b64_spare_bits_zero] in Hz. specialize (Hz eq_refl). rewrite (byte_eqb_refl pad_char : byte_eqb pad_char "="%byte = true) in Hz.
      specialize (Hz _ Eb).
      cbn [b64_encode]. set (v := (x * 262144 + y * 4096)%N).
      assert (Hv : (v < 16777216)%N) by (unfold v; lia).
      assert (Hm : (v mod 65536 = 0)%N).
      { pose proof (N.div_mod y 16 ltac:(discriminate)) as Q. rewrite Hz in Q.
        symmetry. apply N.mod_unique with (x * 4 + y / 16)%N; [lia|]. unfold v. lia. }
      assert (J : (b2n (n2b (v / 65536)) * 65536 = v)%N).
      { rewrite b2n_n2b_small by (apply N.div_lt_upper_bound; [discriminate|lia]).
        pose proof (N.div_mod v 65536 ltac:(discriminate)). lia. }
      rewrite J. pose proof (enc3 x y 0 0 Lx Ly ltac:(lia) ltac:(lia)) as Q. cbn zeta in Q.
      rewrite N.mul_0_l, !N.add_0_r in Q. fold v in Q. destruct Q as (-> & -> & _).
      rewrite Cx, Cy. reflexivity.
Qed.
Lemma b64_printback s d : Forall (fun c => c <> x0a /\ c <> x0d) s -> b64_spare_bits_zero s ->
  b64_decode s = Ok d -> b64_encode d = s.
Proof.
  intros Hn Hz H. unfold b64_decode in H. rewrite filter_id in H; [eapply b64_go_printback; eauto|].
  eapply Forall_impl; [|exact Hn]. intros c [H1 H2]. unfold is_newline.
  apply byte_eqb_neq in H1, H2. rewrite H1, H2. reflexivity.
Qed.
Lemma printback s opt r t : ParseAny s opt = Ok r ->
  s = hash_prefix (h_algo (he_hash r)) (he_enc r) (he_incl r) ++ t ->
  canonical_text (he_enc r) t -> he_String r = Ok s.
Proof.
  intros H Hs Hc. apply ParseAny_inv in H. destruct H as (t' & b & Hs' & H & _ & _ & Hb).
  assert (t' = t) by (apply app_inv_head with (hash_prefix (h_algo (he_hash r)) (he_enc r) (he_incl r)); congruence).
  subst t'. clear Hs'. rewrite Hs. clear Hs.
  apply parse_rest_inv in H. destruct H as (n & d & e0 & Hn & Hr & H1 & H2).
  unfold he_String. rewrite Hr in *. cbn [he_hash he_enc he_incl h_algo h_digest] in *.
  rewrite (Format_ok _ _ _ n).
  2: exact Hn.
  2:{ destruct b; [reflexivity|]. destruct H2 as [[-> _]|[[-> _]|[-> _]]]; reflexivity. }
  cbn [h_algo h_digest]. do 2 f_equal.
  destruct H2 as [(-> & L & D)|[(-> & L & D)|(-> & L & D)]].
  - destruct b; [discriminate (H1 eq_refl)|]. cbn [body canonical_text] in *.
    apply hex_printback; [|exact D]. apply forallb_forall. intros c Hin.
    rewrite Forall_forall in Hc. rewrite upper_hex_eq, Hc by exact Hin. reflexivity.
  - destruct b; [discriminate (H1 eq_refl)|]. cbn [body]. apply decode_iff_encode. exact D.
  - assert (Hc' : Forall (fun c => c <> x0a /\ c <> x0d) t /\ b64_spare_bits_zero t) by (destruct b; exact Hc).
    destruct Hc' as [C1 C2]. assert (b64_encode d = t) by (apply b64_printback; auto). destruct b; assumption.
Qed.

(** * C18 *)
Lemma byte_xor_testbit a b m : N.testbit (b2n (byte_lxor a b)) m = xorb (N.testbit (b2n a) m) (N.testbit (b2n b) m).
Proof.
  unfold byte_lxor. rewrite n2b_testbit, N.lxor_spec.
  destruct (N.ltb_spec m 8) as [H|H]; [reflexivity|].
  rewrite !byte_testbit_high by exact H. reflexivity.
Qed.
Lemma byte_lxor_assoc a b c : byte_lxor a (byte_lxor b c) = byte_lxor (byte_lxor a b) c.
Proof. apply byte_bits_inj. intros m _. rewrite !byte_xor_testbit. destruct (N.testbit (b2n a) m), (N.testbit (b2n b) m), (N.testbit (b2n c) m); reflexivity. Qed.
Lemma byte_lxor_comm a b : byte_lxor a b = byte_lxor b a.
Proof. apply byte_bits_inj. intros m _. rewrite !byte_xor_testbit. apply xorb_comm. Qed.
Lemma byte_lxor_0 a : byte_lxor a x00 = a.
Proof. apply byte_bits_inj. intros m _. rewrite !byte_xor_testbit. change (b2n x00) with 0%N. rewrite N.bits_0. apply xorb_false_r. Qed.
Lemma compress_loop_length input : forall i n buf, length (compress_loop input i n buf) = length buf.
Proof. induction input as [|b l IH]; intros i n buf; cbn [compress_loop]; [reflexivity|]. rewrite IH. apply upd_length. Qed.
Lemma fold_lxor_init l a : fold_right byte_lxor a l = byte_lxor a (fold_right byte_lxor x00 l).
Proof.
  induction l as [|b l IH]; cbn [fold_right]; [symmetry; apply byte_lxor_0|].
  rewrite IH, !byte_lxor_assoc, (byte_lxor_comm b a). reflexivity.
Qed.
Lemma compress_loop_nth input : forall i n buf k, n <> 0 -> length buf = n -> k < n ->
  nth k (compress_loop input i n buf) x00 =
  byte_lxor (nth k buf x00)
    (fold_right byte_lxor x00 (map (fun j => nth (j - i) input x00)
       (filter (fun j => j mod n =? k) (seq i (length input))))).
Proof.
  induction input as [|b l IH]; intros i n buf k Hn Hl Hk; cbn [compress_loop length seq].
  - cbn. rewrite byte_lxor_0. reflexivity.
  - rewrite IH by (rewrite ?upd_length; auto).
    assert (i mod n < n) by (apply Nat.mod_upper_bound; exact Hn).
    rewrite upd_nth by lia.
    assert (E : map (fun j => nth (j - S i) l x00) (filter (fun j => j mod n =? k) (seq (S i) (length l)))
      = map (fun j => nth (j - i) (b :: l) x00) (filter (fun j => j mod n =? k) (seq (S i) (length l)))).
    { apply map_ext_in. intros j Hj. apply filter_In in Hj. destruct Hj as [Hj _]. apply in_seq in Hj.
      replace (j - i) with (S (j - S i)) by lia. reflexivity. }
    rewrite E. cbn [filter]. rewrite (Nat.eqb_sym k). 
    destruct (Nat.eqb_spec (i mod n) k) as [->|Hne]; [|reflexivity].
    cbn [map fold_right]. rewrite Nat.sub_diag. cbn [nth].
    fold (byte_lxor (nth k buf x00) b). rewrite byte_lxor_assoc. reflexivity.
Qed.
Lemma nth_repeat0 n k : nth k (repeat x00 n) x00 = x00.
Proof. revert k. induction n as [|n IH]; intros [|k]; cbn; auto. Qed.
Lemma compress_spec input n : n <> 0 ->
  exists out, CompressHash input n = Ok out /\ length out = n /\
    forall i, i < n -> nth i out x00 = xor_fold input n i.
Proof.
  intros Hn. unfold CompressHash. destruct n as [|n]; [congruence|].
  eexists. split; [reflexivity|]. split; [rewrite compress_loop_length; apply repeat_length|].
  intros i Hi. rewrite compress_loop_nth by (auto; apply repeat_length).
  rewrite nth_repeat0, byte_lxor_comm, byte_lxor_0. unfold xor_fold. f_equal.
  apply map_ext. intros j. rewrite Nat.sub_0_r. reflexivity.
Qed.
Lemma xor_bytes_length a : forall b, length a = length b -> length (xor_bytes a b) = length a.
Proof. induction a as [|x a IH]; intros [|y b] H; cbn in *; try discriminate; auto. Qed.
Lemma xor_bytes_nth a : forall b k, length a = length b ->
  nth k (xor_bytes a b) x00 = byte_lxor (nth k a x00) (nth k b x00).
Proof.
  induction a as [|x a IH]; intros [|y b] [|k] H; cbn in *; try discriminate; try reflexivity.
  apply IH. lia.
Qed.
Lemma xor_fold_linear a b n i : length a = length b ->
  xor_fold (xor_bytes a b) n i = byte_lxor (xor_fold a n i) (xor_fold b n i).
Proof.
  intros H. unfold xor_fold. rewrite xor_bytes_length, <- H by exact H.
  induction (filter _ _) as [|k l IH]; [reflexivity|].
  cbn [map fold_right]. rewrite IH, xor_bytes_nth by exact H.
  rewrite !byte_lxor_assoc. f_equal. rewrite <- !byte_lxor_assoc. f_equal. apply byte_lxor_comm.
Qed.
Lemma compress_linear a b n ca cb : length a = length b -> n <> 0 ->
  CompressHash a n = Ok ca -> CompressHash b n = Ok cb ->
  CompressHash (xor_bytes a b) n = Ok (xor_bytes ca cb).
Proof.
  intros H Hn Ha Hb.
  destruct (compress_spec a n Hn) as (oa & Ea & La & Na).
  destruct (compress_spec b n Hn) as (ob & Eb & Lb & Nb).
  destruct (compress_spec (xor_bytes a b) n Hn) as (oc & Ec & Lc & Nc).
  rewrite Ha in Ea. rewrite Hb in Eb. injection Ea as <-. injection Eb as <-. rewrite Ec. f_equal.
  apply nth_ext with x00 x00; [rewrite xor_bytes_length; congruence|].
  intros i Hi. rewrite Lc in Hi. rewrite Nc, xor_bytes_nth, Na, Nb by congruence.
  apply xor_fold_linear. exact H.
Qed.
