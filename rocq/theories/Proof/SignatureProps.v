From Verif Require Import Base.Bytes Base.BytesFacts Model.GoStd Model.Nixhash Model.Signature Spec.HashSpec Spec.SignatureSpec
  Proof.Codec Proof.HashProps.
Ltac Zify.zify_post_hook ::= idtac.

Lemma decode_encode name data n : key_name name -> length data = n -> n <> 0 -> decode (encode name data) n = Ok (name, data).
Proof.
  intros [H1 H2] H3 H4. unfold decode, encode, split2. cbn [bs list_byte_of_string app].
  change (bs ":") with [":"%byte]. cbn [app]. rewrite index_byte_first by exact H2.
  destruct (HashProps.split_at name (b64_encode data) ":"%byte) as [E1 E2].
  rewrite E1, E2. destruct name as [|c name]; [congruence|].
  destruct (b64_encode data) as [|x l] eqn:E.
  - exfalso. destruct data as [|a data]; [cbn in H3; congruence|].
    apply (f_equal (@length byte)) in E. rewrite b64_encode_length in E. unfold b64_EncodedLen in E. cbn [length] in E.
    assert (H5 : 1 <= (S (length data) + 2) / 3) by (apply Nat.div_le_lower_bound; lia). lia.
  - rewrite <- E, b64_roundtrip. cbn [rbind]. rewrite H3, Nat.eqb_refl. reflexivity.
Qed.
Lemma decode_inv s n name data : decode s n = Ok (name, data) ->
  key_name name /\ length data = n /\ exists t, s = name ++ ":"%byte :: t /\ t <> [] /\ b64_decode t = Ok data.
Proof.
  unfold decode, split2. destruct (index_byte s ":"%byte) as [i|] eqn:Ei; [|discriminate].
  apply index_byte_some in Ei.
  assert (G : exists p r, s = p ++ ":"%byte :: r /\ ~ In ":"%byte p /\ i = length p).
  { destruct Ei as (p & r & A & B & C). exists p, r. auto. }
  destruct G as (p & r & -> & Hp & ->). destruct (HashProps.split_at p r ":"%byte) as [E1 E2]. rewrite E1, E2.
  destruct p as [|c p]; [discriminate|]. destruct r as [|x r]; [discriminate|].
  destruct (b64_decode (x :: r)) as [d|e|w] eqn:Ed; cbn [rbind]; try discriminate.
  destruct (Nat.eqb (length d) n) eqn:En; cbn [negb]; [|discriminate]. apply Nat.eqb_eq in En.
  intros H. apply ok_inj in H. inversion H; subst. split; [split; [discriminate|exact Hp]|]. split; [reflexivity|].
  exists (x :: r). split; [reflexivity|]. split; [discriminate|exact Ed].
Qed.
Lemma decode_no_panic s n : is_panic (decode s n) = false.
Proof.
  unfold decode, split2. destruct (index_byte s ":"%byte) as [i|]; [|reflexivity].
  destruct (firstn i s); [reflexivity|]. destruct (skipn (S i) s) eqn:E; [reflexivity|]. rewrite <- E.
  pose proof (b64_no_panic (skipn (S i) s)) as H. destruct (b64_decode (skipn (S i) s)); [|reflexivity|discriminate]. cbn [rbind].
  destruct (Nat.eqb _ _); reflexivity.
Qed.
Lemma decode_printback s n name data t : decode s n = Ok (name, data) -> s = name ++ ":"%byte :: t ->
  canonical_text Base64 t -> encode name data = s.
Proof.
  intros H E Hc. apply decode_inv in H. destruct H as (_ & _ & t' & E' & _ & Ht). rewrite E in E'. subst s.
  apply app_inv_head in E'. assert (t' = t) by congruence. subst t'. unfold encode. f_equal. change (bs ":") with [":"%byte]. cbn [app]. f_equal.
  destruct Hc as [C1 C2]. apply b64_printback; assumption.
Qed.

Section Ed.
Variable ed_verify : bytes -> bytes -> bytes -> bool.

Lemma pk_Verify_true k m s : pk_Verify ed_verify k m s = Ok true <-> genuine ed_verify m s k.
Proof.
  unfold pk_Verify, ed25519_Verify, genuine, PublicKeySize, SignatureSize.
  destruct (beq (pk_name k) (sig_name s)) eqn:E1; cbn [negb].
  2:{ apply beq_neq in E1. split; [discriminate|]. intros (A & _). congruence. }
  apply beq_eq in E1.
  destruct (Nat.eqb (length (pk_data k)) 32) eqn:E2; cbn [negb].
  2:{ apply Nat.eqb_neq in E2. split; [discriminate|]. tauto. }
  destruct (Nat.eqb (length (sig_data s)) 64) eqn:E3; cbn [negb].
  2:{ apply Nat.eqb_neq in E3. split; [discriminate|]. tauto. }
  apply Nat.eqb_eq in E2, E3. split; [intros H; apply ok_inj in H; auto|]. intros (_ & _ & _ & ->). reflexivity.
Qed.
Lemma verify_sigs_some k m sigs r : verify_sigs ed_verify k m sigs = Some r ->
  exists l s l', sigs = l ++ s :: l' /\ sig_name s = pk_name k /\ r = pk_Verify ed_verify k m s /\
    Forall (fun x => sig_name x <> pk_name k) l.
Proof.
  induction sigs as [|s sigs IH]; cbn [verify_sigs]; [discriminate|].
  destruct (beq (pk_name k) (sig_name s)) eqn:E.
  - apply beq_eq in E. intros H. inversion H; subst. exists [], s, sigs. auto.
  - apply beq_neq in E. intros H. destruct (IH H) as (l & x & l' & -> & A & B & C).
    exists (s :: l), x, l'. split; [reflexivity|]. split; [exact A|]. split; [exact B|]. constructor; [congruence|exact C].
Qed.
Lemma verify_sigs_none k m sigs : verify_sigs ed_verify k m sigs = None ->
  Forall (fun x => sig_name x <> pk_name k) sigs.
Proof.
  induction sigs as [|s sigs IH]; cbn [verify_sigs]; [constructor|].
  destruct (beq (pk_name k) (sig_name s)) eqn:E; [discriminate|]. apply beq_neq in E. intros H. constructor; [congruence|auto].
Qed.
Lemma VerifyFirst_sound m sigs keys : VerifyFirst ed_verify m sigs keys = Ok true ->
  exists s k, In s sigs /\ In k keys /\ genuine ed_verify m s k.
Proof.
  induction keys as [|k keys IH]; cbn [VerifyFirst]; [discriminate|].
  destruct (verify_sigs ed_verify k m sigs) as [r|] eqn:E.
  - apply verify_sigs_some in E. destruct E as (l & s & l' & -> & A & -> & _). intros H. apply pk_Verify_true in H.
    exists s, k. split; [apply in_or_app; right; left; reflexivity|]. split; [left; reflexivity|exact H].
  - intros H. destruct (IH H) as (s & k' & A & B & C). exists s, k'. split; [exact A|]. split; [right; exact B|exact C].
Qed.
(** The verdict is that of the first match in key-then-signature order. *)
Lemma VerifyFirst_first m sigs ks k ks' l s l' :
  sigs = l ++ s :: l' -> sig_name s = pk_name k -> Forall (fun x => sig_name x <> pk_name k) l ->
  Forall (fun k' => Forall (fun x => sig_name x <> pk_name k') sigs) ks ->
  VerifyFirst ed_verify m sigs (ks ++ k :: ks') = pk_Verify ed_verify k m s.
Proof.
  intros E1 E2 H1 H2. induction ks as [|k0 ks IH]; cbn [app VerifyFirst].
  - assert (E : verify_sigs ed_verify k m sigs = Some (pk_Verify ed_verify k m s)).
    { subst sigs. clear H2. induction l as [|x l IHl]; cbn [app verify_sigs].
      - rewrite E2, beq_refl. reflexivity.
      - inversion H1; subst. assert (E : beq (pk_name k) (sig_name x) = false) by (apply beq_neq; congruence). rewrite E. auto. }
    rewrite E. reflexivity.
  - inversion H2 as [|? ? A B]; subst. destruct (verify_sigs ed_verify k0 m (l ++ s :: l')) as [r|] eqn:E; [|auto].
    apply verify_sigs_some in E. destruct E as (l1 & x & l2 & E & Ex & _).
    rewrite Forall_forall in A. exfalso. apply (A x); [rewrite E; apply in_or_app; right; left; reflexivity|exact Ex].
Qed.
Lemma VerifyFirst_none m sigs keys : (forall s k, In s sigs -> In k keys -> sig_name s <> pk_name k) ->
  VerifyFirst ed_verify m sigs keys = Ok false.
Proof.
  induction keys as [|k keys IH]; intros H; cbn [VerifyFirst]; [reflexivity|].
  destruct (verify_sigs ed_verify k m sigs) as [r|] eqn:E.
  - apply verify_sigs_some in E. destruct E as (l & s & l' & -> & A & _). exfalso.
    apply (H s k); [apply in_or_app; right; left; reflexivity|left; reflexivity|exact A].
  - apply IH. intros s k' A B. apply H; [exact A|right; exact B].
Qed.
Lemma VerifyFirst_complete m sigs keys s k : In s sigs -> In k keys -> sig_name s = pk_name k ->
  (forall s' k', In s' sigs -> In k' keys -> sig_name s' = pk_name k' -> genuine ed_verify m s' k') ->
  VerifyFirst ed_verify m sigs keys = Ok true.
Proof.
  intros Hs Hk E. induction keys as [|k0 keys IH]; intros HA; [destruct Hk|]. cbn [VerifyFirst].
  destruct (verify_sigs ed_verify k0 m sigs) as [r|] eqn:Ev.
  - apply verify_sigs_some in Ev. destruct Ev as (l & x & l' & -> & A & -> & _). apply pk_Verify_true.
    apply HA; [apply in_or_app; right; left; reflexivity|left; reflexivity|exact A].
  - destruct Hk as [->|Hk].
    + apply verify_sigs_none in Ev. rewrite Forall_forall in Ev. exfalso. exact (Ev _ Hs E).
    + apply IH; [exact Hk|]. intros s' k' A B. apply HA; [exact A|right; exact B].
Qed.
Lemma VerifyFirst_no_panic m sigs keys : Forall (fun k => length (pk_data k) = 32) keys ->
  is_panic (VerifyFirst ed_verify m sigs keys) = false.
Proof.
  induction keys as [|k keys IH]; intros H; cbn [VerifyFirst]; [reflexivity|]. inversion H as [|? ? A B]; subst.
  destruct (verify_sigs ed_verify k m sigs) as [r|] eqn:E; [|auto]. apply verify_sigs_some in E.
  destruct E as (_ & s & _ & _ & _ & -> & _). unfold pk_Verify, ed25519_Verify, PublicKeySize, SignatureSize. rewrite A.
  destruct (beq _ _); [|reflexivity]. cbn [negb Nat.eqb]. destruct (Nat.eqb _ _); reflexivity.
Qed.
End Ed.

Lemma sign_verifies ed_pub ed_sign ed_verify name seed sk pk fp :
  ed25519_correct ed_pub ed_sign ed_verify -> length seed = 32 ->
  GenerateKeypair ed_pub name (Ok seed) = Ok (sk, pk) ->
  exists s, sk_Sign ed_sign sk fp = Ok s /\ ToPublicKey sk = Ok pk /\
    genuine ed_verify fp s pk /\ sig_name s = name /\ pk_name pk = name /\ sk_name sk = name /\
    length (sk_data sk) = 64.
Proof.
  intros (C1 & C2 & C3) Hs H. unfold GenerateKeypair in H. cbn [rbind] in H. apply ok_inj in H. inversion H; subst sk pk. clear H.
  assert (L : length (seed ++ ed_pub seed) = 64) by (rewrite app_length, C1, Hs by exact Hs; reflexivity).
  unfold sk_Sign, ToPublicKey. cbn [sk_data sk_name]. rewrite L. cbn [Nat.eqb negb PrivateKeySize].
  eexists. split; [reflexivity|]. split.
  - change (64 <? 32) with false. rewrite skipn_app, Hs, Nat.sub_diag, skipn_O, skipn_all2 by lia. cbn [app].
    rewrite firstn_all2 by (rewrite C1 by exact Hs; lia). rewrite C1 by exact Hs. cbn [Nat.sub repeat]. rewrite app_nil_r. reflexivity.
  - unfold genuine. cbn. repeat split; auto.
Qed.
