From Verif Require Import Base.Bytes Base.BytesFacts Model.GoIO Model.GoStd Model.Nixhash Model.Signature Model.NarInfo Spec.HashSpec Spec.HashTextSpec
  Spec.SignatureSpec Spec.NarInfoSpec Spec.NarInfoText Spec.JsonSpec Proof.HashProps Proof.HashText Proof.SignatureProps Proof.JsonRead Proof.NarInfoMore.
Ltac Zify.zify_post_hook ::= idtac.

Lemma decode_exact s size name data : size <> 0 -> decode s size = Ok (name, data) <-> key_text size s name data.
Proof.
  intros Hz. split.
  - intros H. apply decode_inv in H. destruct H as (A & B & t & C & _ & D). split; [exact A|]. split; [exact B|]. exists t. split; [exact C|].
    apply b64_text_iff. exact D.
  - intros ((N1 & N2) & L & t & -> & T). apply b64_text_iff in T. unfold decode, split2.
    rewrite index_byte_first by exact N2. destruct (HashProps.split_at name t ":"%byte) as [E1 E2]. rewrite E1, E2.
    destruct name as [|c name]; [congruence|]. destruct t as [|x t]; [cbn in T; apply ok_inj in T; subst data; cbn in L; congruence|].
    rewrite T. cbn [rbind]. rewrite L, Nat.eqb_refl. reflexivity.
Qed.
Lemma sig_exact s r : ParseSignature s = Ok r <-> key_text 64 s (sig_name r) (sig_data r).
Proof.
  rewrite <- decode_exact by discriminate. unfold ParseSignature, SignatureSize. destruct (decode s 64) as [[a b]|e|w]; cbn [rbind fst snd]; split; try discriminate.
  - intros H. apply ok_inj in H. subst r. reflexivity.
  - intros H. apply ok_inj in H. destruct r as [n d]. cbn in H. congruence.
Qed.
Lemma pk_exact s r : ParsePublicKey s = Ok r <-> key_text 32 s (pk_name r) (pk_data r).
Proof.
  rewrite <- decode_exact by discriminate. unfold ParsePublicKey, PublicKeySize. destruct (decode s 32) as [[a b]|e|w]; cbn [rbind fst snd]; split; try discriminate.
  - intros H. apply ok_inj in H. subst r. reflexivity.
  - intros H. apply ok_inj in H. destruct r as [n d]. cbn in H. congruence.
Qed.
Lemma sk_exact s r : LoadSecretKey s = Ok r <-> key_text 64 s (sk_name r) (sk_data r).
Proof.
  rewrite <- decode_exact by discriminate. unfold LoadSecretKey, PrivateKeySize. destruct (decode s 64) as [[a b]|e|w]; cbn [rbind fst snd]; split; try discriminate.
  - intros H. apply ok_inj in H. subst r. reflexivity.
  - intros H. apply ok_inj in H. destruct r as [n d]. cbn in H. congruence.
Qed.

Lemma Forall2_iff {A B} (P Q : A -> B -> Prop) l m : (forall a b, P a b <-> Q a b) -> Forall2 P l m <-> Forall2 Q l m.
Proof. intros H. split; intros F; induction F; constructor; auto; apply H; assumption. Qed.
Lemma reads_text text n : reads text n <-> narinfo_text text n.
Proof.
  unfold reads, narinfo_text.
  assert (F1 : forall vs hs, Forall2 (fun v h => ParseAny v None = Ok h) vs hs <-> Forall2 (fun v h => hash_says v None h) vs hs)
    by (intros; apply Forall2_iff; intros; apply ParseAny_exact).
  assert (F2 : forall vs xs, Forall2 (fun v x => ParseUint v = Ok x) vs xs <-> Forall2 size_text vs xs)
    by (intros; apply Forall2_iff; intros; apply ParseUint_iff).
  assert (F3 : forall vs ss, Forall2 (fun v s => ParseSignature v = Ok s) vs ss <-> Forall2 (fun v s => key_text 64 v (sig_name s) (sig_data s)) vs ss)
    by (intros; apply Forall2_iff; intros; apply sig_exact).
  split; intros (kvs & A & B & C & D & E & (h1 & G1 & G1') & (x1 & G2 & G2') & (h2 & G3 & G3') & (x2 & G4 & G4') & I1 & J & K & L & M); exists kvs;
    apply F1 in G1; apply F2 in G2; apply F1 in G3; apply F2 in G4; apply F3 in L;
    (split; [exact A|]); (split; [exact B|]); (split; [exact C|]); (split; [exact D|]); (split; [exact E|]);
    (split; [exists h1; auto|]); (split; [exists x1; auto|]); (split; [exists h2; auto|]); (split; [exists x2; auto|]); auto.
Qed.
