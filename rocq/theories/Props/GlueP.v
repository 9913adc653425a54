(** C86: exactly which narinfos a signature covers besides the one that was signed. *)
From Verif Require Import Base.Bytes Base.BytesFacts Model.GoIO Model.Nixhash Model.Signature Model.NarInfo
  Spec.HashSpec Spec.NarInfoSpec Spec.SignatureSpec Spec.RefSpec Spec.PipelineSpec Spec.GlueSpec
  Proof.NarInfoProps Proof.NarInfoCheck Proof.NarInfoVerify Proof.NarInfoGlue Proof.SignatureProps Props.PipelineP.
Ltac Zify.zify_post_hook ::= idtac.

(** Those with the same path, hash and size, and with the references of the signed one,
    some neighbours glued together into one. *)
Theorem C86_exact : forall n m f, signable m -> (ni_NarSize n < 2 ^ 64)%N -> Fingerprint m = Ok f ->
  (Fingerprint n = Ok f <-> ni_StorePath n = ni_StorePath m /\ option_map he_hash (ni_NarHash n) = option_map he_hash (ni_NarHash m) /\
     ni_NarSize n = ni_NarSize m /\ glued (ni_References m) (ni_References n)).
Proof. exact fingerprint_glued. Qed.
Print Assumptions C86_exact.
(** So whatever was read and verifies differs from a narinfo that was signed in glued references at most. *)
Theorem C86_parsed_exact : forall ed_verify keys (signed : narinfo -> Prop),
  (forall k msg sig, In k keys -> ed_verify (pk_data k) msg sig = true -> exists m, signed m /\ Fingerprint m = Ok msg) ->
  (forall m, signed m -> signable m) ->
  forall r n fp, Parse r = Ok n -> Fingerprint n = Ok fp -> VerifyFirst ed_verify fp (ni_Signatures n) keys = Ok true ->
  exists m, signed m /\ ni_StorePath n = ni_StorePath m /\ option_map he_hash (ni_NarHash n) = option_map he_hash (ni_NarHash m) /\
    ni_NarSize n = ni_NarSize m /\ glued (ni_References m) (ni_References n).
Proof.
  intros ev keys signed UF SG r n fp P E V. destruct (VerifyFirst_sound ev fp _ _ V) as (s & k & _ & Hk & (_ & _ & _ & G)).
  destruct (UF k fp (sig_data s) Hk G) as (m & Sm & Em). exists m. split; [exact Sm|]. apply (C86_exact n m fp (SG m Sm) (parsed_size r n P) Em). exact E.
Qed.
Print Assumptions C86_parsed_exact.
(** Exactly which narinfos that are read can be mistaken for another one that may be signed: those whose references
    can be taken apart into others without commas and semicolons (and whose path has no semicolon). *)
Theorem C86_mistaken_exact : forall r n fp, Parse r = Ok n -> Fingerprint n = Ok fp ->
  ((exists m, signable m /\ Fingerprint m = Ok fp /\ ~ same_claim n m) <->
   ~ In ";"%byte (ni_StorePath n) /\ exists rs, Forall (fun x => ~ In ","%byte x /\ ~ In ";"%byte x) rs /\ rs <> ni_References n /\ glued rs (ni_References n)).
Proof.
  intros r n fp P F. pose proof (parsed_size r n P) as Z. split.
  - intros (m & S & Fm & D). apply (C86_exact n m fp S Z Fm) in F. destruct F as (A & B & C & G). destruct S as (S1 & S2 & S3). rewrite A. split; [exact S1|].
    exists (ni_References m). split; [exact S3|]. split; [|exact G]. intros E. apply D. unfold same_claim. auto.
  - intros (A & rs & C & D & G). set (m := NarInfo (ni_StorePath n) (ni_URL n) (ni_Compression n) (ni_FileHash n) (ni_FileSize n) (ni_NarHash n) (ni_NarSize n) rs (ni_Deriver n) (ni_System n) (ni_Signatures n) (ni_CA n)).
    assert (S : signable m) by (unfold signable, m; cbn; auto). exists m. split; [exact S|]. split.
    + assert (X : exists g, Fingerprint m = Ok g).
      { destruct (Fingerprint_any n fp F) as (h & a & H & K & _). unfold Fingerprint, m. cbn [ni_NarHash ni_References ni_StorePath ni_NarSize]. rewrite H. unfold Format. cbn [orb]. rewrite K. cbn [rbind]. destruct rs; eexists; reflexivity. }
      destruct X as (g & X). assert (Y : Fingerprint n = Ok g) by (apply (C86_exact n m g S Z X); unfold m; cbn; auto). congruence.
    + intros (_ & _ & _ & E). apply D. symmetry. exact E.
Qed.
Print Assumptions C86_mistaken_exact.
Example C86_exact_nonvacuous : signable (ref_info split_refs []) /\ glued split_refs joined_refs /\ is_ok (Fingerprint (ref_info split_refs [])) = true /\
  Forall (fun x => ~ In ","%byte x /\ ~ In ";"%byte x) split_refs /\ split_refs <> joined_refs /\
  ~ glued [ref2; ref1] joined_refs /\ glued split_refs split_refs /\ ~ glued joined_refs split_refs.
Proof.
  assert (C : Forall (fun x => ~ In ","%byte x /\ ~ In ";"%byte x) split_refs).
  { assert (NC : forall x (c : byte), contains_byte x c = false -> ~ In c x) by (intros x c H I; apply contains_byte_iff in I; congruence).
    repeat (constructor; [split; apply NC; vm_compute; reflexivity|]). constructor. }
  split; [split; [intros X; apply contains_byte_iff in X; discriminate X|split; [vm_compute; reflexivity|exact C]]|].
  split; [exists [split_refs]; split; [intros [X|[]]; discriminate X|split; [apply app_nil_r|vm_compute; reflexivity]]|]. split; [vm_compute; reflexivity|]. split; [exact C|]. split; [discriminate|].
  assert (C' : Forall (fun r => ~ In comma r) [ref2; ref1]) by (inversion C as [|? ? (X1 & _) C2]; inversion C2 as [|? ? (X2 & _) _]; subst; auto).
  split; [|split].
  - intros G. apply (glued_iff _ _ C') in G. apply (f_equal (fun x => beq x (join_byte (map in_store [ref2; ref1]) comma))) in G. rewrite beq_refl in G. vm_compute in G. discriminate G.
  - exists [[ref1]; [ref2]]. split; [intros [X|[X|[]]]; discriminate X|split; reflexivity].
  - intros (gs & N & A & B). destruct gs as [|g gs]; [discriminate A|]. destruct gs as [|g' gs]; [discriminate B|]. apply (f_equal (@length bytes)) in A. cbn [concat] in A. rewrite !app_length in A.
    destruct g; [elim N; left; reflexivity|]. destruct g'; [elim N; right; left; reflexivity|]. cbn [length joined_refs] in A. lia.
Qed.
