(** Property C120: a verified download is the published tree. *)
From Verif Require Import Base.Bytes Base.BytesFacts Model.GoIO Model.GoStd Model.Scanner Model.Nar Model.NarReader Model.NarWriter Model.Nixhash Model.Signature Model.NarInfo
  Model.NarDump Spec.NarHist Spec.HashSpec Spec.SignatureSpec Spec.NarInfoSpec Spec.NarDumpSpec Spec.NarSpec Spec.NarParenSpec Spec.RefSpec Spec.PipelineSpec Spec.DrvIdSpec Spec.DownloadSpec
  Proof.SignatureProps Proof.NarInfoVerify
  Props.NarReaderP Props.NarListedP Props.NarDumpP Props.SignatureP Props.NarInfoP Props.PipelineP.
Ltac Zify.zify_post_hook ::= idtac.

(** * C120: from the disk of the publisher to the reader of the client *)
(** [signed m t]: the owner of one of the trusted keys signed the narinfo [m]
    about a dump of the tree [t].  Whatever bytes come back from the network,
    for the narinfo and for the file: if the narinfo parses and verifies and
    the file has the stated size and digest, the file is the archive of a tree
    signed under this store path with these references, or it collides with
    the archive; and reading it gives that tree. *)
Theorem C120_download_partial : forall sha ed_verify keys (signed : narinfo -> node -> Prop),
  (forall k msg sig, In k keys -> ed_verify (pk_data k) msg sig = true -> exists m t, signed m t /\ Fingerprint m = Ok msg) ->
  (forall m t, signed m t -> signable m /\ published sha m t) ->
  forall r n fp data, Parse r = Ok n -> (forall x, In x (ni_References n) -> ~ occurs (bs ",/nix/store/") x) ->
  Fingerprint n = Ok fp -> VerifyFirst ed_verify fp (ni_Signatures n) keys = Ok true -> describes sha data n ->
  exists m t, signed m t /\ same_claim n m /\ lenN data = lenN (nar t) /\
    (collide sha data (nar t) \/
     data = nar t /\ (listable t -> forall s rest e plans, flat s = (data ++ rest, e) ->
       exists rd s1 o rd', NewReader s = (Ok rd, s1) /\ session plans rd = (o, rd') /\ session_of (items [] t) plans o)).
Proof.
  intros sha ev keys signed UF SG r n fp data P RF E V (D1 & D2).
  destruct (C86_parsed_partial ev keys (fun m => exists t, signed m t)) with (3 := P) (4 := RF) (5 := E) (6 := V) as (m & (t & S) & C).
  - intros k msg sig K G. destruct (UF k msg sig K G) as (m & t & S & F). exists m. split; [exists t; exact S|exact F].
  - intros m (t & S). exact (proj1 (SG m t S)).
  - exists m, t. split; [exact S|]. split; [exact C|]. destruct (SG m t S) as (_ & root & f & w & FO & DU & TR & (B1 & B2)).
    destruct (C39_success_is_complete _ _ _ _ _ FO DU) as (_ & t' & TR' & _ & OUT). rewrite TR in TR'. injection TR' as <-. cbn [out app] in OUT. rewrite OUT in B1, B2.
    destruct C as (_ & C1 & C2 & _). split; [congruence|]. destruct (list_eq_dec byte_eq_dec data (nar t)) as [->|NE].
    + right. split; [reflexivity|]. intros (W & k & Hk) s rest e plans F. destruct (C28_listed t k s rest e plans W Hk F) as (rd & s1 & o & rd' & R1 & R2 & R3 & _). eauto 8.
    + left. split; [exact NE|]. rewrite D1, B1 in C1. congruence.
Qed.
Print Assumptions C120_download_partial.

(** The other direction: what is published this way arrives. *)
Theorem C120_publish : forall sha ed_pub ed_sign ed_verify, ed25519_correct ed_pub ed_sign ed_verify ->
  forall root f w n name seed sk pk ks ks', fs_ok f -> DumpPathFilter None root (Sink [] []) f = (WOk, w) -> describes sha (out w) n ->
  wf_narinfo n -> key_name name -> ~ In x0a name -> (forall s, In s (ni_Signatures n) -> sig_name s <> name) ->
  length seed = 32 -> GenerateKeypair ed_pub name (Ok seed) = Ok (sk, pk) ->
  (forall k, In k ks -> pk_name k <> name /\ forall s, In s (ni_Signatures n) -> sig_name s <> pk_name k) ->
  exists t fp s text, tree_of (keep_of None) root [] f = Some t /\ Fingerprint n = Ok fp /\ sk_Sign ed_sign sk fp = Ok s /\ ni_String (add_signature n s) = Ok text /\
    (forall r, src_data r = text -> fin r = EEOF -> Forall (fun c => c <> []) (chunks r) -> lines_below 1048576 text ->
      let n2 := add_signature n s in Parse r = Ok n2 /\ Fingerprint n2 = Ok fp /\ VerifyFirst ed_verify fp (ni_Signatures n2) (ks ++ pk :: ks') = Ok true /\ describes sha (out w) n2) /\
    (listable t -> forall s rest e plans, flat s = (out w ++ rest, e) ->
      exists rd s1 o rd', NewReader s = (Ok rd, s1) /\ session plans rd = (o, rd') /\ session_of (items [] t) plans o).
Proof.
  intros sha ep es ev HC root f w n name seed sk pk ks ks' FO DU DE W K NL U L G HK.
  destruct (C39_success_is_complete _ _ _ _ _ FO DU) as (_ & t & TR & _ & OUT). cbn [out app] in OUT.
  destruct (C85_publish ep es ev HC n name seed sk pk ks ks' W K NL U L G HK) as (fp & s & text & A1 & A2 & A3 & A4).
  exists t, fp, s, text. do 4 (split; [assumption|]). split.
  - intros r R1 R2 R3 R4. destruct (A4 r R1 R2 R3 R4) as (B1 & B2 & B3). split; [exact B1|]. split; [exact B2|]. split; [exact B3|exact DE].
  - intros (WT & k & Hk) s' rest e plans F. rewrite OUT in F. destruct (C28_listed t k s' rest e plans WT Hk F) as (rd & s1 & o & rd' & R1 & R2 & R3 & _). eauto 8.
Qed.
Print Assumptions C120_publish.
(** A directory with every kind of node, published with the fields of the sample narinfo. *)
Definition pub_fs : fs :=
  FDir [ (bs "bin", FDir [(bs "sh", FReg 493 5 (Src [bs "#!"; []; bs "sh"; bs "x"] EEOF true))]);
         (bs "lib", FSym (bs "/usr/lib")); (bs "z", FReg 420 0 (Src [] EEOF false)) ].
Definition toy_sha (d : bytes) : bytes := firstn 32 (rev d ++ repeat x00 32).
Definition pub_info : narinfo :=
  NarInfo (ni_StorePath NarInfoP.sample) (ni_URL NarInfoP.sample) (ni_Compression NarInfoP.sample) (ni_FileHash NarInfoP.sample) (ni_FileSize NarInfoP.sample)
    (Some (HashEnc (Hash SHA256 (toy_sha (nar ex_fs_tree))) NixBase32 true)) (lenN (nar ex_fs_tree)) (ni_References NarInfoP.sample)
    (ni_Deriver NarInfoP.sample) (ni_System NarInfoP.sample) (ni_Signatures NarInfoP.sample) (ni_CA NarInfoP.sample).
Lemma pub_published : published toy_sha pub_info ex_fs_tree.
Proof.
  destruct (DumpPathFilter None (bs "/tmp/d") (Sink [] []) pub_fs) as [o w] eqn:D. exists (bs "/tmp/d"), pub_fs, w. split.
  { repeat (constructor; cbn [fst snd]); try (apply ex_names; cbn; tauto); try discriminate; reflexivity. }
  assert (O : o = WOk) by (apply (f_equal fst) in D; cbn [fst] in D; rewrite <- D; vm_compute; reflexivity). split; [congruence|].
  split; [vm_compute; reflexivity|]. apply (f_equal (fun p => out (snd p))) in D. cbn [snd] in D. rewrite <- D. split; vm_compute; reflexivity.
Qed.
Example C120_nonvacuous : exists fp keys (ed_verify : bytes -> bytes -> bytes -> bool) (signed : narinfo -> node -> Prop) r n data,
  (forall k msg sig, In k keys -> ed_verify (pk_data k) msg sig = true -> exists m t, signed m t /\ Fingerprint m = Ok msg) /\
  (forall m t, signed m t -> signable m /\ published toy_sha m t) /\
  Parse r = Ok n /\ (forall x, In x (ni_References n) -> ~ occurs (bs ",/nix/store/") x) /\
  Fingerprint n = Ok fp /\ VerifyFirst ed_verify fp (ni_Signatures n) keys = Ok true /\ describes toy_sha data n /\ data <> [].
Proof.
  set (fp := get (Fingerprint pub_info) []).
  exists fp, [PK ex_name (repeat x07 32)], (fun _ msg _ => beq msg fp), (fun m t => m = pub_info /\ t = ex_fs_tree), (Src [get (ni_String pub_info) []] EEOF false), pub_info, (nar ex_fs_tree).
  assert (C : Forall (fun x : bytes => contains_byte x ","%byte = false /\ contains_byte x ";"%byte = false) (ni_References pub_info)) by (vm_compute; repeat constructor).
  assert (NC : forall x (c : byte), contains_byte x c = false -> ~ In c x) by (intros x c F I; apply contains_byte_iff in I; congruence).
  split; [intros k msg sig _ H; apply beq_eq in H; exists pub_info, ex_fs_tree; split; [auto|]; rewrite H; vm_compute; reflexivity|].
  split; [intros m t (-> & ->); split; [|exact pub_published]; split; [apply NC; vm_compute; reflexivity|split; [vm_compute; reflexivity|apply Forall_impl with (2 := C); intros x (A & B); split; apply NC; assumption]]|].
  split; [vm_compute; reflexivity|]. split.
  { intros x X (a & b & ->). rewrite Forall_forall in C. apply C in X. destruct X as [X _]. apply (NC _ _ X). apply in_or_app. right. left. reflexivity. }
  split; [vm_compute; reflexivity|]. split; [vm_compute; reflexivity|]. split; [split; vm_compute; reflexivity|discriminate].
Qed.
Example C120_publish_nonvacuous : wf_narinfo pub_info /\ wf_tree reader_name ex_fs_tree.
Proof.
  split.
  - destruct NarInfoP.sample_wf as (V1 & V2 & V3 & V4 & V5 & V6 & V7 & V8 & V9 & V10 & V11 & V12 & V13).
    unfold wf_narinfo, narinfo_form, pub_info. cbn [ni_StorePath ni_URL ni_Compression ni_FileHash ni_FileSize ni_NarHash ni_NarSize ni_References ni_Deriver ni_System ni_Signatures ni_CA].
    repeat (split; [first [assumption|eexists; split; [reflexivity|]; split; [split; vm_compute; reflexivity|vm_compute; auto]|vm_compute; reflexivity]|]). assumption.
  - repeat (constructor; cbn [fst snd]); try (apply ex_names; cbn; tauto); try discriminate; reflexivity.
Qed.
