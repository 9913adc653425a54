(** Properties C82-C87: what the packages do together. *)
From Verif Require Import Base.Bytes Base.BytesFacts Model.GoIO Model.GoStd Model.Wire Model.Nar Model.NarReader Model.NarWriter
  Model.Nixhash Model.Signature Model.NarInfo Model.NarDump Model.Derivation Model.DrvParser Model.StoreBackends Model.Cmd
  Spec.WireSpec Spec.WireHist Spec.NarHist Spec.NarWHist Spec.HashSpec Spec.SignatureSpec Spec.NarInfoSpec Spec.NarDumpSpec
  Spec.DerivationSpec Spec.RoundSpec Spec.CmdSpec Spec.NarSpec Spec.NarParenSpec Spec.RefSpec Spec.PipelineSpec
  Proof.NarUtilProps Proof.NarPath Proof.NarReaderFacts Proof.NarSession Proof.NarWriterComplete Proof.SignatureProps Proof.NarInfoRound
  Proof.NarInfoProps Proof.DrvRound Proof.DrvHash Proof.PipelineProps Proof.NarInfoVerify Proof.DrvEncode Proof.DrvText Proof.DrvExact Proof.DrvInjNeat Proof.NarParenLast
  Props.NarReaderP Props.NarListedP Props.NarWriterP Props.NarDumpP Props.CmdP Props.SignatureP Props.NarInfoP Props.DerivationP.
Ltac Zify.zify_post_hook ::= idtac.

(** * C82: an archive stands for one tree only *)
Theorem C82_one_tree : forall t1 t2 rest1 rest2, go_sized t1 -> go_sized t2 -> nar t1 ++ rest1 = nar t2 ++ rest2 -> t1 = t2 /\ rest1 = rest2.
Proof. intros t1 t2 r1 r2 G1 G2 E. unfold nar in E. rewrite <- !app_assoc in E. apply app_inv_head in E. exact (ser_inj t1 t2 r1 r2 G1 G2 E). Qed.
Print Assumptions C82_one_tree.
(** So two successful dumps with the same bytes are dumps of the same tree. *)
Theorem C82_dumps_differ : forall flt1 root1 pl1 f1 w1 t1 flt2 root2 pl2 f2 w2 t2,
  fs_ok f1 -> DumpPathFilter flt1 root1 (Sink [] pl1) f1 = (WOk, w1) -> tree_of (keep_of flt1) root1 [] f1 = Some t1 -> go_sized t1 ->
  fs_ok f2 -> DumpPathFilter flt2 root2 (Sink [] pl2) f2 = (WOk, w2) -> tree_of (keep_of flt2) root2 [] f2 = Some t2 -> go_sized t2 ->
  out w1 = out w2 -> t1 = t2.
Proof.
  intros flt1 root1 pl1 f1 w1 t1 flt2 root2 pl2 f2 w2 t2 F1 D1 T1 G1 F2 D2 T2 G2 E.
  destruct (C39_success_is_complete _ _ _ _ _ F1 D1) as (_ & x1 & X1 & _ & O1). destruct (C39_success_is_complete _ _ _ _ _ F2 D2) as (_ & x2 & X2 & _ & O2).
  rewrite X1 in T1. rewrite X2 in T2. assert (x1 = t1) by congruence. assert (x2 = t2) by congruence. subst x1 x2. cbn [out app] in O1, O2.
  apply nar_inj; [exact G1|exact G2|]. congruence.
Qed.
Print Assumptions C82_dumps_differ.
Example C82_nonvacuous : go_sized ex_tree /\ go_sized (Dir []) /\ nar ex_tree <> nar (Dir []).
Proof. split; [repeat constructor; reflexivity|]. split; [repeat constructor|]. intros H. apply (f_equal (@length byte)) in H. vm_compute in H. discriminate. Qed.

(** * C83: nar dump, then nar cat and nar ls *)
Theorem C83_dump_cat_partial : forall root f t, fs_ok f -> intact (fun _ _ => true) root [] f -> tree_of (fun _ _ => true) root [] f = Some t -> writable t -> listable t ->
  exists w, DumpPathFilter None root (Sink [] []) f = (WOk, w) /\
    forall s e sizes, flat s = (out w, e) -> (forall k, (0 < sizes k)%N) ->
      (forall cs x c, at_path t cs (Reg x c) -> exists w', cat_Run sizes s (path_of cs) (Sink [] []) = (Ok tt, w') /\ out w' = c) /\
      ls_Run s (bs "/") true = (Ok tt, lines [] t).
Proof.
  intros root f t F I T V W'. destruct (C38_dump_partial root [] f t F I T V) as (w & D & O). exists w. split; [exact D|].
  intros s e sizes E SZ. rewrite O in E. cbn [app] in E. rewrite <- (app_nil_r (nar t)) in E.
  split.
  - intros cs x c A. destruct (C66_prints_all_partial sizes t s [] e cs x c (Sink [] []) SZ W' E A) as (w' & C & O'); [constructor|]. exists w'. split; [exact C|exact O'].
  - exact (proj1 (C67_root_partial t s [] e W' E)).
Qed.
Print Assumptions C83_dump_cat_partial.
Definition ex_fs2 : fs :=
  FDir [(bs "bin", FDir [(bs "sh", FReg 493 8 (Src [bs "#!"; []; bs "interp"] EEOF true))]); (bs "empty", FReg 420 0 (Src [] EEOF false)); (bs "lib", FSym (bs "lib64"))].
Example C83_nonvacuous : fs_ok ex_fs2 /\ intact (fun _ _ => true) (bs "/d") [] ex_fs2 /\ tree_of (fun _ _ => true) (bs "/d") [] ex_fs2 = Some ex_tree /\
  writable ex_tree /\ listable ex_tree /\ at_path ex_tree [bs "bin"; bs "sh"] (Reg true (bs "#!interp")).
Proof.
  assert (Hn : forall n, In n [bs "bin"; bs "sh"; bs "empty"; bs "lib"] -> entry_name n).
  { intros n Hin. repeat destruct Hin as [<-|Hin]; try destruct Hin; repeat split; try discriminate; cbn; intuition discriminate. }
  split; [|split; [|split; [|split; [|split]]]].
  - repeat (constructor; cbn [fst snd]); try (apply Hn; cbn; tauto); try reflexivity; try lia.
  - cbn. repeat split; try discriminate.
  - vm_compute. reflexivity.
  - exact (wf_writable _ C29_nonvacuous).
  - apply reader_listable. apply wf_weaken; [exact C29_nonvacuous|]; intros n [A _]; exact A.
  - econstructor; [left; reflexivity|]. econstructor; [left; reflexivity|]. constructor.
Qed.

(** An entry called ")" hides what follows it: nar ls -R prints less and succeeds, nar cat of a later file fails. *)
Theorem C83_dump_cat_refuted : exists f t w,
  fs_ok f /\ intact (fun _ _ => true) (bs "/d") [] f /\ tree_of (fun _ _ => true) (bs "/d") [] f = Some t /\ wf_tree any_name t /\
  DumpPathFilter None (bs "/d") (Sink [] []) f = (WOk, w) /\ out w = nar t /\
  at_path t [bs "a"] (Reg false (bs "hi")) /\ is_ok (fst (cat_Run (fun _ => 512%N) (Src [out w] EEOF false) (bs "/a") (Sink [] []))) = false /\
  exists l, ls_Run (Src [out w] EEOF false) (bs "/") true = (Ok tt, l) /\ l <> lines [] t.
Proof.
  exists (FDir [(bs ")", FSym (bs "x")); (bs "a", FReg 420 2 (Src [bs "hi"] EEOF false))]), (Dir [(bs ")", Sym (bs "x")); (bs "a", Reg false (bs "hi"))]).
  destruct (DumpPathFilter None (bs "/d") (Sink [] []) (FDir [(bs ")", FSym (bs "x")); (bs "a", FReg 420 2 (Src [bs "hi"] EEOF false))])) as [o w] eqn:D. exists w.
  assert (Hn : forall n, In n [bs ")"; bs "a"] -> entry_name n).
  { intros n Hin. repeat destruct Hin as [<-|Hin]; try destruct Hin; repeat split; try discriminate; cbn; intuition discriminate. }
  assert (O : o = WOk) by (apply (f_equal fst) in D; cbn [fst] in D; rewrite <- D; vm_compute; reflexivity).
  assert (OUT : out w = nar (Dir [(bs ")", Sym (bs "x")); (bs "a", Reg false (bs "hi"))])) by (apply (f_equal (fun p => out (snd p))) in D; cbn [snd] in D; rewrite <- D; vm_compute; reflexivity).
  split; [repeat (constructor; cbn [fst snd]); try (apply Hn; cbn; tauto); try reflexivity; try lia|].
  split; [cbn; repeat split; try discriminate|]. split; [vm_compute; reflexivity|]. split.
  { constructor; [|split; [reflexivity|exact I]|repeat constructor; discriminate].
    repeat (constructor; [split; [|exact I]; repeat split; try discriminate; try (intros [H|[]]; discriminate); cbn; lia|]). constructor. }
  split; [congruence|]. split; [exact OUT|]. rewrite OUT. split; [econstructor; [right; left; reflexivity|constructor]|]. split; [vm_compute; reflexivity|].
  eexists. split; [vm_compute; reflexivity|]. discriminate.
Qed.
Print Assumptions C83_dump_cat_refuted.

(** * C84: copying an archive entry by entry *)
Theorem C84_copy_partial : forall t s e plans r s1 o r', writable t -> listable t -> flat s = (nar t, e) -> nodes t < length plans ->
  NewReader s = (Ok r, s1) -> session plans r = (o, r') -> read_to_end o ->
  exists r0 w res r1 r2, NewWriter (Sink [] []) = (Ok r0, w) /\ wsession (rewritten o) r0 = (res, r1) /\ all_ok (rewritten o) res /\
    wr_Close r1 = (WOk, r2) /\ out (wr_sink r2) = nar t.
Proof.
  intros t s e plans r s1 o r' V (W' & k & Hk) E L N S R. rewrite <- (app_nil_r (nar t)) in E.
  destruct (C28_listed t k s [] e plans W' Hk E) as (r0 & s0 & o0 & r0' & N0 & S0 & X & _).
  rewrite N in N0. assert (r0 = r) by congruence. subst r0. rewrite S in S0. assert (o0 = o) by congruence. subst o0.
  apply (C27_writes_the_tree_partial [] t (rewritten o) V). apply (session_copy _ _ _ X); [|exact R|exact (items_sized _ t W' [])].
  rewrite items_length. exact L.
Qed.
Print Assumptions C84_copy_partial.
(** The copy of an archive with an entry called ")" may be the archive of another tree, with no error anywhere. *)
Theorem C84_copy_refuted : exists t u plans r s1 o r' r0 w res r1 r2, wf_tree any_name t /\ nodes t < length plans /\
  NewReader (Src [nar t] EEOF false) = (Ok r, s1) /\ session plans r = (o, r') /\ read_to_end o /\
  NewWriter (Sink [] []) = (Ok r0, w) /\ wsession (rewritten o) r0 = (res, r1) /\ all_ok (rewritten o) res /\ wr_Close r1 = (WOk, r2) /\
  out (wr_sink r2) = nar u /\ u <> t.
Proof.
  exists (Dir [(bs ")", Sym (bs "x")); (bs "a", Sym (bs "y"))]), (Dir [(bs ")", Sym (bs "x"))]), (repeat [1%N] 4).
  eexists _, _, _, _, _, _, _, _, _. split; [apply C28_reads_the_tree_refuted|]. split; [vm_compute; repeat constructor|].
  split; [vm_compute; reflexivity|]. split; [vm_compute; reflexivity|]. split; [repeat (constructor; [cbn; tauto|]); constructor|].
  split; [vm_compute; reflexivity|]. split; [vm_compute; reflexivity|]. split; [repeat constructor|]. split; [vm_compute; reflexivity|].
  split; [vm_compute; reflexivity|discriminate].
Qed.
Print Assumptions C84_copy_refuted.
Definition three : list N := [4; 4; 4]%N.
Example C84_nonvacuous : exists r s1 o r', NewReader (Src [nar ex_tree] EEOF false) = (Ok r, s1) /\ session (repeat three 6) r = (o, r') /\
  nodes ex_tree < length (repeat three 6) /\ read_to_end o /\ In (hdr_of [bs "bin"; bs "sh"] (Reg true (bs "#!interp")), [bs "#!in"; bs "terp"; []]) (rewritten o).
Proof.
  eexists _, _, _, _. split; [vm_compute; reflexivity|]. split; [vm_compute; reflexivity|]. split; [vm_compute; repeat constructor|]. split.
  - repeat (constructor; [cbn; tauto|]). constructor.
  - cbn. tauto.
Qed.

(** * C85: sign, publish, fetch, verify *)
Theorem C85_publish : forall ed_pub ed_sign ed_verify, ed25519_correct ed_pub ed_sign ed_verify ->
  forall n name seed sk pk ks ks', wf_narinfo n -> key_name name -> ~ In x0a name -> (forall s, In s (ni_Signatures n) -> sig_name s <> name) ->
  length seed = 32 -> GenerateKeypair ed_pub name (Ok seed) = Ok (sk, pk) ->
  (forall k, In k ks -> pk_name k <> name /\ forall s, In s (ni_Signatures n) -> sig_name s <> pk_name k) ->
  exists fp s text, Fingerprint n = Ok fp /\ sk_Sign ed_sign sk fp = Ok s /\ ni_String (add_signature n s) = Ok text /\
    forall r, src_data r = text -> fin r = EEOF -> Forall (fun c => c <> []) (chunks r) -> lines_below 1048576 text ->
      let n2 := add_signature n s in
      Parse r = Ok n2 /\ Fingerprint n2 = Ok fp /\ VerifyFirst ed_verify fp (ni_Signatures n2) (ks ++ pk :: ks') = Ok true.
Proof.
  intros ep es ev HC n name seed sk pk ks ks' W K NL U L G HK. pose proof W as W0.
  destruct W0 as (A1 & A2 & A3 & A4 & A5 & (h & A6 & (A6' & _)) & A7 & A8 & A9 & A10 & A11 & A12 & A13).
  destruct (C43_fingerprint_form n h A6 A6') as (hs & _ & FP). eexists. 
  destruct (sign_verifies ep es ev name seed sk pk (fingerprint_text (ni_StorePath n) hs (FormatUint (ni_NarSize n)) (ni_References n)) HC L G) as (s & B1 & B2 & B3 & B4 & B5 & B6 & B7).
  exists s. assert (W2 : wf_narinfo (add_signature n s)).
  { destruct W as (V1 & V2 & V3 & V4 & V5 & V6 & V7 & V8 & V9 & V10 & V11 & V12 & V13).
    unfold wf_narinfo, add_signature. cbn [ni_StorePath ni_URL ni_Compression ni_FileHash ni_FileSize ni_NarHash ni_NarSize ni_References ni_Deriver ni_System ni_Signatures ni_CA].
    do 12 (split; [assumption|]).
    apply Forall_app. split; [exact A13|]. constructor; [|constructor]. destruct B3 as (_ & B3 & _). rewrite B4. auto. }
  destruct (C41_parse_inverts_string_partial _ W2) as (text & S & P). exists text. split; [exact FP|]. split; [exact B1|]. split; [exact S|].
  intros r R1 R2 R3 R4 n2. unfold n2. split; [exact (P r R1 R2 R3 R4)|]. split; [exact FP|].
  rewrite (VerifyFirst_first ev _ (ni_Signatures n ++ [s]) ks pk ks' (ni_Signatures n) s []).
  - apply pk_Verify_true. exact B3.
  - reflexivity.
  - congruence.
  - apply Forall_forall. intros x Hx. rewrite B5. exact (U x Hx).
  - apply Forall_forall. intros k Hk. destruct (HK k Hk) as (X1 & X2). apply Forall_app. split; [apply Forall_forall; exact X2|]. constructor; [|constructor]. congruence.
Qed.
Print Assumptions C85_publish.
Example C85_nonvacuous : ed25519_correct toy_pub toy_sign toy_verify /\ wf_narinfo NarInfoP.sample /\ key_name (bs "mine-1") /\
  (forall s, In s (ni_Signatures NarInfoP.sample) -> sig_name s <> bs "mine-1") /\
  exists sk pk, GenerateKeypair toy_pub (bs "mine-1") (Ok (repeat x07 32)) = Ok (sk, pk).
Proof.
  split; [exact (proj1 C48_nonvacuous)|]. split; [exact NarInfoP.sample_wf|]. split.
  - split; [discriminate|]. cbn. intuition discriminate.
  - split; [|eexists _, _; reflexivity]. intros s Hs. repeat destruct Hs as [<-|Hs]; try discriminate. destruct Hs.
Qed.

(** * C86: what verifies was signed *)
(** [signed m]: the owner of one of the trusted keys signed the narinfo [m];
    that no other message verifies is what one trusts ed25519 for. *)
Theorem C86_verified_partial : forall ed_verify keys (signed : narinfo -> Prop),
  (forall k msg sig, In k keys -> ed_verify (pk_data k) msg sig = true -> exists m, signed m /\ Fingerprint m = Ok msg) ->
  (forall m, signed m -> fingerprintable m) ->
  forall n fp, fingerprintable n -> Fingerprint n = Ok fp -> VerifyFirst ed_verify fp (ni_Signatures n) keys = Ok true ->
  exists m, signed m /\ same_claim n m.
Proof.
  intros ev keys signed UF FPable n fp Fn E V. destruct (VerifyFirst_sound ev fp _ _ V) as (s & k & _ & Hk & (_ & _ & _ & G)).
  destruct (UF k fp (sig_data s) Hk G) as (m & Sm & Em). exists m. split; [exact Sm|]. exact (C43_fingerprint_injective n m fp Fn (FPable m Sm) E Em).
Qed.
Print Assumptions C86_verified_partial.
(** The hypotheses are met by the owner of one key who signed the sample narinfo only. *)
Example C86_nonvacuous : exists fp keys (ed_verify : bytes -> bytes -> bytes -> bool) n, 
  (forall k msg sig, In k keys -> ed_verify (pk_data k) msg sig = true -> exists m, m = NarInfoP.sample /\ Fingerprint m = Ok msg) /\
  fingerprintable NarInfoP.sample /\ Fingerprint n = Ok fp /\ VerifyFirst ed_verify fp (ni_Signatures n) keys = Ok true.
Proof.
  set (fp := get (Fingerprint NarInfoP.sample) []). exists fp, [PK ex_name (repeat x07 32)], (fun _ msg _ => beq msg fp), NarInfoP.sample.
  split; [|split; [|split; vm_compute; reflexivity]].
  - intros k msg sig _ H. apply beq_eq in H. exists NarInfoP.sample. split; [reflexivity|]. rewrite H. vm_compute. reflexivity.
  - exact (proj1 C43_nonvacuous).
Qed.
(** The same for a narinfo read from any text at all, whatever its store path
    and hash: only one thing has to be looked at, that no reference has another
    store path glued to it. *)
Theorem C86_parsed_partial : forall ed_verify keys (signed : narinfo -> Prop),
  (forall k msg sig, In k keys -> ed_verify (pk_data k) msg sig = true -> exists m, signed m /\ Fingerprint m = Ok msg) ->
  (forall m, signed m -> signable m) ->
  forall r n fp, Parse r = Ok n -> (forall x, In x (ni_References n) -> ~ occurs (bs ",/nix/store/") x) ->
  Fingerprint n = Ok fp -> VerifyFirst ed_verify fp (ni_Signatures n) keys = Ok true ->
  exists m, signed m /\ same_claim n m.
Proof.
  intros ev keys signed UF SG r n fp P RF E V. destruct (VerifyFirst_sound ev fp _ _ V) as (s & k & _ & Hk & (_ & _ & _ & G)).
  destruct (UF k fp (sig_data s) Hk G) as (m & Sm & Em). exists m. split; [exact Sm|]. exact (claim_of_text n m fp (SG m Sm) (parsed_size r n P) RF E Em).
Qed.
Print Assumptions C86_parsed_partial.
Example C86_parsed_nonvacuous : exists fp keys (ed_verify : bytes -> bytes -> bytes -> bool) r n,
  (forall k msg sig, In k keys -> ed_verify (pk_data k) msg sig = true -> exists m, m = NarInfoP.sample /\ Fingerprint m = Ok msg) /\
  signable NarInfoP.sample /\ Parse r = Ok n /\ ni_References n <> [] /\ (forall x, In x (ni_References n) -> ~ occurs (bs ",/nix/store/") x) /\
  Fingerprint n = Ok fp /\ VerifyFirst ed_verify fp (ni_Signatures n) keys = Ok true.
Proof.
  set (fp := get (Fingerprint NarInfoP.sample) []). exists fp, [PK ex_name (repeat x07 32)], (fun _ msg _ => beq msg fp), (Src [get (ni_String NarInfoP.sample) []] EEOF false), NarInfoP.sample.
  assert (C : Forall (fun x : bytes => contains_byte x ","%byte = false /\ contains_byte x ";"%byte = false) (ni_References NarInfoP.sample)) by (vm_compute; repeat constructor).
  assert (NC : forall x (c : byte), contains_byte x c = false -> ~ In c x) by (intros x c F I; apply contains_byte_iff in I; congruence).
  split; [intros k msg sig _ H; apply beq_eq in H; exists NarInfoP.sample; split; [reflexivity|]; rewrite H; vm_compute; reflexivity|].
  split; [split; [apply NC; vm_compute; reflexivity|split; [vm_compute; reflexivity|apply Forall_impl with (2 := C); intros x (A & B); split; apply NC; assumption]]|].
  split; [vm_compute; reflexivity|]. split; [discriminate|]. split; [|split; vm_compute; reflexivity].
  intros x X (a & b & ->). rewrite Forall_forall in C. apply C in X. destruct X as [X _]. apply (NC _ _ X). apply in_or_app. right. left. reflexivity.
Qed.
(** Without the restriction on the characters of the references, a narinfo that
    was never signed verifies: one reference that contains a comma stands in for
    two that were signed.  Parse and Check accept both narinfos. *)
Definition zeros (n : nat) : bytes := repeat "0"%byte n.
Definition ref1 : bytes := zeros 32 ++ bs "-a".
Definition ref2 : bytes := zeros 32 ++ bs "-b/../../../../../../nix/store/" ++ zeros 32 ++ bs "-c".
Definition split_refs : list bytes := [ref1; ref2].
Definition joined_refs : list bytes := [ref1 ++ bs ",/nix/store/" ++ ref2].
Definition ref_info (rs : list bytes) (sigs : list signature) : narinfo :=
  NarInfo (bs "/nix/store/00bgd045z0d4icpbc2yyz4gx48ak44la-x") (bs "u") (bs "xz") None 0 (Some (HashEnc (Hash SHA256 (repeat x02 32)) NixBase32 true)) 7 rs [] [] sigs [].
Theorem C86_references_refuted : exists keys signed_one forged fp,
  Check signed_one = Ok tt /\ Check forged = Ok tt /\ Parse (Src [get (ni_String forged) []] EEOF false) = Ok forged /\
  Fingerprint signed_one = Ok fp /\ Fingerprint forged = Ok fp /\ ni_References signed_one <> ni_References forged /\
  VerifyFirst toy_verify fp (ni_Signatures forged) keys = Ok true.
Proof.
  set (fp := get (Fingerprint (ref_info split_refs [])) []). set (s := Sig ex_name (toy_sign [] fp)).
  exists [PK ex_name (repeat x07 32)], (ref_info split_refs [s]), (ref_info joined_refs [s]), fp.
  split; [vm_compute; reflexivity|]. split; [vm_compute; reflexivity|]. split; [vm_compute; reflexivity|]. split; [vm_compute; reflexivity|].
  split; [vm_compute; reflexivity|]. split; [discriminate|]. vm_compute. reflexivity.
Qed.
Print Assumptions C86_references_refuted.

(** * C87: a derivation written to a store directory or served by a cache *)
Theorem C87_derivation_file_partial : forall json sha d w dir p, wf_maps d -> drv_Validate d = Ok tt -> ~ ambiguous d -> readable d -> json_consistent json d ->
  Forall (eq None) (plan w) -> DrvPath sha d = Ok p ->
  exists t pl, WriteDerivation d w = (Ok tt, Sink (out w ++ t) pl) /\
    (forall o f, os_open o (getFilepath dir p) = Ok f -> src_data f = t -> fin f = EEOF ->
       exists d', fs_Get json o dir p = Ok d' /\ same_drv d d' /\ DrvPath sha d' = Ok p) /\
    (forall ask status f, ask (getURL_path dir p) = Ok (Response status f) -> (200 <= status < 300)%N -> src_data f = t -> fin f = EEOF ->
       exists d', http_Get json ask dir p = Ok d' /\ same_drv d d' /\ DrvPath sha d' = Ok p).
Proof.
  intros json sha d w dir p W V NA P J G D. destruct (Proof.DrvText.write_good d w W G) as (t & pl & AT & E). pose proof (round_trip_neat json d W V NA P J t AT) as R. exists t, pl. split; [exact E|].
  assert (S : forall d', same_drv d d' -> DrvPath sha d' = Ok p) by (intros d' S; rewrite <- (DrvPath_same sha d d' W S); exact D).
  split.
  - intros o f O X Y. destruct (R f X Y) as (d' & R' & S'). exists d'. split; [|auto]. unfold fs_Get. rewrite O. cbn [rbind]. rewrite R'. reflexivity.
  - intros ask st f A St X Y. destruct (R (Src [t] EEOF false)) as (d' & R' & S'); [apply app_nil_r|reflexivity|]. exists d'. split; [|auto].
    unfold http_Get. rewrite A. cbn [r_status r_body].
    destruct (N.ltb_spec st 200) as [L|L]; [lia|]. destruct (N.leb_spec 300 st) as [L'|L']; [lia|]. cbn [orb].
    unfold ReadAll. rewrite Y, X. rewrite R'. reflexivity.
Qed.
Print Assumptions C87_derivation_file_partial.
(** Exactly these are got back: from a file, or from a cache, with what WriteDerivation wrote. *)
Theorem C87_exact : forall json d w, wf_maps d -> ~ ambiguous d -> Forall (eq None) (plan w) ->
  exists t pl, WriteDerivation d w = (Ok tt, Sink (out w ++ t) pl) /\
    (forall o f dir p, os_open o (getFilepath dir p) = Ok f -> src_data f = t -> fin f = EEOF ->
       (exists d', fs_Get json o dir p = Ok d' /\ same_drv d d') <-> drv_Validate d = Ok tt /\ json_consistent json d /\ readable d) /\
    (forall ask status f dir p, ask (getURL_path dir p) = Ok (Response status f) -> (200 <= status < 300)%N -> src_data f = t -> fin f = EEOF ->
       (exists d', http_Get json ask dir p = Ok d' /\ same_drv d d') <-> drv_Validate d = Ok tt /\ json_consistent json d /\ readable d).
Proof.
  intros json d w W NA G. destruct (Proof.DrvText.write_good d w W G) as (t & pl & A & E). exists t, pl. split; [exact E|].
  assert (R : forall r, src_data r = t -> fin r = EEOF -> (exists d', ReadDerivation json r = Ok d' /\ same_drv d d') <-> drv_Validate d = Ok tt /\ json_consistent json d /\ readable d).
  { intros r X Y. rewrite (read_back_iff json d t r W NA A X Y). unfold readable. tauto. }
  split.
  - intros o f dir p O X Y. rewrite <- (R f X Y). unfold fs_Get. rewrite O. cbn [rbind]. split; intros (d' & H & S); exists d'; (split; [|exact S]).
    + destruct (ReadDerivation json f) as [e|e|e]; try discriminate H; exact H.
    + rewrite H. reflexivity.
  - intros ask st f dir p A' St X Y. rewrite <- (R (Src [t] EEOF false)); [|apply app_nil_r|reflexivity]. unfold http_Get. rewrite A'. cbn [r_status r_body].
    destruct (N.ltb_spec st 200) as [L|L]; [lia|]. destruct (N.leb_spec 300 st) as [L'|L']; [lia|]. cbn [orb]. unfold ReadAll. rewrite Y, X. split; intros (d' & H & S); exists d'; (split; [|exact S]).
    + destruct (ReadDerivation json (Src [t] EEOF false)) as [e|e|e]; try discriminate H; exact H.
    + rewrite H. reflexivity.
Qed.
Print Assumptions C87_exact.
Example C87_nonvacuous : wf_maps DerivationP.sample /\ drv_Validate DerivationP.sample = Ok tt /\ ~ ambiguous DerivationP.sample /\ readable DerivationP.sample /\
  json_consistent no_json DerivationP.sample /\ (exists p, DrvPath (fun b => firstn 32 (b ++ repeat x00 32)) DerivationP.sample = Ok p) /\
  fs_Get no_json (Os (fun _ => LNotExist) (fun q => if beq q (bs "/dir/x.drv") then Ok (src1 (text_of DerivationP.sample)) else Err EEOF)) (bs "/dir") (bs "/nix/store/x.drv") = Ok sample_sorted.
Proof.
  destruct C49_nonvacuous as (A & B & C & D & E & _). apply printable_readable in D. do 5 (split; [assumption|]). split; [eexists; vm_compute; reflexivity|]. vm_compute. reflexivity.
Qed.
(** What is missing (see C49 for why): a backslash in the builder comes back doubled, from a file with the same name. *)
Theorem C87_builder_refuted : exists d d' t, wf_maps d /\ valid_drv d /\ WriteDerivation d good_sink = (Ok tt, Sink t []) /\ d_builder d <> d_builder d' /\
  forall json o dir p, os_open o (getFilepath dir p) = Ok (src1 t) -> fs_Get json o dir p = Ok d'.
Proof.
  destruct C49_builder_refuted as (d & d' & A & B & C & D & E). destruct (E no_json) as (_ & E2 & _). exists d, d', (text_of d).
  do 3 (split; [assumption|]). split; [rewrite C, D; discriminate|]. intros json o dir p O. destruct (E json) as (_ & _ & R). unfold fs_Get. rewrite O. cbn [rbind]. rewrite R. reflexivity.
Qed.
Print Assumptions C87_builder_refuted.
