(** C41-C44, C68: narinfo. *)
From Verif Require Import Base.Bytes Base.BytesFacts Model.GoIO Model.GoStd Model.Scanner Model.Nixbase32 Model.Nixhash Model.Storepath
  Model.Signature Model.NarInfo Spec.HashSpec Spec.StorePathSpec Spec.SignatureSpec Spec.NarInfoSpec Proof.HashProps Proof.StorePathProps
  Proof.NarInfoProps Proof.NarInfoMore Proof.NarInfoRound Proof.NarInfoCheck Proof.NarInfoExact.
Ltac Zify.zify_post_hook ::= idtac.

(** The sample of /repo/pkg/narinfo/narinfo_test.go:18-30. *)
Definition text_of (ls : list string) : bytes := concat (map (fun l => bs l ++ [x0a]) ls).
Definition sample_lines : list string := [
  "StorePath: /nix/store/00bgd045z0d4icpbc2yyz4gx48ak44la-net-tools-1.60_p20170221182432";
  "URL: nar/1094wph9z4nwlgvsd53abfz8i117ykiv5dwnq9nnhz846s7xqd7d.nar.xz";
  "Compression: xz";
  "FileHash: sha256:1094wph9z4nwlgvsd53abfz8i117ykiv5dwnq9nnhz846s7xqd7d";
  "FileSize: 114980";
  "NarHash: sha256:0lxjvvpr59c2mdram7ympy5ay741f180kv3349hvfc3f8nrmbqf6";
  "NarSize: 464152";
  "References: 7gx4kiv5m0i7d7qkixq2cwzbr10lvxwc-glibc-2.27";
  "Deriver: 10dx1q4ivjb115y3h90mipaaz533nr0d-net-tools-1.60_p20170221182432.drv";
  "Sig: cache.nixos.org-1:sn5s/RrqEI+YG6/PjwdbPjcAC7rcta7sJU4mFOawGvJBLsWkyLtBrT2EuFt/LJjWkTZ+ZWOI9NTtjo/woMdvAg==";
  "Sig: hydra.other.net-1:JXQ3Z/PXf0EZSFkFioa4FbyYpbbTbHlFBtZf4VqU0tuMTWzhMD7p9Q7acJjLn3jofOtilAAwRILKIfVuyrbjAA=="]%string.
Definition sample_text : bytes := text_of sample_lines.
Definition get {A} (r : res A) (d : A) : A := match r with Ok a => a | _ => d end.
Definition sample : narinfo := Eval vm_compute in get (Parse (Src [sample_text] EEOF false)) ni_empty.

(** * C41 *)
(** However the printed text is cut up on the way, Parse returns the value.
    Missing against the full claim: a file hash without a file size, a file size
    without a file hash and an empty compression are excluded by [wf_narinfo];
    they are not preserved, see the two theorems below. *)
Theorem C41_parse_inverts_string_partial : forall n, wf_narinfo n ->
  exists text, ni_String n = Ok text /\
    forall r, src_data r = text -> fin r = EEOF -> Forall (fun c => c <> []) (chunks r) ->
      lines_below 1048576 text -> Parse r = Ok n.
Proof. intros n W. exact (String_Parse n (wf_lossless n W)). Qed.
Print Assumptions C41_parse_inverts_string_partial.
(** Exactly when the printed text reads back as the value; [lossless] is
    [wf_narinfo] with every hash whose own text is read back. *)
Theorem C41_lossless_iff_partial : forall n text r, ni_String n = Ok text ->
  src_data r = text -> fin r = EEOF -> Forall (fun c => c <> []) (chunks r) -> lines_below 1048576 text ->
  (Parse r = Ok n <-> lossless n).
Proof.
  intros n text r S E1 E2 E3 E4. split.
  - intros P. apply Parse_sound in P. destruct P as (_ & P & _). rewrite E1 in P. exact (String_lossless n text S P).
  - intros L. destruct (String_Parse n L) as (t & S' & P). assert (t = text) by congruence. subst t. exact (P r E1 E2 E3 E4).
Qed.
Print Assumptions C41_lossless_iff_partial.
Theorem C41_wf_lossless : forall n, wf_narinfo n -> lossless n.
Proof. exact wf_lossless. Qed.
Print Assumptions C41_wf_lossless.
Definition ex_hash (c : byte) : hash_enc := HashEnc (Hash SHA256 (repeat c 32)) NixBase32 true.
Definition ex_small (co : bytes) (fh : option hash_enc) (fs : N) : narinfo :=
  NarInfo (bs "/nix/store/00bgd045z0d4icpbc2yyz4gx48ak44la-x") (bs "u") co fh fs (Some (ex_hash x02)) 7 [] [] [] [] [].
Theorem C41_file_hash_dropped_refuted : forall r text,
  ni_String (ex_small (bs "xz") (Some (ex_hash x01)) 0) = Ok text -> src_data r = text ->
  Parse r <> Ok (ex_small (bs "xz") (Some (ex_hash x01)) 0).
Proof.
  intros r text H Hr HP. apply Parse_sound in HP. destruct HP as (_ & HP & _). apply reads_iff in HP. destruct HP as (n0 & H1 & H2).
  rewrite Hr in H1. vm_compute in H. apply ok_inj in H. subst text. vm_compute in H1. apply ok_inj in H1. subst n0. discriminate.
Qed.
Print Assumptions C41_file_hash_dropped_refuted.
Theorem C41_file_size_dropped_refuted : forall r text,
  ni_String (ex_small (bs "xz") None 5) = Ok text -> src_data r = text ->
  Parse r <> Ok (ex_small (bs "xz") None 5).
Proof.
  intros r text H Hr HP. apply Parse_sound in HP. destruct HP as (_ & HP & _). apply reads_iff in HP. destruct HP as (n0 & H1 & H2).
  rewrite Hr in H1. vm_compute in H. apply ok_inj in H. subst text. vm_compute in H1. apply ok_inj in H1. subst n0. discriminate.
Qed.
Print Assumptions C41_file_size_dropped_refuted.
Lemma sample_wf : wf_narinfo sample.
Proof.
  assert (LT : forall v, contains_byte v x0a = false -> last v x00 <> x0d -> contains_sub v (bs ": ") = false -> line_text v).
  { intros v A B C. split; [apply contains_byte_false; exact A|]. split.
    - intros p ->. apply B. apply last_last.
    - intros p r ->. apply not_true_iff_false in C. apply C. apply contains_sub_iff. exists p, r. reflexivity. }
  assert (KN : forall k, k <> [] -> contains_byte k ":"%byte = false -> key_name k) by (intros k A B; split; [exact A|apply contains_byte_false; exact B]).
  unfold wf_narinfo, narinfo_form, sample. cbn [ni_StorePath ni_URL ni_Compression ni_FileHash ni_FileSize ni_NarHash ni_NarSize ni_References ni_Deriver ni_System ni_Signatures ni_CA].
  repeat match goal with
    | |- _ /\ _ => split
    | |- line_text _ => apply LT; [reflexivity|discriminate|reflexivity]
    | |- printable_hash _ => repeat split; reflexivity
    | |- exists h, _ = Some h /\ _ => eexists; split; [reflexivity|]
    end.
  - discriminate.
  - reflexivity.
  - reflexivity.
  - reflexivity.
  - split; [constructor; [|constructor]; apply contains_byte_false; reflexivity|]. split; [apply LT; [reflexivity|discriminate|reflexivity]|discriminate].
  - discriminate.
  - constructor; [|constructor; [|constructor]]; (split; [apply KN; [discriminate|reflexivity]|split; [apply contains_byte_false; reflexivity|reflexivity]]).
Qed.
Example C41_nonvacuous : wf_narinfo sample /\ ni_String sample = Ok sample_text /\ lines_below 1048576 sample_text.
Proof.
  split; [exact sample_wf|]. split; [vm_compute; reflexivity|]. unfold lines_below. apply Forall_forall. intros x Hx.
  assert (F : forallb (fun l => (lenN l <? 1048576)%N) (split_byte sample_text x0a) = true) by (vm_compute; reflexivity).
  rewrite forallb_forall in F. apply N.ltb_lt. apply F. exact Hx.
Qed.

(** * C42 *)
(** Whatever Parse accepts is a text that [reads] describes... *)
Theorem C42_accepted : forall r n, Parse r = Ok n ->
  fin r = EEOF /\ reads (src_data r) n /\ lines_at_most 1048576 (src_data r).
Proof. exact Parse_sound. Qed.
Print Assumptions C42_accepted.
(** ... and every such text is accepted, in any fragmentation. *)
Theorem C42_accepts : forall r n, fin r = EEOF -> Forall (fun c => c <> []) (chunks r) -> lines_below 1048576 (src_data r) ->
  reads (src_data r) n -> Parse r = Ok n.
Proof. exact Parse_complete. Qed.
Print Assumptions C42_accepts.
(** Both in one, and exactly: a line and its line feed have to fit in 1 MiB, and
    so has a last line without one, unless the reader reports the end of the
    stream together with its last bytes, when it may fill the buffer. *)
Theorem C42_exact : forall r n, Forall (fun c => c <> []) (chunks r) ->
  Parse r = Ok n <-> fin r = EEOF /\ reads (src_data r) n /\ lines_fit (eager r) 1048576 (src_data r).
Proof. exact Parse_exact. Qed.
Print Assumptions C42_exact.
(** More than 1 MiB without a line feed anywhere, and the text is refused, however
    it is delivered. *)
Theorem C42_long_line : forall a l b r, ~ In x0a l -> (1048576 < lenN l)%N -> src_data r = a ++ l ++ b ->
  exists e, Parse r = Err e.
Proof. exact Parse_long_line. Qed.
Print Assumptions C42_long_line.
Theorem C42_never_panics : forall r, is_panic (Parse r) = false.
Proof. exact Parse_no_panic. Qed.
Print Assumptions C42_never_panics.
(** [reads] determines the value. *)
Theorem C42_reads_functional : forall text n m, reads text n -> reads text m -> n = m.
Proof. intros text n m H1 H2. apply reads_iff in H1. apply reads_iff in H2. destruct H1 as (a & A & ->), H2 as (b & B & ->). congruence. Qed.
Print Assumptions C42_reads_functional.
(** The buffer rule of [lines_fit] with a buffer of 4 bytes, on the scanner. *)
Example C42_boundary :
  scan_lines 4 (Src [bs "1234"] EEOF true) = ([bs "1234"], None) /\ snd (scan_lines 4 (Src [bs "1234"] EEOF false)) <> None /\
  lines_fit true 4 (bs "1234") /\ ~ lines_fit false 4 (bs "1234") /\ lines_fit false 4 (text_of ["123"; "123"]%string).
Proof.
  split; [vm_compute; reflexivity|]. split; [vm_compute; discriminate|]. split; [|split].
  - exists [], (bs "1234"). split; [reflexivity|]. split; [constructor|]. right. split; reflexivity.
  - intros (ls & l & E & _ & [A|[A _]]); [|discriminate]. destruct ls as [|x [|y ls]]; [|discriminate|discriminate].
    cbn in E. inversion E; subst. vm_compute in A. discriminate.
  - exists [bs "123"; bs "123"], []. split; [reflexivity|]. split; [repeat constructor|]. left. reflexivity.
Qed.
Example C42_nonvacuous :
  Parse (Src (map (fun c => [c]) sample_text) EEOF true) = Ok sample /\
  (exists n, Parse (Src [text_of ["System: a"; "Sig: k:"; "System: b"]%string] EEOF false) = Err n) /\
  (exists n, Parse (Src [text_of ["References: a b"; ""; "System: 1"; "Deriver: unknown-deriver"; "References: c"; "System: 2"]%string] EEOF false) = Ok n /\
     ni_References n = [bs "a"; bs "b"; bs "c"] /\ ni_System n = bs "2" /\ ni_Deriver n = [] /\ ni_Compression n = bs "bzip2") /\
  is_err (Parse (Src [bs "Foo: bar"] EEOF false)) = true /\ is_err (Parse (Src [bs "URL: a: b"] EEOF false)) = true /\
  is_err (Parse (Src [bs "URL a"] EEOF false)) = true.
Proof.
  split; [vm_compute; reflexivity|]. split; [eexists; vm_compute; reflexivity|]. split; [eexists; vm_compute; auto|].
  repeat split; vm_compute; reflexivity.
Qed.

(** * C43 *)
Theorem C43_fingerprint_form : forall n h, ni_NarHash n = Some h -> wf_hash (he_hash h) -> exists s,
  Format (he_hash h) NixBase32 true = Ok s /\
  Fingerprint n = Ok (fingerprint_text (ni_StorePath n) s (FormatUint (ni_NarSize n)) (ni_References n)).
Proof. exact Fingerprint_eq. Qed.
Print Assumptions C43_fingerprint_form.
Theorem C43_fingerprint_injective : forall a b f, fingerprintable a -> fingerprintable b ->
  Fingerprint a = Ok f -> Fingerprint b = Ok f ->
  ni_StorePath a = ni_StorePath b /\ option_map he_hash (ni_NarHash a) = option_map he_hash (ni_NarHash b) /\
  ni_NarSize a = ni_NarSize b /\ ni_References a = ni_References b.
Proof. exact Fingerprint_inj. Qed.
Print Assumptions C43_fingerprint_injective.
Example C43_nonvacuous : fingerprintable sample /\ Fingerprint sample = Ok (bs
  "1;/nix/store/00bgd045z0d4icpbc2yyz4gx48ak44la-net-tools-1.60_p20170221182432;sha256:0lxjvvpr59c2mdram7ympy5ay741f180kv3349hvfc3f8nrmbqf6;464152;/nix/store/7gx4kiv5m0i7d7qkixq2cwzbr10lvxwc-glibc-2.27").
Proof.
  split; [|vm_compute; reflexivity]. split; [apply contains_byte_false; reflexivity|]. split; [eexists; split; reflexivity|].
  split; [reflexivity|]. constructor; [|constructor]. apply contains_byte_false. reflexivity.
Qed.
(** Without the side condition on commas two narinfos share a fingerprint. *)
Example C43_commas_matter : exists a b, a <> b /\ ni_References a = [bs "x,/nix/store/y"] /\ ni_References b = [bs "x"; bs "y"] /\
  Fingerprint a = Fingerprint b.
Proof.
  exists (NarInfo (bs "p") [] [] None 0 (Some (ex_hash x02)) 7 [bs "x,/nix/store/y"] [] [] [] []),
    (NarInfo (bs "p") [] [] None 0 (Some (ex_hash x02)) 7 [bs "x"; bs "y"] [] [] [] []).
  split; [discriminate|]. vm_compute. auto.
Qed.

(** * C44 *)
(** Exactly what Check accepts: strings that the storepath package accepts (see
    C20 for how much weaker that is than being well-formed) and a consistent
    file size and hash. *)
Theorem C44_check_exact_partial : forall n, Check n = Ok tt <->
  (exists sp, FromAbsolutePath (ni_StorePath n) = Ok sp) /\
  Forall (fun r => exists sp, FromString r = Ok sp) (ni_References n) /\
  (ni_Deriver n = [] \/ exists sp, FromString (ni_Deriver n) = Ok sp) /\ consistent n.
Proof. exact Check_iff. Qed.
Print Assumptions C44_check_exact_partial.
(** In terms of the text: a reference or deriver without '/' is a base-32 hash, a
    separator and name characters. *)
Theorem C44_check_syntax_partial : forall n, Check n = Ok tt ->
  45 <= length (ni_StorePath n) /\
  forall s, In s (ni_References n) \/ (s = ni_Deriver n /\ s <> []) -> ~ In "/"%byte s ->
    exists h sep name, s = h ++ [sep] ++ name /\ hash_part h /\ Forall (fun c => In c name_alphabet) (sep :: name).
Proof.
  intros n H. apply Check_iff in H. destruct H as ((sp & S1) & R & D & _). split.
  - rewrite FromAbsolutePath_unfold in S1. destruct (Nat.ltb_spec (length (ni_StorePath n)) 45); [discriminate|assumption].
  - intros s Hs Hn. assert (E : exists x, FromString s = Ok x).
    { destruct Hs as [Hs|[-> Hs]]; [rewrite Forall_forall in R; apply R; exact Hs|]. destruct D as [D|D]; [contradiction|exact D]. }
    destruct E as (x & E). apply FromString_exact in E; [|exact Hn]. destruct E as (h & sep & E1 & E2 & _ & E3). exists h, sep, (sp_name x). auto.
Qed.
Print Assumptions C44_check_syntax_partial.
Theorem C44_store_path_refuted :
  Check (NarInfo (bs "/gnu/store/00bgd045z0d4icpbc2yyz4gx48ak44la-x") [] (bs "xz") None 0 None 0 [] [] [] [] []) = Ok tt.
Proof. vm_compute. reflexivity. Qed.
Print Assumptions C44_store_path_refuted.
Theorem C44_no_panic_partial : forall n, known_algorithms n -> is_panic (Check n) = false.
Proof. exact Check_no_panic. Qed.
Print Assumptions C44_no_panic_partial.
Theorem C44_parsed_no_panic : forall r n, Parse r = Ok n -> is_panic (Check n) = false.
Proof. intros r n H. apply Parse_sound in H. destruct H as (_ & H & _). apply Check_no_panic. eapply reads_known. exact H. Qed.
Print Assumptions C44_parsed_no_panic.
Theorem C44_panic_refuted : exists n, is_panic (Check n) = true.
Proof.
  exists (NarInfo (bs "/nix/store/00bgd045z0d4icpbc2yyz4gx48ak44la-x") [] (bs "none") (Some (HashEnc (Hash (ABad 0) []) Base16 false)) 0
    (Some (ex_hash x01)) 0 [] [] [] [] []). vm_compute. reflexivity.
Qed.
Print Assumptions C44_panic_refuted.
Example C44_nonvacuous : Check sample = Ok tt /\
  is_err (Check (NarInfo (ni_StorePath sample) [] (bs "none") None 5 None 7 [] [] [] [] [])) = true /\
  is_err (Check (NarInfo (ni_StorePath sample) [] (bs "none") (Some (ex_hash x01)) 7 (Some (ex_hash x02)) 7 [] [] [] [] [])) = true /\
  is_err (Check (NarInfo (ni_StorePath sample) [] (bs "xz") None 0 None 0 [bs "foo"] [] [] [] [])) = true.
Proof. repeat split; vm_compute; reflexivity. Qed.

(** * C68: printing what was parsed *)
(** With a NarHash line, a parsed narinfo prints and has a fingerprint... *)
Lemma he_String_fine h : digest_size (h_algo (he_hash h)) <> None -> known_encoding (he_enc h) = true -> exists s, he_String h = Ok s.
Proof.
  intros K E. destruct (digest_size (h_algo (he_hash h))) as [k|] eqn:D; [|congruence]. unfold he_String. eexists. eapply Format_ok; eauto.
Qed.
Lemma parsed_hashes text n : reads text n -> forall h, ni_FileHash n = Some h \/ ni_NarHash n = Some h ->
  digest_size (h_algo (he_hash h)) <> None /\ known_encoding (he_enc h) = true.
Proof.
  intros R h H. split; [exact (reads_known _ _ R h H)|].
  destruct R as (kvs & _ & _ & _ & _ & _ & (hs & F1 & F2) & _ & (hs' & N1 & N2) & _).
  assert (K : forall vs hs, Forall2 (fun v h => ParseAny v None = Ok h) vs hs -> last (map Some hs) None = Some h -> known_encoding (he_enc h) = true).
  { intros vs l F E. apply last_in in E. destruct E as [E|E]; [discriminate|]. apply in_map_iff in E. destruct E as (x & E & I). injection E as ->.
    clear - F I. induction F as [|v y vs l P F IH]; [destruct I|]. destruct I as [->|I]; [|exact (IH I)].
    apply ParseAny_inv in P. destruct P as (t & b & _ & P & _). apply parse_rest_inv in P. destruct P as (k & d & e0 & Hn & Hr & H1 & H2).
    rewrite Hr. cbn [he_enc]. destruct b; [reflexivity|]. destruct H2 as [(-> & _)|[(-> & _)|(-> & _)]]; reflexivity. }
  destruct H as [H|H]; [apply (K _ _ F1); congruence|apply (K _ _ N1); congruence].
Qed.
Theorem C68_parsed_prints_partial : forall r n, Parse r = Ok n -> ni_NarHash n <> None ->
  (exists s, ni_String n = Ok s) /\ (exists f, Fingerprint n = Ok f).
Proof.
  intros r n H Hn. apply Parse_sound in H. destruct H as (_ & R & _). pose proof (parsed_hashes _ _ R) as K.
  destruct (ni_NarHash n) as [h|] eqn:Eh; [|congruence]. destruct (K h (or_intror eq_refl)) as [K1 K2].
  destruct (he_String_fine h K1 K2) as (s & Hs). split.
  - unfold ni_String. rewrite Eh, Hs. destruct (ni_FileHash n) as [f|]; [|cbn [rbind]; eauto].
    destruct (N.eqb (ni_FileSize n) 0); [cbn [rbind]; eauto|]. destruct (K f (or_introl eq_refl)) as [K3 K4].
    destruct (he_String_fine f K3 K4) as (s' & Hs'). rewrite Hs'. cbn [rbind]. eauto.
  - unfold Fingerprint. rewrite Eh. destruct (digest_size (h_algo (he_hash h))) as [k|] eqn:D; [|congruence].
    rewrite (Format_ok _ NixBase32 true k D eq_refl). cbn [rbind]. destruct (ni_References n); eauto.
Qed.
Print Assumptions C68_parsed_prints_partial.
(** ... without one, both panic. *)
Theorem C68_parsed_prints_refuted : exists r n, Parse r = Ok n /\ is_panic (ni_String n) = true /\ is_panic (Fingerprint n) = true /\ Check n = Ok tt.
Proof.
  exists (Src [bs "StorePath: /nix/store/00bgd045z0d4icpbc2yyz4gx48ak44la-x"] EEOF false),
    (NarInfo (bs "/nix/store/00bgd045z0d4icpbc2yyz4gx48ak44la-x") [] (bs "bzip2") None 0 None 0 [] [] [] [] []). repeat split; vm_compute; reflexivity.
Qed.
Print Assumptions C68_parsed_prints_refuted.
Example C68_nonvacuous : Parse (Src [sample_text] EEOF false) = Ok sample /\ ni_NarHash sample <> None.
Proof. split; [vm_compute; reflexivity|discriminate]. Qed.

(** * C98: printing what was read *)
(** What was read from a text without carriage returns and with at most one line
    of references can be printed, and the printed text reads as the same narinfo
    (but for a file hash without a size or a size without a hash, which are not
    printed); printing again gives the same text. *)
Theorem C98_stable_partial : forall r n, Parse r = Ok n -> ni_NarHash n <> None ->
  ~ In x0d (src_data r) -> length (reference_lines (src_data r)) <= 1 ->
  exists text, ni_String n = Ok text /\ ni_String (printed n) = Ok text /\
    forall r', src_data r' = text -> fin r' = EEOF -> Forall (fun c => c <> []) (chunks r') -> lines_below 1048576 text ->
      Parse r' = Ok (printed n).
Proof.
  intros r n P N C R. apply Parse_sound in P. destruct P as (_ & P & _).
  destruct (String_Parse _ (reads_lossless _ _ P N C R)) as (text & S & Q). exists text. split; [rewrite <- printed_String; exact S|]. split; [exact S|exact Q].
Qed.
Print Assumptions C98_stable_partial.
(** Exactly when: no value ends in a carriage return, the references fit on one
    line, and the hashes have digests of the size that base64 texts are checked for. *)
Theorem C98_exact : forall r n text r', Parse r = Ok n -> ni_NarHash n <> None -> ni_String n = Ok text ->
  src_data r' = text -> fin r' = EEOF -> Forall (fun c => c <> []) (chunks r') -> lines_below 1048576 text ->
  (Parse r' = Ok (printed n) <->
   (forall v, In v [ni_StorePath n; ni_URL n; ni_Compression n; ni_Deriver n; ni_System n; ni_CA n] -> forall p, v <> p ++ [x0d]) /\
   line_text (join_byte (ni_References n) " "%byte) /\
   (forall h, In (Some h) [ni_FileHash (printed n); ni_NarHash n] -> readable_hash h)).
Proof.
  intros r n text r' P N S E1 E2 E3 E4. apply Parse_sound in P. destruct P as (_ & P & _). rewrite <- (reads_lossless_iff _ _ P N).
  apply (C41_lossless_iff_partial (printed n) text r'); try assumption. rewrite printed_String. exact S.
Qed.
Print Assumptions C98_exact.
(** Nothing else is lost. *)
Theorem C98_printed : forall n, (forall f, ni_FileHash n = Some f -> ni_FileSize n <> 0%N) -> (ni_FileHash n = None -> ni_FileSize n = 0%N) -> printed n = n.
Proof.
  intros [sp url co fh fs nh ns rf dv sy sg ca] H1 H2. unfold printed. proj. destruct fh as [f|].
  - specialize (H1 f eq_refl). apply N.eqb_neq in H1. rewrite H1. reflexivity.
  - rewrite (H2 eq_refl). reflexivity.
Qed.
Print Assumptions C98_printed.
Definition two_refs : bytes := text_of ["StorePath: /nix/store/00bgd045z0d4icpbc2yyz4gx48ak44la-x";
  "NarHash: sha256:0lxjvvpr59c2mdram7ympy5ay741f180kv3349hvfc3f8nrmbqf6"; "References: a:"; "References: b"]%string.
(** With two lines of references the text printed may be refused... *)
Theorem C98_two_lines_refuted : exists n text, Parse (Src [two_refs] EEOF false) = Ok n /\ ni_String n = Ok text /\
  forall r, src_data r = text -> is_err (Parse r) = true.
Proof.
  eexists _, _. split; [vm_compute; reflexivity|]. split; [vm_compute; reflexivity|]. intros r E.
  destruct (Parse r) as [n|e|w] eqn:P; [exfalso|reflexivity|pose proof (Parse_no_panic r) as X; rewrite P in X; discriminate X].
  apply Parse_sound in P. destruct P as (_ & P & _). apply reads_iff in P. destruct P as (n0 & P & _). rewrite E in P. vm_compute in P. discriminate P.
Qed.
Print Assumptions C98_two_lines_refuted.
Definition two_crs : bytes := bs "StorePath: /nix/store/00bgd045z0d4icpbc2yyz4gx48ak44la-x" ++ [x0d; x0d; x0a] ++
  bs "NarHash: sha256:0lxjvvpr59c2mdram7ympy5ay741f180kv3349hvfc3f8nrmbqf6" ++ [x0a].
(** ... and a carriage return at the end of a value gets lost. *)
Theorem C98_cr_refuted : exists n text, Parse (Src [two_crs] EEOF false) = Ok n /\ ni_String n = Ok text /\
  forall r, src_data r = text -> Parse r <> Ok (printed n).
Proof.
  eexists _, _. split; [vm_compute; reflexivity|]. split; [vm_compute; reflexivity|]. intros r E P.
  apply Parse_sound in P. destruct P as (_ & P & _). apply reads_iff in P. destruct P as (n0 & P & Q). rewrite E in P. vm_compute in P. apply ok_inj in P. subst n0.
  vm_compute in Q. discriminate Q.
Qed.
Print Assumptions C98_cr_refuted.
Example C98_nonvacuous : Parse (Src [sample_text] EEOF false) = Ok sample /\ ni_NarHash sample <> None /\ ~ In x0d sample_text /\
  length (reference_lines sample_text) <= 1 /\ printed sample = sample.
Proof.
  split; [vm_compute; reflexivity|]. split; [discriminate|]. split; [apply contains_byte_false; vm_compute; reflexivity|].
  split; [vm_compute; auto|vm_compute; reflexivity].
Qed.
