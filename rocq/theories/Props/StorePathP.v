(** Properties C19-C21 and C99: storepath. *)
From Verif Require Import Base.Bytes Model.GoStd Model.Nixbase32 Model.Storepath Model.StoreRe Spec.StorePathSpec Proof.Base32Props Proof.StorePathProps Proof.StoreReProps.

Definition h32 : bytes := bs "00bgd045z0d4icpbc2yyz4gx48ak44la".

(** C19 *)
Theorem C19_string_roundtrip : forall sp,
  length (sp_digest sp) = 20 -> valid_name (sp_name sp) -> FromString (sp_String sp) = Ok sp.
Proof. exact (fun sp H1 H2 => roundtrip_String sp H1 (proj2 H2)). Qed.
Print Assumptions C19_string_roundtrip.
Theorem C19_absolute_roundtrip : forall sp,
  length (sp_digest sp) = 20 -> valid_name (sp_name sp) ->
  FromAbsolutePath (sp_Absolute sp) = Ok sp /\ Validate (sp_Absolute sp) = Ok tt /\
  wf_store_path (sp_Absolute sp).
Proof. exact roundtrip_Absolute. Qed.
Print Assumptions C19_absolute_roundtrip.
Theorem C19_printed_form : forall sp,
  length (sp_digest sp) = 20 -> valid_name (sp_name sp) ->
  sp_Absolute sp = bs "/nix/store/" ++ EncodeToString (sp_digest sp) ++ bs "-" ++ sp_name sp.
Proof. exact (fun sp H1 H2 => Absolute_eq sp H1 (proj2 H2)). Qed.
Print Assumptions C19_printed_form.
Example C19_nonvacuous : exists d, DecodeString h32 = Ok d /\ length d = 20 /\ valid_name (bs "hello-2.12.1") /\
  sp_Absolute (SP (bs "hello-2.12.1") d) = bs "/nix/store/00bgd045z0d4icpbc2yyz4gx48ak44la-hello-2.12.1".
Proof.
  eexists. split; [vm_compute; reflexivity|]. split; [reflexivity|]. split; [|vm_compute; reflexivity].
  split; [discriminate|]. apply name_chars_iff. vm_compute. reflexivity.
Qed.

(** C20 is false of Validate: the character between store dir and hash and the
    separator are not looked at, an empty name passes ... *)
Theorem C20_refuted_slash : Validate (bs "/nix/storeX" ++ h32 ++ bs "-foo") = Ok tt.
Proof. vm_compute. reflexivity. Qed.
Print Assumptions C20_refuted_slash.
Theorem C20_refuted_separator : Validate (bs "/nix/store/" ++ h32 ++ bs "_foo") = Ok tt.
Proof. vm_compute. reflexivity. Qed.
Print Assumptions C20_refuted_separator.
Theorem C20_refuted_empty_name : Validate (bs "/nix/store/" ++ h32 ++ bs "-") = Ok tt.
Proof. vm_compute. reflexivity. Qed.
Print Assumptions C20_refuted_empty_name.
(** ... and FromAbsolutePath neither looks at the store directory nor at what
    path.Join cleans away. *)
Theorem C20_refuted_absolute_prefix : is_ok (FromAbsolutePath (bs "/gnu/store/" ++ h32 ++ bs "-foo")) = true.
Proof. vm_compute. reflexivity. Qed.
Print Assumptions C20_refuted_absolute_prefix.
Theorem C20_refuted_cleaned : exists sp,
  FromAbsolutePath (bs "/nix/store/" ++ h32 ++ bs "-a/../" ++ h32 ++ bs "-b") = Ok sp /\
  sp_name sp = bs "a/../" ++ h32 ++ bs "-b".
Proof. eexists. split; vm_compute; reflexivity. Qed.
Print Assumptions C20_refuted_cleaned.
(** What holds: no well-formed path is refused, ... *)
Theorem C20_well_formed_accepted : forall s, wf_store_path s -> Validate s = Ok tt.
Proof. exact validate_complete. Qed.
Print Assumptions C20_well_formed_accepted.
(** ... and the exact set of accepted strings is this. *)
Theorem C20_validate_exact_partial : forall s, Validate s = Ok tt <->
  exists c h sep n, s = bs "/nix/store" ++ [c] ++ h ++ [sep] ++ n /\ hash_part h /\
    Forall (fun x => In x name_alphabet) (sep :: n).
Proof. exact validate_exact. Qed.
Print Assumptions C20_validate_exact_partial.
Theorem C20_FromString_exact_partial : forall s sp, ~ In "/"%byte s ->
  (FromString s = Ok sp <->
   exists h sep, s = h ++ [sep] ++ sp_name sp /\ hash_part h /\ EncodeToString (sp_digest sp) = h /\
     Forall (fun x => In x name_alphabet) (sep :: sp_name sp)).
Proof. exact FromString_exact. Qed.
Print Assumptions C20_FromString_exact_partial.
(** With slashes in it: the string is cut at fixed places, and what is checked is the place in the file system
    that "/nix/store/" and the string lead to - which may be another one. *)
Theorem C20_FromString_any_partial : forall s sp, FromString s = Ok sp <->
  exists h sep l to c h' sep' n',
    s = h ++ [sep] ++ sp_name sp /\ hash_part h /\ EncodeToString (sp_digest sp) = h /\
    components s l /\ leads [bs "nix"; bs "store"] l to /\
    bs "/" ++ join_byte to "/"%byte = bs "/nix/store" ++ [c] ++ h' ++ [sep'] ++ n' /\
    hash_part h' /\ Forall (fun x => In x name_alphabet) (sep' :: n').
Proof. exact FromString_any. Qed.
Print Assumptions C20_FromString_any_partial.
Example C20_any_nonvacuous : let s := h32 ++ bs "-a/../../storeX" ++ h32 ++ bs "-b" in
  components s [h32 ++ bs "-a"; bs ".."; bs ".."; bs "storeX" ++ h32 ++ bs "-b"] /\
  leads [bs "nix"; bs "store"] [h32 ++ bs "-a"; bs ".."; bs ".."; bs "storeX" ++ h32 ++ bs "-b"] [bs "nix"; bs "storeX" ++ h32 ++ bs "-b"] /\ is_ok (FromString s) = true.
Proof.
  cbn zeta. split; [split; [discriminate|split; [repeat (constructor; [apply Base.BytesFacts.contains_byte_false; reflexivity|]); constructor|reflexivity]]|].
  split; [|vm_compute; reflexivity]. apply leads_down; [discriminate..|]. apply leads_up. apply leads_up. apply leads_down; [discriminate..|]. apply leads_done.
Qed.
Theorem C20_FromAbsolutePath_exact_partial : forall s, FromAbsolutePath s =
  if length s <? 45 then Err (EMsg "invalid path length") else FromString (skipn 11 s).
Proof. exact FromAbsolutePath_unfold. Qed.
Print Assumptions C20_FromAbsolutePath_exact_partial.
Example C20_nonvacuous : wf_store_path (bs "/nix/store/" ++ h32 ++ bs "-foo") /\
  is_err (Validate (bs "/nix/store/" ++ h32 ++ bs "-fo/o")) = true /\
  is_err (Validate (bs "/nix/store/" ++ map (fun _ => "e"%byte) h32 ++ bs "-foo")) = true.
Proof.
  split; [|vm_compute; auto]. exists h32, (bs "foo"). split; [reflexivity|]. split; [split; [reflexivity|]|split; [discriminate|]].
  - apply Forall_forall. intros c Hc. assert (H : forallb (fun c => existsb (byte_eqb c) hash_alphabet) h32 = true) by (vm_compute; reflexivity).
    rewrite forallb_forall in H. apply H in Hc. apply Base.BytesFacts.contains_byte_iff. exact Hc.
  - apply name_chars_iff. reflexivity.
Qed.

(** C21 *)
Theorem C21_never_panics : forall s,
  is_panic (Validate s) = false /\ is_panic (FromString s) = false /\ is_panic (FromAbsolutePath s) = false.
Proof. exact (fun s => conj (Validate_no_panic s) (conj (FromString_no_panic s) (FromAbsolutePath_no_panic s))). Qed.
Print Assumptions C21_never_panics.
Theorem C21_prints_back : forall s sp, FromString s = Ok sp -> nth 32 s x00 = "-"%byte ->
  sp_String sp = s /\ length (sp_digest sp) = 20.
Proof. exact FromString_printback. Qed.
Print Assumptions C21_prints_back.
Example C21_nonvacuous : is_ok (FromString (h32 ++ bs "-foo")) = true /\ nth 32 (h32 ++ bs "-foo") x00 = "-"%byte.
Proof. vm_compute. auto. Qed.

(** C99: the exported patterns.  PathRe matches exactly the well-formed store paths whose name does not
    begin with a dot, and the two groups are the hash and the name. *)
Theorem C99_path : forall s g, Submatches PathRe s g <->
  exists h n, s = bs "/nix/store/" ++ h ++ bs "-" ++ n /\ hash_part h /\ valid_name n /\ hd x00 n <> "."%byte /\ g = [(1, h); (2, n)].
Proof. exact path_groups. Qed.
Print Assumptions C99_path.
(** What PathRe matches the functions of the package accept, with the same parts, and print back. *)
Theorem C99_accepted : forall s g, Submatches PathRe s g -> Validate s = Ok tt /\
  exists sp, FromAbsolutePath s = Ok sp /\ g = [(1, EncodeToString (sp_digest sp)); (2, sp_name sp)] /\ sp_Absolute sp = s.
Proof.
  intros s g H. apply path_groups in H. destruct H as (h & n & -> & H & V & _ & ->). split; [apply validate_complete; exists h, n; auto|].
  destruct (proj1 (decode_hash_part h) H) as (LH & d & Ed). pose proof (decode_hash_len h d LH Ed) as L. assert (E : EncodeToString d = h) by (apply decode_iff_encode; exact Ed). exists (SP n d).
  assert (A : sp_Absolute (SP n d) = bs "/nix/store/" ++ h ++ bs "-" ++ n) by (rewrite Absolute_eq; cbn [sp_digest sp_name]; [rewrite E; reflexivity|exact L|apply V]).
  cbn [sp_digest sp_name]. rewrite E. split; [|split; [reflexivity|exact A]]. rewrite <- A. apply (roundtrip_Absolute (SP n d)); [exact L|exact V].
Qed.
Print Assumptions C99_accepted.
(** And conversely: what they accept is matched if it is a well-formed path with no dot in front. *)
Theorem C99_printed : forall sp, length (sp_digest sp) = 20 -> valid_name (sp_name sp) -> 
  (MatchString PathRe (sp_Absolute sp) <-> hd x00 (sp_name sp) <> "."%byte).
Proof.
  intros sp L V. rewrite (Absolute_eq sp L (proj2 V)). split.
  - intros (pre & m & post & g & E & M). assert (S : Submatches PathRe (bs "/nix/store/" ++ EncodeToString (sp_digest sp) ++ bs "-" ++ sp_name sp) g) by (exists pre, m, post; auto).
    apply path_groups in S. destruct S as (h & n & E' & (LH & _) & _ & D & _). apply app_inv_head in E'. pose proof (encode_hash_part _ L) as (LE & _).
    change (bs "-") with ["-"%byte] in E'. apply (f_equal (skipn 33)) in E'. rewrite (proj2 (cut33 _ "-"%byte (sp_name sp) LE)), (proj2 (cut33 h "-"%byte n LH)) in E'. rewrite E'. exact D.
  - intros D. assert (S : Submatches PathRe (bs "/nix/store/" ++ EncodeToString (sp_digest sp) ++ bs "-" ++ sp_name sp) [(1, EncodeToString (sp_digest sp)); (2, sp_name sp)]).
    { apply path_groups. exists (EncodeToString (sp_digest sp)), (sp_name sp). split; [reflexivity|]. split; [apply encode_hash_part; exact L|auto]. }
    destruct S as (pre & m & post & E & M). exists pre, m, post. eauto.
Qed.
Print Assumptions C99_printed.
(** NameRe is not anchored: it matches every text with one allowed character other than the dot. *)
Theorem C99_name : forall s, MatchString NameRe s <-> exists c, In c s /\ In c name_alphabet /\ c <> "."%byte.
Proof. exact name_found. Qed.
Print Assumptions C99_name.
Example C99_nonvacuous : Submatches PathRe (bs "/nix/store/" ++ h32 ++ bs "-foo") [(1, h32); (2, bs "foo")] /\
  ~ MatchString PathRe (bs "/nix/store/" ++ h32 ++ bs "-.foo") /\ MatchString NameRe (bs "/ a/").
Proof.
  assert (H : hash_part h32). { split; [reflexivity|]. apply Forall_forall. intros c Hc. assert (A : forallb (fun c => existsb (byte_eqb c) hash_alphabet) h32 = true) by (vm_compute; reflexivity).
    rewrite forallb_forall in A. apply A in Hc. apply Base.BytesFacts.contains_byte_iff. exact Hc. }
  split; [|split].
  - apply path_groups. exists h32, (bs "foo"). split; [reflexivity|]. split; [exact H|]. split; [split; [discriminate|apply name_chars_iff; reflexivity]|]. split; [discriminate|reflexivity].
  - intros (pre & m & post & g & E & M). assert (S : Submatches PathRe (bs "/nix/store/" ++ h32 ++ bs "-.foo") g) by (exists pre, m, post; auto).
    apply path_groups in S. destruct S as (h & n & E' & (LH & _) & _ & D & _). apply app_inv_head in E'.
    change (bs "-") with ["-"%byte] in E'. apply (f_equal (skipn 33)) in E'. rewrite (proj2 (cut33 h "-"%byte n LH)) in E'. apply D. rewrite <- E'. reflexivity.
  - apply name_found. exists "a"%byte. split; [right; right; left; reflexivity|]. split; [left; reflexivity|discriminate].
Qed.

(** C112: the method Validate.  A path that passes need not be one FromString would give: a digest of more
    than 20 bytes passes, and the text reads back as another path; so does a name with a "/" in it; and with
    an empty name the text passes but does not parse. *)
Theorem C112_refuted_digest : exists p q, sp_Validate p = Ok tt /\ length (sp_digest p) = 21 /\
  FromAbsolutePath (sp_Absolute p) = Ok q /\ q <> p.
Proof.
  exists (SP (bs "a") (repeat x41 21)), (SP (bs "1-a") (repeat x50 19 ++ [x10])).
  split; [vm_compute; reflexivity|]. split; [reflexivity|]. split; [vm_compute; reflexivity|discriminate].
Qed.
Print Assumptions C112_refuted_digest.
Theorem C112_refuted_name : exists p q, sp_Validate p = Ok tt /\ length (sp_digest p) = 20 /\
  FromAbsolutePath (sp_Absolute p) = Ok q /\ sp_digest q <> sp_digest p /\ sp_name q <> sp_name p.
Proof.
  exists (SP (bs "a/../" ++ h32 ++ bs "-b") (repeat x41 20)).
  destruct (FromString (h32 ++ bs "-b")) as [q| |] eqn:E; vm_compute in E; try discriminate E.
  exists q. split; [vm_compute; reflexivity|]. split; [reflexivity|]. split; [rewrite <- E; vm_compute; reflexivity|].
  assert (Q : q = SP (bs "b") (sp_digest q)) by (destruct q; injection E as <- <-; reflexivity).
  split; [|rewrite Q; discriminate]. injection E as <-. discriminate.
Qed.
Print Assumptions C112_refuted_name.
Theorem C112_refuted_empty : exists p, sp_Validate p = Ok tt /\ is_err (FromAbsolutePath (sp_Absolute p)) = true.
Proof. exists (SP [] (repeat x41 20)). split; vm_compute; reflexivity. Qed.
Print Assumptions C112_refuted_empty.
(** Exactly what passes, for names without "/". *)
Theorem C112_exact_partial : forall p, ~ In "/"%byte (sp_name p) ->
  (sp_Validate p = Ok tt <-> 20 <= length (sp_digest p) /\ Forall (fun c => In c name_alphabet) (sp_name p)).
Proof. exact method_exact. Qed.
Print Assumptions C112_exact_partial.
(** So with the digest of the right size and a name that is not empty and has no "/" in it, passing is being
    well formed, and a path that passes is read back from what it prints. *)
Theorem C112_roundtrip_partial : forall p, length (sp_digest p) = PathHashSize -> sp_name p <> [] -> ~ In "/"%byte (sp_name p) ->
  (sp_Validate p = Ok tt <-> valid_name (sp_name p)) /\
  (sp_Validate p = Ok tt -> FromString (sp_String p) = Ok p /\ FromAbsolutePath (sp_Absolute p) = Ok p /\ wf_store_path (sp_Absolute p)).
Proof.
  intros p L Hne Hs. change PathHashSize with 20 in L.
  assert (X : sp_Validate p = Ok tt <-> valid_name (sp_name p)).
  { rewrite (method_exact p Hs), L. unfold valid_name. intuition. }
  split; [exact X|]. intros V. apply X in V. destruct (roundtrip_Absolute p L V) as (A & _ & B).
  split; [apply roundtrip_String; [exact L|apply V]|auto].
Qed.
Print Assumptions C112_roundtrip_partial.
(** Whatever the fields hold, the method returns. *)
Theorem C112_no_panic : forall p, is_panic (sp_Validate p) = false.
Proof. exact (fun p => Validate_no_panic (sp_Absolute p)). Qed.
Print Assumptions C112_no_panic.
(** And what the parser gives passes, when the text had no "/" in it. *)
Theorem C112_parsed : forall s p, ~ In "/"%byte s -> FromString s = Ok p -> sp_Validate p = Ok tt.
Proof.
  intros s p Hs H. apply FromString_exact in H; [|exact Hs]. destruct H as (h & sep & -> & Hh & He & Hf).
  inversion Hf as [|? ? _ Hn]; subst. apply method_exact; [exact (name_no_slash _ Hn)|]. split; [|exact Hn].
  destruct Hh as (Lh & _). rewrite encode_length in Lh. apply EncodedLen_32. lia.
Qed.
Print Assumptions C112_parsed.
Example C112_nonvacuous : let p := SP (bs "hello") (repeat x41 20) in
  length (sp_digest p) = PathHashSize /\ sp_name p <> [] /\ ~ In "/"%byte (sp_name p) /\ sp_Validate p = Ok tt /\
  is_err (sp_Validate (SP (bs "he llo") (repeat x41 20))) = true /\ is_err (sp_Validate (SP (bs "hello") (repeat x41 19))) = true.
Proof.
  cbn zeta. split; [reflexivity|]. split; [discriminate|]. split; [apply Base.BytesFacts.contains_byte_false; reflexivity|]. vm_compute. auto.
Qed.
