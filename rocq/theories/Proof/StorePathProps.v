(** Proofs of C19-C21. *)
From Verif Require Import Base.Bytes Base.BytesFacts Model.GoStd Model.Nixbase32 Model.Storepath
  Spec.Base32Spec Spec.StorePathSpec Proof.Base32Facts Proof.Base32Props Proof.PathFacts.
Ltac Zify.zify_post_hook ::= idtac.

Lemma slice_ok s a b : a <= b -> b <= length s -> slice s a b = Ok (firstn (b - a) (skipn a s)).
Proof. intros H1 H2. unfold slice. apply Nat.leb_le in H1, H2. rewrite H1, H2. reflexivity. Qed.
Lemma slice_inv s a b x : slice s a b = Ok x -> a <= b /\ b <= length s /\ x = firstn (b - a) (skipn a s).
Proof.
  unfold slice. destruct (Nat.leb_spec a b); [|discriminate]. destruct (Nat.leb_spec b (length s)); [|discriminate].
  intros [= <-]. auto.
Qed.
Lemma slice_tail s a : a <= length s -> slice s a (length s) = Ok (skipn a s).
Proof. intros H. rewrite slice_ok by lia. rewrite firstn_all2; [reflexivity|]. rewrite skipn_length. lia. Qed.

Lemma name_char_iff c : name_char c = true <-> In c name_alphabet.
Proof.
  assert (H : forall c, Bool.eqb (name_char c) (existsb (byte_eqb c) name_alphabet) = true).
  { apply byte_sweep. vm_compute. reflexivity. }
  specialize (H c). apply Bool.eqb_prop in H. rewrite H. apply contains_byte_iff.
Qed.
Lemma name_chars_iff l : forallb name_char l = true <-> Forall (fun c => In c name_alphabet) l.
Proof.
  rewrite forallb_forall, Forall_forall. split; intros H x Hx; apply name_char_iff, H, Hx.
Qed.
Lemma hash_in_name c : In c hash_alphabet -> In c name_alphabet.
Proof.
  intros H. assert (Hs : forallb (fun c => existsb (byte_eqb c) name_alphabet) hash_alphabet = true) by (vm_compute; reflexivity).
  rewrite forallb_forall in Hs. apply contains_byte_iff, Hs, H.
Qed.

(** 32 characters carry exactly 160 bits: validity is just the alphabet. *)
Lemma min_chars_32 : min_chars 20 32.
Proof. exact (EncodedLen_min 20). Qed.
Lemma b32_value_bound s v : b32_value s v -> (v < 32 ^ N.of_nat (length s))%N.
Proof.
  induction 1 as [|s v c d H IH Hd]; [reflexivity|].
  rewrite app_length, Nat2N.inj_add. cbn [length]. rewrite N.pow_add_r. change (32 ^ N.of_nat 1)%N with 32%N.
  assert (d < 32)%N. { apply dig_is_digit in Hd. eapply dig_lt; eauto. } lia.
Qed.
Lemma decode_hash_part h : hash_part h <-> (length h = 32 /\ exists d, DecodeString h = Ok d).
Proof.
  unfold hash_part. change hash_alphabet with b32_alphabet. rewrite <- b32_value_exists. split; intros [Hl H]; (split; [exact Hl|]).
  - destruct H as [v Hv]. apply decode_accepts. exists 20, v. rewrite Hl. split; [exact min_chars_32|].
    split; [exact Hv|]. apply b32_value_bound in Hv. rewrite Hl in Hv. exact Hv.
  - apply decode_accepts in H. destruct H as (m & v & _ & Hv & _). eauto.
Qed.
Lemma validate_hash_part h : length h = 32 -> (ValidateString h = Ok tt <-> hash_part h).
Proof.
  intros Hl. rewrite decode_hash_part.
  assert (Hc : is_ok (ValidateString h) = is_ok (DecodeString h)).
  { apply validate_canonical. exists 20. rewrite Hl. exact min_chars_32. }
  split.
  - intros E. rewrite E in Hc. split; [exact Hl|]. destruct (DecodeString h); try discriminate Hc. eauto.
  - intros [_ [d E]]. rewrite E in Hc. destruct (ValidateString h) as [[]| |]; try discriminate Hc. reflexivity.
Qed.
Lemma decode_hash_len h d : length h = 32 -> DecodeString h = Ok d -> length d = 20.
Proof. intros Hl H. apply decode_length in H. rewrite H, Hl. reflexivity. Qed.
Lemma encode_hash_part d : length d = 20 -> hash_part (EncodeToString d).
Proof.
  intros H. apply decode_hash_part. split; [rewrite encode_length, H; reflexivity|].
  exists d. apply decode_encode.
Qed.

(** * Validate, exactly *)
Lemma validate_exact s : Validate s = Ok tt <->
  exists c h sep n, s = bs "/nix/store" ++ [c] ++ h ++ [sep] ++ n /\ hash_part h /\
    Forall (fun x => In x name_alphabet) (sep :: n).
Proof.
  unfold Validate. change (hashOffset + encodedPathHashSize + 1) with 44. change (length StoreDir) with 10.
  change hashOffset with 11. change nameOffset with 33. change (11 + encodedPathHashSize) with 43.
  destruct (Nat.ltb_spec (length s) 44) as [L|L].
  { split; [discriminate|]. intros (c & h & sep & n & -> & [Hh _] & _).
    rewrite !app_length in L. cbn [length] in L. change (length (bs "/nix/store")) with 10 in L. lia. }
  rewrite (slice_ok s 0 10) by lia. rewrite (slice_ok s 11 43) by lia. rewrite (slice_tail s 33) by lia.
  cbn [rbind]. rewrite Nat.sub_0_r. change (skipn 0 s) with s. change (43 - 11) with 32.
  destruct (beq_spec (firstn 10 s) StoreDir) as [Hp|Hp]; cbn [negb].
  2:{ split; [discriminate|]. intros (c & h & sep & n & -> & _). elim Hp. reflexivity. }
  assert (Hd : exists c sep, s = bs "/nix/store" ++ [c] ++ firstn 32 (skipn 11 s) ++ [sep] ++ skipn 44 s
     /\ skipn 33 s = skipn 22 (firstn 32 (skipn 11 s)) ++ sep :: skipn 44 s).
  { assert (E1 : s = firstn 10 s ++ skipn 10 s) by (symmetry; apply firstn_skipn).
    destruct (skipn 10 s) as [|c r] eqn:Er.
    { apply (f_equal (@length byte)) in Er. rewrite skipn_length in Er. cbn in Er. lia. }
    assert (E2 : skipn 11 s = r).
    { change 11 with (10 + 1). rewrite <- skipn_skipn, Er. reflexivity. }
    assert (E3 : r = firstn 32 r ++ skipn 32 r) by (symmetry; apply firstn_skipn).
    assert (Lr : length r >= 33). { rewrite <- E2, skipn_length. lia. }
    destruct (skipn 32 r) as [|sep n] eqn:Es.
    { apply (f_equal (@length byte)) in Es. rewrite skipn_length in Es. cbn in Es. lia. }
    assert (E4 : skipn 44 s = n).
    { change 44 with (11 + (32 + 1)). rewrite <- skipn_skipn, E2, <- skipn_skipn, Es. reflexivity. }
    exists c, sep. rewrite E2, E4. split.
    - rewrite E1 at 1. rewrite Hp. rewrite E3 at 1. reflexivity.
    - change 33 with (11 + 22). rewrite <- skipn_skipn, E2. rewrite E3 at 1.
      rewrite skipn_app. rewrite firstn_length_le by lia. reflexivity. }
  destruct Hd as (c & sep & Hs & Ht).
  set (h := firstn 32 (skipn 11 s)) in *. set (n := skipn 44 s) in *.
  assert (Lh : length h = 32) by (unfold h; rewrite firstn_length_le; [reflexivity|rewrite skipn_length; lia]).
  pose proof (validate_hash_part h Lh) as Hv. pose proof (validate_no_panic h) as Hnp. rewrite Ht.
  assert (Hun : forall c' h' sep' n', s = bs "/nix/store" ++ [c'] ++ h' ++ [sep'] ++ n' -> hash_part h' ->
     h' = h /\ sep' = sep /\ n' = n).
  { intros c' h' sep' n' Hs' [Lh' _]. rewrite Hs in Hs'. apply app_inv_head in Hs'.
    injection Hs' as _ Hs'.
    assert (Hh : h' = h /\ [sep'] ++ n' = [sep] ++ n).
    { clear -Lh Lh' Hs'. revert h' Hs' Lh'. revert Lh. generalize 32 as k.
      induction h as [|x h IH]; intros k Lh [|x' h'] E L'; cbn in *; subst; try discriminate; auto.
      injection E as -> E. destruct (IH (length h) eq_refl h' E) as [-> ->]; [lia|auto]. }
    destruct Hh as [-> [= -> ->]]. auto. }
  destruct (ValidateString h) as [[]| |] eqn:Ev; [|..].
  - destruct Hv as [Hv _]. specialize (Hv eq_refl). rewrite forallb_app.
    assert (Hf : forallb name_char (skipn 22 h) = true).
    { apply name_chars_iff. destruct Hv as [_ Hv]. 
      rewrite <- (firstn_skipn 22 h) in Hv. apply Forall_app in Hv. destruct Hv as [_ Hv].
      eapply Forall_impl; [|exact Hv]. intros x. apply hash_in_name. }
    rewrite Hf, andb_true_l. destruct (forallb name_char (sep :: n)) eqn:En.
    + split; [intros _|reflexivity]. exists c, h, sep, n. repeat split; auto; [apply Hv|].
      apply name_chars_iff. exact En.
    + split; [discriminate|]. intros (c' & h' & sep' & n' & Hs' & Hh' & Hn').
      destruct (Hun _ _ _ _ Hs' Hh') as (-> & -> & ->). apply name_chars_iff in Hn'. congruence.
  - split; [discriminate|]. intros (c' & h' & sep' & n' & Hs' & Hh' & Hn').
    destruct (Hun _ _ _ _ Hs' Hh') as (-> & -> & ->). apply Hv in Hh'. discriminate.
  - discriminate Hnp.
Qed.
Lemma validate_complete s : wf_store_path s -> Validate s = Ok tt.
Proof.
  intros (h & n & -> & Hh & Hn & Hc). apply validate_exact. exists slash, h, "-"%byte, n.
  split; [reflexivity|]. split; [exact Hh|]. constructor; [|exact Hc].
  apply name_char_iff. reflexivity.
Qed.
Lemma Validate_no_panic s : is_panic (Validate s) = false.
Proof.
  unfold Validate. change (hashOffset + encodedPathHashSize + 1) with 44. change (length StoreDir) with 10.
  change hashOffset with 11. change nameOffset with 33. change (11 + encodedPathHashSize) with 43.
  destruct (Nat.ltb_spec (length s) 44) as [L|L]; [reflexivity|].
  rewrite (slice_ok s 0 10) by lia. rewrite (slice_ok s 11 43) by lia. rewrite (slice_tail s 33) by lia.
  cbn [rbind]. destruct (negb _); [reflexivity|].
  match goal with |- context [ValidateString ?x] => pose proof (validate_no_panic x) as H; destruct (ValidateString x) end;
    try reflexivity; try discriminate H.
  destruct (forallb _ _); reflexivity.
Qed.

(** * FromString *)
Lemma Join_store s : Join2 StoreDir s = Clean (StoreDir ++ slash :: s).
Proof. destruct s; reflexivity. Qed.
Lemma Join_store_length s : length (Join2 StoreDir s) <= 11 + length s.
Proof.
  rewrite Join_store. etransitivity; [apply (Clean_rooted_length (bs "nix/store" ++ slash :: s))|].
  cbn [length]. rewrite app_length. cbn [length]. change (length (bs "nix/store")) with 9. lia.
Qed.
Lemma Join_store_plain c : plain c -> ~ In slash c -> Join2 StoreDir c = bs "/nix/store/" ++ c.
Proof.
  intros Hp Hs. rewrite Join_store.
  change (StoreDir ++ slash :: c) with (slash :: join_byte [bs "nix"; bs "store"; c] slash).
  rewrite Clean_plain; [reflexivity| |].
  - repeat constructor; try discriminate; apply Hp.
  - repeat constructor; auto; apply contains_byte_false; reflexivity.
Qed.
Lemma Validate_length s : Validate s = Ok tt -> 44 <= length s.
Proof.
  intros H. apply validate_exact in H. destruct H as (c & h & sep & n & -> & [Hh _] & _).
  rewrite !app_length. cbn [length]. change (length (bs "/nix/store")) with 10. lia.
Qed.
Lemma FromString_unfold s : FromString s =
  match Validate (Join2 StoreDir s) with
  | Ok _ => match DecodeString (firstn 32 s) with
            | Ok d => Ok (SP (skipn 33 s) d) | Err e => Err e | Panic w => Panic w end
  | Err e => Err e | Panic w => Panic w
  end.
Proof.
  unfold FromString. destruct (Validate (Join2 StoreDir s)) as [[]| |] eqn:E; [|reflexivity..].
  apply Validate_length in E. pose proof (Join_store_length s). cbn [rbind].
  change (nameOffset - 1) with 32. change nameOffset with 33.
  rewrite slice_ok by lia. cbn [rbind]. change (skipn 0 s) with s. rewrite Nat.sub_0_r.
  rewrite slice_tail by lia. destruct (DecodeString (firstn 32 s)); reflexivity.
Qed.
Lemma FromString_no_panic s : is_panic (FromString s) = false.
Proof.
  rewrite FromString_unfold. pose proof (Validate_no_panic (Join2 StoreDir s)) as H1.
  pose proof (DecodeString_no_panic (firstn 32 s)) as H2.
  destruct (Validate (Join2 StoreDir s)); [|reflexivity|discriminate].
  destruct (DecodeString (firstn 32 s)); [reflexivity|reflexivity|discriminate].
Qed.
Lemma FromAbsolutePath_no_panic s : is_panic (FromAbsolutePath s) = false.
Proof.
  unfold FromAbsolutePath. change (hashOffset + nameOffset + 1) with 45. change hashOffset with 11.
  destruct (Nat.ltb_spec (length s) 45); [reflexivity|]. rewrite slice_tail by lia. apply FromString_no_panic.
Qed.
Lemma FromString_length s sp : FromString s = Ok sp -> 33 <= length s.
Proof.
  rewrite FromString_unfold. destruct (Validate (Join2 StoreDir s)) as [[]| |] eqn:E; try discriminate.
  apply Validate_length in E. pose proof (Join_store_length s). lia.
Qed.
Lemma FromString_printback s sp : FromString s = Ok sp -> nth 32 s x00 = "-"%byte ->
  sp_String sp = s /\ length (sp_digest sp) = 20.
Proof.
  intros H Hd. pose proof (FromString_length _ _ H) as L. rewrite FromString_unfold in H.
  destruct (Validate (Join2 StoreDir s)) as [[]| |]; try discriminate.
  destruct (DecodeString (firstn 32 s)) as [d| |] eqn:Ed; try discriminate.
  assert (sp = SP (skipn 33 s) d) by congruence. subst sp.
  unfold sp_String. cbn [sp_digest sp_name].
  assert (L1 : length (firstn 32 s) = 32) by (apply firstn_length_le; lia).
  split; [|eapply decode_hash_len; eauto].
  apply decode_iff_encode in Ed. rewrite Ed.
  transitivity (firstn 32 s ++ skipn 32 s); [|apply firstn_skipn]. f_equal.
  destruct (skipn 32 s) as [|x r] eqn:Er.
  { apply (f_equal (@length byte)) in Er. rewrite skipn_length in Er. cbn in Er. lia. }
  assert (x = "-"%byte).
  { rewrite <- Hd. rewrite <- (firstn_skipn 32 s), app_nth2 by lia. rewrite L1, Er. reflexivity. }
  subst x. replace (skipn 33 s) with (skipn 1 (skipn 32 s)) by apply skipn_skipn. rewrite Er. reflexivity.
Qed.

Lemma cut33 h sep n : length h = 32 -> firstn 32 (h ++ [sep : byte] ++ n) = h /\ skipn 33 (h ++ [sep] ++ n) = n.
Proof.
  intros L. split.
  - rewrite firstn_app, L, firstn_all2 by lia. apply app_nil_r.
  - rewrite app_assoc, skipn_app, skipn_all2 by (rewrite app_length; cbn; lia).
    rewrite app_length, L. reflexivity.
Qed.

(** Without a '/' in it, the accepted strings are exactly <hash><any name char><name>. *)
Lemma FromString_exact s sp : ~ In slash s ->
  (FromString s = Ok sp <->
   exists h sep, s = h ++ [sep] ++ sp_name sp /\ hash_part h /\ EncodeToString (sp_digest sp) = h /\
     Forall (fun x => In x name_alphabet) (sep :: sp_name sp)).
Proof.
  intros Hns. rewrite FromString_unfold.
  assert (Hj : 33 <= length s -> Join2 StoreDir s = bs "/nix/store/" ++ s).
  { intros L. apply Join_store_plain; [|exact Hns].
    repeat split; intros ->; cbn in L; lia. }
  split.
  - destruct (Validate (Join2 StoreDir s)) as [[]| |] eqn:Ev; try discriminate.
    assert (L : 33 <= length s).
    { apply Validate_length in Ev. pose proof (Join_store_length s). lia. }
    rewrite Hj in Ev by exact L. apply validate_exact in Ev.
    destruct Ev as (c & h & sep & n & Hs & Hh & Hn).
    change (bs "/nix/store/" ++ s) with (bs "/nix/store" ++ [slash] ++ s) in Hs.
    apply app_inv_head in Hs. injection Hs as <- Hs. subst s. destruct Hh as [Lh Hh].
    change (h ++ sep :: n) with (h ++ [sep] ++ n). destruct (cut33 h sep n Lh) as [-> ->].
    destruct (DecodeString h) as [d| |] eqn:Ed; try discriminate. intros [= <-]. cbn [sp_name sp_digest].
    apply decode_iff_encode in Ed. exists h, sep. repeat split; auto.
  - intros (h & sep & -> & Hh & He & Hn). destruct Hh as [Lh Hh].
    rewrite Hj by (rewrite !app_length, Lh; cbn; lia).
    assert (Ev : Validate (bs "/nix/store/" ++ h ++ [sep] ++ sp_name sp) = Ok tt).
    { apply validate_exact. exists slash, h, sep, (sp_name sp). repeat split; auto. }
    rewrite Ev. destruct (cut33 h sep (sp_name sp) Lh) as [-> ->]. apply decode_iff_encode in He. rewrite He. destruct sp; reflexivity.
Qed.
Lemma name_no_slash n : Forall (fun x => In x name_alphabet) n -> ~ In slash n.
Proof.
  intros H Hi. rewrite Forall_forall in H. apply H in Hi. apply name_char_iff in Hi. discriminate Hi.
Qed.
Lemma hash_no_slash h : hash_part h -> ~ In slash h.
Proof. intros [_ H]. apply name_no_slash. eapply Forall_impl; [|exact H]. intros x. apply hash_in_name. Qed.

Lemma roundtrip_String sp : length (sp_digest sp) = 20 -> Forall (fun x => In x name_alphabet) (sp_name sp) ->
  FromString (sp_String sp) = Ok sp.
Proof.
  intros Hd Hn. apply FromString_exact.
  - unfold sp_String. rewrite !in_app_iff. intros [H|[H|H]].
    + eapply hash_no_slash; [apply encode_hash_part; exact Hd|exact H].
    + destruct H as [H|[]]. discriminate.
    + eapply name_no_slash; eauto.
  - exists (EncodeToString (sp_digest sp)), "-"%byte. split; [reflexivity|].
    split; [apply encode_hash_part; exact Hd|]. split; [reflexivity|].
    constructor; [apply name_char_iff; reflexivity|exact Hn].
Qed.
Lemma Absolute_eq sp : length (sp_digest sp) = 20 -> Forall (fun x => In x name_alphabet) (sp_name sp) ->
  sp_Absolute sp = bs "/nix/store/" ++ EncodeToString (sp_digest sp) ++ bs "-" ++ sp_name sp.
Proof.
  intros Hd Hn. unfold sp_Absolute. apply Join_store_plain.
  - pose proof (encode_length (sp_digest sp)) as L. rewrite Hd in L. change (EncodedLen 20) with 32 in L.
    unfold sp_String. repeat split; intros E; apply (f_equal (@length byte)) in E; rewrite !app_length, L in E; cbn in E; lia.
  - unfold sp_String. rewrite !in_app_iff. intros [H|[H|H]].
    + eapply hash_no_slash; [apply encode_hash_part; exact Hd|exact H].
    + destruct H as [H|[]]. discriminate.
    + eapply name_no_slash; eauto.
Qed.
Lemma roundtrip_Absolute sp : length (sp_digest sp) = 20 -> valid_name (sp_name sp) ->
  FromAbsolutePath (sp_Absolute sp) = Ok sp /\ Validate (sp_Absolute sp) = Ok tt /\ wf_store_path (sp_Absolute sp).
Proof.
  intros Hd [Hne Hn]. rewrite Absolute_eq by auto.
  assert (Hw : wf_store_path (bs "/nix/store/" ++ EncodeToString (sp_digest sp) ++ bs "-" ++ sp_name sp)).
  { exists (EncodeToString (sp_digest sp)), (sp_name sp). repeat split; auto; apply encode_hash_part; exact Hd. }
  split; [|split; [apply validate_complete; exact Hw|exact Hw]].
  unfold FromAbsolutePath. change (hashOffset + nameOffset + 1) with 45. change hashOffset with 11.
  pose proof (encode_length (sp_digest sp)) as L. rewrite Hd in L. change (EncodedLen 20) with 32 in L.
  assert (L1 : 1 <= length (sp_name sp)) by (destruct (sp_name sp); [congruence|cbn; lia]).
  destruct (Nat.ltb_spec (length (bs "/nix/store/" ++ EncodeToString (sp_digest sp) ++ bs "-" ++ sp_name sp)) 45) as [Hlt|_].
  { rewrite !app_length, L in Hlt. cbn in Hlt. lia. }
  rewrite slice_tail by (rewrite !app_length; change (length (bs "/nix/store/")) with 11; lia).
  cbn [rbind]. change 11 with (length (bs "/nix/store/")). rewrite skipn_app, skipn_all, Nat.sub_diag. cbn [skipn app].
  apply (roundtrip_String sp Hd Hn).
Qed.
Lemma FromAbsolutePath_unfold s : FromAbsolutePath s =
  if length s <? 45 then Err (EMsg "invalid path length") else FromString (skipn 11 s).
Proof.
  unfold FromAbsolutePath. change (hashOffset + nameOffset + 1) with 45. change hashOffset with 11.
  destruct (Nat.ltb_spec (length s) 45); [reflexivity|]. rewrite slice_tail by lia. reflexivity.
Qed.

(** * Any string *)
Lemma clean_leads l : forall acc, Forall (fun c => c <> dotdot) acc -> leads (rev acc) l (clean_go true acc l).
Proof.
  induction l as [|c l IH]; intros acc H; cbn [clean_go]; [constructor|].
  destruct (beq c [] || beq c dot) eqn:E1.
  { apply leads_stay; [|exact (IH acc H)]. apply orb_prop in E1. destruct E1 as [E|E]; apply beq_eq in E; auto. }
  apply orb_false_iff in E1. destruct E1 as (E1 & E2). destruct (beq c dotdot) eqn:E3.
  - apply beq_eq in E3. subst c. apply leads_up. destruct acc as [|x acc]; [apply (IH []); constructor|].
    inversion H as [|? ? X Y]; subst. apply beq_neq in X. rewrite X. cbn [rev]. rewrite removelast_last. exact (IH acc Y).
  - apply beq_neq in E1, E2, E3. apply leads_down; auto. apply (IH (c :: acc)). constructor; assumption.
Qed.
Lemma leads_fun a l x : leads a l x -> forall y, leads a l y -> x = y.
Proof.
  induction 1 as [a|a c l to C L IH|a l to L IH|a c l to N1 N2 N3 L IH]; intros y Y; inversion Y; subst; auto; exfalso;
    repeat match goal with H : _ \/ _ |- _ => destruct H end; (congruence || discriminate).
Qed.
Lemma FromString_any s sp : FromString s = Ok sp <->
  exists h sep l to c h' sep' n', s = h ++ [sep] ++ sp_name sp /\ hash_part h /\ EncodeToString (sp_digest sp) = h /\
    components s l /\ leads [bs "nix"; bs "store"] l to /\
    slash :: join_byte to slash = bs "/nix/store" ++ [c] ++ h' ++ [sep'] ++ n' /\ hash_part h' /\ Forall (fun x => In x name_alphabet) (sep' :: n').
Proof.
  rewrite FromString_unfold.
  assert (J : exists to, Join2 StoreDir s = slash :: join_byte to slash /\ leads [bs "nix"; bs "store"] (split_byte s slash) to).
  { exists (clean_go true [bs "store"; bs "nix"] (split_byte s slash)). split.
    - rewrite Join_store. change (StoreDir ++ slash :: s) with (slash :: bs "nix/store" ++ slash :: s). rewrite Clean_rooted. reflexivity.
    - apply (clean_leads _ [bs "store"; bs "nix"]). repeat constructor; discriminate. }
  destruct J as (to & J & D). rewrite J. split.
  - destruct (Validate _) as [[]| |] eqn:V; try discriminate. destruct (DecodeString (firstn 32 s)) as [d| |] eqn:Ed; try discriminate. intros E. assert (sp = SP (skipn 33 s) d) by congruence. subst sp. clear E. cbn [sp_name sp_digest].
    assert (L : 33 <= length s). { rewrite <- J in V. apply Validate_length in V. pose proof (Join_store_length s). lia. }
    apply validate_exact in V. destruct V as (c & h' & sep' & n' & V & H' & N').
    assert (L1 : length (firstn 32 s) = 32) by (apply firstn_length_le; lia).
    pose proof (decode_hash_len _ _ L1 Ed) as LD. apply decode_iff_encode in Ed. 
    destruct (skipn 32 s) as [|x r] eqn:Er. { apply (f_equal (@length byte)) in Er. rewrite skipn_length in Er. cbn in Er. lia. }
    assert (R : skipn 33 s = r) by (replace (skipn 33 s) with (skipn 1 (skipn 32 s)) by apply skipn_skipn; rewrite Er; reflexivity).
    exists (firstn 32 s), x, (split_byte s slash), to, c, h', sep', n'. split; [|split; [|split; [exact Ed|split; [|split; [exact D|split; [exact V|auto]]]]]].
    + rewrite R. etransitivity; [symmetry; apply (firstn_skipn 32 s)|]. rewrite Er. reflexivity.
    + rewrite <- Ed. apply encode_hash_part. exact LD.
    + split; [apply split_byte_nonnil|]. split; [apply split_no_sep|apply split_join].
  - intros (h & sep & l & to' & c & h' & sep' & n' & S & H & En & (C1 & C2 & C3) & D' & V & H' & N').
    assert (SL : split_byte s slash = l) by (rewrite <- C3; apply join_split; assumption). rewrite SL in D. pose proof (leads_fun _ _ _ D _ D'). subst to'.
    assert (VV : Validate (slash :: join_byte to slash) = Ok tt) by (apply validate_exact; exists c, h', sep', n'; auto). rewrite VV.
    destruct H as (Lh & _). subst s. destruct (cut33 h sep (sp_name sp) Lh) as (-> & ->). rewrite <- En, (proj2 (decode_iff_encode _ _) eq_refl). destruct sp; reflexivity.
Qed.

(** * The method Validate *)
Lemma EncodedLen_32 n : 32 <= EncodedLen n <-> 20 <= n.
Proof.
  unfold EncodedLen. split; intros H.
  - destruct (Nat.le_gt_cases 20 n) as [G|G]; [exact G|exfalso].
    assert (X : (n * 8 + 4) / 5 <= (19 * 8 + 4) / 5) by (apply Nat.div_le_mono; lia).
    change ((19 * 8 + 4) / 5) with 31 in X. lia.
  - assert (X : (20 * 8 + 4) / 5 <= (n * 8 + 4) / 5) by (apply Nat.div_le_mono; lia).
    change ((20 * 8 + 4) / 5) with 32 in X. lia.
Qed.
Lemma String_no_slash sp : ~ In slash (sp_name sp) -> ~ In slash (sp_String sp).
Proof.
  intros Hn. unfold sp_String. rewrite !in_app_iff. intros [H|[H|H]]; [|destruct H as [H|[]]; discriminate|exact (Hn H)].
  pose proof (encode_alphabet (sp_digest sp)) as E. rewrite Forall_forall in E. apply E in H.
  apply (hash_in_name slash) in H. apply name_char_iff in H. discriminate H.
Qed.
Lemma method_exact sp : ~ In slash (sp_name sp) ->
  (sp_Validate sp = Ok tt <-> 20 <= length (sp_digest sp) /\ Forall (fun x => In x name_alphabet) (sp_name sp)).
Proof.
  intros Hn. pose proof (String_no_slash sp Hn) as Hs. pose proof (encode_length (sp_digest sp)) as L.
  pose proof (encode_alphabet (sp_digest sp)) as EA. unfold sp_Validate.
  assert (Hj : 33 <= length (sp_String sp) -> sp_Absolute sp = bs "/nix/store" ++ [slash] ++ sp_String sp).
  { intros G. unfold sp_Absolute. rewrite Join_store_plain; [reflexivity| |exact Hs].
    repeat split; intros E; apply (f_equal (@length byte)) in E; cbn in E; lia. }
  rewrite validate_exact. split.
  - intros (c & h & sep & n & E & (Lh & Ha) & Hf).
    assert (G : 33 <= length (sp_String sp)).
    { pose proof (Join_store_length (sp_String sp)) as X. fold (sp_Absolute sp) in X. rewrite E, !app_length in X.
      change (length (bs "/nix/store")) with 10 in X. cbn [length] in X. lia. }
    rewrite (Hj G) in E. apply app_inv_head in E. cbn [app] in E. assert (E2 : sp_String sp = h ++ sep :: n) by congruence.
    unfold sp_String in E2. 
    destruct (Nat.le_gt_cases 32 (length (EncodeToString (sp_digest sp)))) as [K|K].
    + split; [apply EncodedLen_32; rewrite <- L; exact K|].
      apply (f_equal (skipn 32)) in E2. rewrite !skipn_app, Lh, skipn_all2 with (l := h) in E2 by lia.
      replace (32 - length (EncodeToString (sp_digest sp))) with 0 in E2 by lia. change (32 - 32) with 0 in E2.
      change (skipn 0 (bs "-" ++ sp_name sp)) with (bs "-" ++ sp_name sp) in E2. change ([] ++ skipn 0 (sep :: n)) with (sep :: n) in E2.
      rewrite <- E2 in Hf. apply Forall_app in Hf. destruct Hf as (_ & Hf). apply (Forall_app _ (bs "-")) in Hf. apply Hf.
    + exfalso. assert (D : nth (length (EncodeToString (sp_digest sp))) h x00 = "-"%byte).
      { apply (f_equal (fun l => nth (length (EncodeToString (sp_digest sp))) l x00)) in E2.
        rewrite app_nth2, Nat.sub_diag in E2 by lia. rewrite (app_nth1 h) in E2 by lia. symmetry. exact E2. }
      rewrite Forall_forall in Ha. specialize (Ha "-"%byte). rewrite <- D in Ha at 1.
      assert (HI : In "-"%byte hash_alphabet) by (apply Ha, nth_In; lia).
      apply contains_byte_iff in HI. discriminate HI.
  - intros (Hd & Hf). apply EncodedLen_32 in Hd. rewrite <- L in Hd.
    set (e := EncodeToString (sp_digest sp)) in *.
    assert (G : 33 <= length (sp_String sp)).
    { unfold sp_String. fold e. rewrite !app_length. cbn. lia. }
    rewrite (Hj G). unfold sp_String. fold e.
    assert (Hr : Forall (fun x => In x name_alphabet) (skipn 32 e ++ bs "-" ++ sp_name sp)).
    { apply Forall_app. split.
      - eapply Forall_impl; [intros x; apply hash_in_name|]. change hash_alphabet with Alphabet.
        rewrite <- (firstn_skipn 32 e) in EA. apply Forall_app in EA. apply EA.
      - constructor; [|exact Hf]. apply name_char_iff. reflexivity. }
    destruct (skipn 32 e ++ bs "-" ++ sp_name sp) as [|sep n] eqn:En.
    { destruct (skipn 32 e); discriminate. }
    exists slash, (firstn 32 e), sep, n. split; [|split; [split|exact Hr]].
    + do 2 f_equal. change ([sep] ++ n) with (sep :: n). rewrite <- En. rewrite (app_assoc (firstn 32 e)), firstn_skipn. reflexivity.
    + apply firstn_length_le. exact Hd.
    + change hash_alphabet with Alphabet. rewrite <- (firstn_skipn 32 e) in EA. apply Forall_app in EA. apply EA.
Qed.
