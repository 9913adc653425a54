From Verif Require Import Base.Bytes Base.BytesFacts Model.GoIO Model.GoStd Model.Scanner Model.Nixbase32 Model.Nixhash Model.Storepath
  Model.Signature Model.NarInfo Spec.HashSpec Spec.SignatureSpec Spec.NarInfoSpec Proof.Codec Proof.Base32Facts Proof.Base32Props Proof.HashProps
  Proof.StorePathProps Proof.SignatureProps Proof.ScannerProps Proof.NarInfoProps.
Ltac Zify.zify_post_hook ::= idtac.

Definition finish (n : narinfo) : narinfo :=
  NarInfo (ni_StorePath n) (ni_URL n) (match ni_Compression n with [] => bs "bzip2" | c => c end) (ni_FileHash n) (ni_FileSize n)
    (ni_NarHash n) (ni_NarSize n) (ni_References n) (ni_Deriver n) (ni_System n) (ni_Signatures n) (ni_CA n).
Lemma Parse_eq r : Parse r = let '(ls, e) := scan_lines maxCapacity r in
  let* n := parse_lines ni_empty ls in match e with Some e => Err e | None => Ok (finish n) end.
Proof. unfold Parse. destruct (scan_lines maxCapacity r) as [ls [e|]]; destruct (parse_lines ni_empty ls) as [[? ? [|? ?] ? ? ? ? ? ? ? ? ?]|e'|w]; reflexivity. Qed.

Lemma reads_iff text n : reads text n <-> exists n0, parse_lines ni_empty (map without_cr (lines_of text)) = Ok n0 /\ n = finish n0.
Proof.
  split.
  - intros (kvs & H1 & H2 & A & B & C & D & E & F & G & I1 & J & K & L & M).
    exists (NarInfo (ni_StorePath n) (ni_URL n) (last (values "Compression" kvs) []) (ni_FileHash n) (ni_FileSize n)
      (ni_NarHash n) (ni_NarSize n) (ni_References n) (ni_Deriver n) (ni_System n) (ni_Signatures n) (ni_CA n)).
    split.
    + apply parse_lines_iff. exists kvs. split; [exact H1|]. apply apply_all_iff. unfold ends. proj.
      repeat (split; [assumption|]). split; [reflexivity|]. repeat (split; [assumption|]).
      split; [exists (ni_Signatures n); split; [exact L|reflexivity]|exact M].
    + unfold finish. proj. rewrite <- C. destruct n; reflexivity.
  - intros (n0 & H & ->). apply parse_lines_iff in H. destruct H as (kvs & H1 & H). apply apply_all_iff in H.
    destruct H as (H2 & A & B & C & D & E & F & G & I1 & J & K & (ss & L1 & L2) & M).
    exists kvs. unfold finish. proj. change (ni_Compression ni_empty) with (@nil byte) in C. rewrite <- C. change (ni_Signatures ni_empty) with (@nil signature) in L2. cbn [app] in L2. subst ss. repeat (split; [assumption || reflexivity|]). exact M.
Qed.

Lemma Parse_sound r n : Parse r = Ok n -> fin r = EEOF /\ reads (src_data r) n /\ lines_at_most maxCapacity (src_data r).
Proof.
  rewrite Parse_eq. destruct (scan_lines maxCapacity r) as [ls e] eqn:Es.
  destruct (parse_lines ni_empty ls) as [n0|e'|w] eqn:Ep; cbn [rbind]; try discriminate. destruct e; [discriminate|].
  intros H. apply ok_inj in H. subst n. unfold scan_lines in Es. apply scan_sound in Es. destruct Es as [A B].
  destruct B as [B1 B2]; [rewrite lenN_nil; unfold maxCapacity; lia|]. cbn [app] in B1, B2. split; [exact A|]. split; [|exact B2].
  apply reads_iff. exists n0. rewrite <- B1. auto.
Qed.
Lemma Parse_complete r n : fin r = EEOF -> Forall (fun c => c <> []) (chunks r) -> lines_below maxCapacity (src_data r) ->
  reads (src_data r) n -> Parse r = Ok n.
Proof.
  intros H1 H2 H3 H4. apply reads_iff in H4. destruct H4 as (n0 & H4 & ->). rewrite Parse_eq.
  unfold scan_lines. rewrite (scan_complete maxCapacity (3 + 2 * src_size r) [] None r); [|cbn [length]; lia|exact H2|exact H1|exact H3].
  cbn [app]. rewrite H4. reflexivity.
Qed.

Lemma Parse_exact r n : Forall (fun c => c <> []) (chunks r) ->
  Parse r = Ok n <-> fin r = EEOF /\ reads (src_data r) n /\ lines_fit (eager r) maxCapacity (src_data r).
Proof.
  intros Hc. assert (X : fin r = EEOF -> snd (scan_lines maxCapacity r) = None <-> lines_fit (eager r) maxCapacity (src_data r)).
  { intros Hf. unfold scan_lines. rewrite (scan_exact maxCapacity (3 + 2 * src_size r) [] None r); [reflexivity|cbn [length]; lia|exact Hc|exact Hf| |].
    - rewrite lenN_nil; unfold maxCapacity; lia.
    - intros _ _. rewrite lenN_nil; unfold maxCapacity; lia. }
  split.
  - intros H. destruct (Parse_sound _ _ H) as (A & B & _). split; [exact A|]. split; [exact B|]. apply X; [exact A|].
    rewrite Parse_eq in H. destruct (scan_lines maxCapacity r) as [ls [e|]]; [|reflexivity].
    destruct (parse_lines ni_empty ls); discriminate.
  - intros (A & B & C). apply X in C; [|exact A]. apply reads_iff in B. destruct B as (n0 & B & ->). rewrite Parse_eq.
    destruct (scan_lines maxCapacity r) as [ls [e|]] eqn:Es; [discriminate|]. unfold scan_lines in Es. apply scan_sound in Es. destruct Es as [_ Es].
    destruct Es as [B1 _]; [rewrite lenN_nil; unfold maxCapacity; lia|]. cbn [app] in B1. rewrite B1, B. reflexivity.
Qed.

(** Parse never panics. *)
Lemma apply_no_panic n k v : is_panic (apply_kv n k v) = false.
Proof.
  unfold apply_kv. destruct n.
  assert (P1 : is_panic (ParseAny v None) = false) by (apply ParseAny_no_panic; discriminate).
  pose proof (ParseUint_no_panic v) as P2.
  assert (P3 : is_panic (ParseSignature v) = false).
  { unfold ParseSignature. pose proof (decode_no_panic v SignatureSize) as P. destruct (decode v SignatureSize); [reflexivity|reflexivity|discriminate]. }
  repeat match goal with |- context [beq k ?x] => destruct (beq k x) end; try reflexivity;
    try (destruct (ParseAny v None); [reflexivity|reflexivity|discriminate]);
    try (destruct (ParseUint v); [reflexivity|reflexivity|discriminate]).
  - destruct v; reflexivity.
  - destruct (beq v _); reflexivity.
  - destruct (ParseSignature v); [reflexivity|reflexivity|discriminate].
Qed.
Lemma Parse_no_panic r : is_panic (Parse r) = false.
Proof.
  rewrite Parse_eq. destruct (scan_lines maxCapacity r) as [ls e].
  assert (P : forall ls n, is_panic (parse_lines n ls) = false).
  { clear. induction ls as [|l ls IH]; intros n; cbn [parse_lines]; [reflexivity|].
    destruct (parse_line n l) as [n1|e|w] eqn:E; cbn [rbind]; [apply IH|reflexivity|]. exfalso.
    destruct l as [|c l]; [unfold parse_line in E; destruct n; discriminate|]. rewrite parse_line_eq in E by discriminate.
    unfold splitOnce in E. destruct (index_sub (c :: l) (bs ": ")); [|discriminate].
    destruct (contains_sub _ _); [discriminate|]. cbn [rbind] in E.
    match type of E with apply_kv ?a ?b ?c = _ => pose proof (apply_no_panic a b c) as P end. rewrite E in P. discriminate. }
  specialize (P ls ni_empty). destruct (parse_lines ni_empty ls); cbn [rbind]; [destruct e; reflexivity|reflexivity|discriminate].
Qed.

Lemma split_infix a l b : ~ In x0a l -> exists x, In x (split_byte (a ++ l ++ b) x0a) /\ (lenN l <= lenN x)%N.
Proof.
  intros H. induction a as [|c a IH]; cbn [app].
  - destruct (split_prefix l b x0a H) as (x & k & ->). exists (l ++ x). split; [left; reflexivity|]. rewrite lenN_app. lia.
  - destruct IH as (x & H1 & H2). cbn [split_byte]. destruct (byte_eqb c x0a).
    + exists x. split; [right; exact H1|exact H2].
    + destruct (split_byte (a ++ l ++ b) x0a) as [|h t]; [destruct H1|]. destruct H1 as [->|H1].
      * exists (c :: x). split; [left; reflexivity|]. rewrite lenN_cons. lia.
      * exists x. split; [right; exact H1|exact H2].
Qed.
Lemma Parse_long_line a l b r : ~ In x0a l -> (maxCapacity < lenN l)%N -> src_data r = a ++ l ++ b -> exists e, Parse r = Err e.
Proof.
  intros H1 H2 H3. pose proof (Parse_no_panic r) as P. destruct (Parse r) as [n|e|w] eqn:E; [|eauto|discriminate].
  apply Parse_sound in E. destruct E as (_ & _ & E). exfalso. rewrite H3 in E. destruct (split_infix a l b H1) as (x & A & B).
  unfold lines_at_most in E. rewrite Forall_forall in E. specialize (E _ A). lia.
Qed.

(** * C41 *)
Definition pline (kv : bytes * bytes) : bytes := fst kv ++ bs ": " ++ snd kv.
Definition ptext (kvs : list (bytes * bytes)) : bytes := concat (map (fun kv => pline kv ++ nl) kvs).
Lemma without_cr_id l : (forall p, l <> p ++ [x0d]) -> without_cr l = l.
Proof.
  intros H. unfold without_cr. destruct (rev l) as [|c r] eqn:E; [reflexivity|].
  destruct c; try reflexivity. exfalso. apply (H (rev r)). rewrite <- (rev_involutive l), E. reflexivity.
Qed.
Definition line_kv (kv : bytes * bytes) : Prop := In (fst kv) known_keys /\ line_text (snd kv).
Lemma known_key_chars k : In k known_keys -> ~ In ":"%byte k /\ ~ In x0a k /\ k <> [].
Proof.
  intros H. pattern k. apply (known_cases k H); clear; (split; [|split; [|discriminate]]); apply contains_byte_false; reflexivity.
Qed.
Lemma last_char_app (a b : bytes) p c : b <> [] -> a ++ b = p ++ [c] -> exists q, b = q ++ [c].
Proof.
  intros Hb E. destruct (exists_last Hb) as (q & x & ->). exists q. f_equal. rewrite app_assoc in E. apply app_inj_tail in E. destruct E as [_ ->]. reflexivity.
Qed.
Lemma pline_no_nl kv : line_kv kv -> ~ In x0a (pline kv).
Proof.
  intros [Hk (V1 & _)]. destruct (known_key_chars _ Hk) as (_ & K2 & _). unfold pline. intros H.
  apply in_app_or in H. destruct H as [H|H]; [exact (K2 H)|]. cbn in H. destruct H as [H|[H|H]]; try discriminate. exact (V1 H).
Qed.
Lemma pline_no_cr kv : line_kv kv -> forall p, pline kv <> p ++ [x0d].
Proof.
  intros [Hk (_ & V2 & _)] p E. unfold pline in E. destruct (snd kv) as [|c v] eqn:Ev.
  - rewrite app_nil_r in E. apply last_char_app in E; [|discriminate]. destruct E as (q & E). apply (f_equal (fun l => last l x00)) in E.
    rewrite last_last in E. discriminate.
  - rewrite app_assoc in E. apply last_char_app in E; [|discriminate]. destruct E as (q & E). exact (V2 q E).
Qed.
Lemma ptext_lines kvs : Forall line_kv kvs -> text_lines (ptext kvs) = map pline kvs.
Proof.
  unfold text_lines. induction kvs as [|kv kvs IH]; intros H; [reflexivity|]. inversion H as [|? ? H1 H2]; subst.
  change (ptext (kv :: kvs)) with ((pline kv ++ [x0a]) ++ ptext kvs). rewrite <- app_assoc. cbn [app].
  rewrite lines_cons by (apply pline_no_nl; exact H1). cbn [map].
  rewrite without_cr_id by (apply pline_no_cr; exact H1). cbn [filter]. rewrite IH by exact H2.
  destruct (beq (pline kv) []) eqn:E; [|reflexivity]. exfalso. apply beq_eq in E. unfold pline in E. apply app_eq_nil in E. destruct E as [_ E]. discriminate.
Qed.
Lemma ptext_kvs kvs : Forall line_kv kvs -> Forall2 (fun l kv => key_value l (fst kv) (snd kv)) (text_lines (ptext kvs)) kvs.
Proof.
  intros H. rewrite ptext_lines by exact H. induction H as [|kv kvs [Hk (_ & _ & V3)] Hr IH]; [constructor|].
  cbn [map]. constructor; [|exact IH]. apply key_value_intro; [apply (known_key_chars _ Hk)|exact V3].
Qed.

Lemma line_text_chars v : (forall c, In c v -> ~ In c [x0a; x0d; " "%byte]) -> line_text v.
Proof.
  intros H. split; [|split].
  - intros X. apply (H _ X). left. reflexivity.
  - intros p ->. apply (H x0d); [apply in_or_app; right; left; reflexivity|right; left; reflexivity].
  - intros p r ->. apply (H " "%byte); [apply in_or_app; right; right; left; reflexivity|right; right; left; reflexivity].
Qed.
Lemma digits_line n : line_text (FormatUint n).
Proof.
  apply line_text_chars. intros c Hc. pose proof (FormatUint_digits n) as H. rewrite Forall_forall in H. apply H in Hc.
  intros [<-|[<-|[<-|[]]]]; cbn in Hc; lia.
Qed.
Lemma body_free c e d : existsb (byte_eqb c) hex_digits = false -> existsb (byte_eqb c) (pad_char :: b64_alphabet) = false ->
  existsb (byte_eqb c) Alphabet = false -> ~ In c (body e d).
Proof.
  intros H1 H2 H3. destruct e; cbn [body]; first [exact (Forall_notin c _ _ H1 (hex_encode_chars d))
    |exact (Forall_notin c _ _ H2 (b64_ch_in _ (b64_encode_chars d)))|exact (Forall_notin c _ _ H3 (encode_alphabet d))].
Qed.
Lemma hash_text h : printable_hash h -> exists s, he_String h = Ok s /\ line_text s /\ ParseAny s None = Ok h.
Proof.
  intros (W & K & I1). unfold he_String. rewrite I1.
  destruct (parse_format (he_hash h) (he_enc h) true None W K) as (s & A & B); [auto|]. exists s. split; [exact A|]. split.
  - pose proof (Format_ok (he_hash h) (he_enc h) true _ W K) as F. rewrite A in F. apply ok_inj in F. subst s.
    apply line_text_chars. intros c Hc Hi. apply in_app_or in Hc. destruct Hc as [Hc|Hc].
    + apply contains_byte_iff in Hc. unfold wf_hash in W. destruct Hi as [<-|[<-|[<-|[]]]];
        destruct (h_algo (he_hash h)); try discriminate W; destruct (he_enc h); discriminate Hc.
    + revert Hc. destruct Hi as [<-|[<-|[<-|[]]]]; apply body_free; reflexivity.
  - rewrite B. destruct h as [hh e i]. cbn [he_hash he_enc he_incl] in *. subst i. reflexivity.
Qed.
Lemma sig_text s : key_name (sig_name s) -> ~ In x0a (sig_name s) -> length (sig_data s) = 64 ->
  line_text (sig_String s) /\ ParseSignature (sig_String s) = Ok s.
Proof.
  intros K N L. split.
  - unfold sig_String, encode. pose proof (b64_encode_chars (sig_data s)) as HB. apply b64_ch_in in HB.
    assert (NE : b64_encode (sig_data s) <> []).
    { intros E. apply (f_equal (@length byte)) in E. rewrite b64_encode_length, L in E. discriminate. }
    destruct K as [K1 K2]. split; [|split].
    + intros H. apply in_app_or in H. destruct H as [H|[H|H]]; [exact (N H)|discriminate|].
      revert H. eapply Forall_notin; [|exact HB]. reflexivity.
    + intros p E. rewrite app_assoc in E. apply last_char_app in E; [|exact NE]. destruct E as (q & E).
      assert (H : In x0d (b64_encode (sig_data s))) by (rewrite E; apply in_or_app; right; left; reflexivity).
      revert H. eapply Forall_notin; [|exact HB]. reflexivity.
    + intros p r E. change (bs ": ") with [":"%byte; " "%byte] in E. change (bs ":") with [":"%byte] in E. cbn [app] in E.
      apply app_eq_app in E. destruct E as (l & [[A B]|[A B]]).
      * destruct l as [|c l].
        -- cbn [app] in B. inversion B as [B1].
           assert (H : In " "%byte (b64_encode (sig_data s))) by (rewrite <- B1; left; reflexivity).
           revert H. eapply Forall_notin; [|exact HB]. reflexivity.
        -- inversion B; subst. apply K2. rewrite A. apply in_or_app. right. left. reflexivity.
      * assert (H : In " "%byte (b64_encode (sig_data s))).
        { apply (f_equal (@tl byte)) in B. destruct l as [|c l]; cbn [app tl] in B; rewrite B; [left; reflexivity|].
          apply in_or_app. right. right. left. reflexivity. }
        revert H. eapply Forall_notin; [|exact HB]. reflexivity.
  - unfold ParseSignature, sig_String. rewrite decode_encode by (auto; discriminate). destruct s; reflexivity.
Qed.

(** The lines String prints. *)
Definition opt_kv (k : string) (v : bytes) : list (bytes * bytes) := match v with [] => [] | _ => [(bs k, v)] end.
Definition file_kvs (n : narinfo) (fh : bytes) : list (bytes * bytes) :=
  match ni_FileHash n with
  | None => []
  | Some _ => [(bs "FileHash", fh); (bs "FileSize", FormatUint (ni_FileSize n))]
  end.
Definition kvs_of (n : narinfo) (fh nh : bytes) : list (bytes * bytes) :=
  [(bs "StorePath", ni_StorePath n); (bs "URL", ni_URL n); (bs "Compression", ni_Compression n)] ++
  file_kvs n fh ++
  [(bs "NarHash", nh); (bs "NarSize", FormatUint (ni_NarSize n));
   (bs "References", join_byte (ni_References n) " "%byte)] ++
  opt_kv "Deriver" (ni_Deriver n) ++ opt_kv "System" (ni_System n) ++
  map (fun s => (bs "Sig", sig_String s)) (ni_Signatures n) ++ opt_kv "CA" (ni_CA n).
Lemma ptext_app a b : ptext (a ++ b) = ptext a ++ ptext b.
Proof. unfold ptext. rewrite map_app, concat_app. reflexivity. Qed.
Lemma ptext_cons k v l : ptext ((k, v) :: l) = k ++ bs ": " ++ v ++ nl ++ ptext l.
Proof. unfold ptext. cbn [map concat]. unfold pline. cbn [fst snd]. rewrite <- !app_assoc. reflexivity. Qed.
Lemma ptext_opt k v : ptext (opt_kv k v) = match v with [] => [] | d => (bs k ++ bs ": ") ++ d ++ nl end.
Proof. destruct v; [reflexivity|]. cbn [opt_kv]. rewrite ptext_cons. unfold ptext. cbn [map concat]. rewrite app_nil_r, <- app_assoc. reflexivity. Qed.
Lemma refs_text rs : (match rs with [] => bs " " | _ => concat (map (fun r => bs " " ++ r) rs) end) = " "%byte :: join_byte rs " "%byte.
Proof.
  destruct rs as [|r rs]; [reflexivity|]. cbn [map concat]. change (bs " ") with [" "%byte]. cbn [app]. f_equal. revert r.
  induction rs as [|r' rs IH]; intros r; [cbn; apply app_nil_r|]. cbn [map concat app]. rewrite IH. reflexivity.
Qed.
Lemma sigs_text l : ptext (map (fun s => (bs "Sig", sig_String s)) l) = concat (map (fun s => bs "Sig: " ++ sig_String s ++ nl) l).
Proof. induction l as [|s l IH]; [reflexivity|]. cbn [map]. rewrite ptext_cons, IH. cbn [concat]. rewrite <- !app_assoc. reflexivity. Qed.

Lemma String_eq n fh nh : (forall h, ni_FileHash n = Some h -> he_String h = Ok fh /\ ni_FileSize n <> 0%N) ->
  (exists h, ni_NarHash n = Some h /\ he_String h = Ok nh) -> ni_String n = Ok (ptext (kvs_of n fh nh)).
Proof.
  intros H1 (h & H2 & H3). unfold ni_String. rewrite H2, H3.
  assert (E : (match ni_FileHash n with
    | Some h => if N.eqb (ni_FileSize n) 0 then Ok []
        else let* s := he_String h in Ok (bs "FileHash: " ++ s ++ nl ++ bs "FileSize: " ++ FormatUint (ni_FileSize n) ++ nl)
    | None => Ok [] end) = Ok (ptext (file_kvs n fh))).
  { unfold file_kvs. destruct (ni_FileHash n) as [f|]; [|reflexivity]. destruct (H1 f eq_refl) as [A B]. apply N.eqb_neq in B.
    rewrite B, A. cbn [rbind]. rewrite !ptext_cons. unfold ptext. cbn [map concat]. rewrite app_nil_r. reflexivity. }
  rewrite E. cbn [rbind]. f_equal. unfold kvs_of. rewrite !ptext_app, !ptext_cons, !ptext_opt, sigs_text.
  change (ptext []) with (@nil byte). rewrite !app_nil_r.
  rewrite <- !app_assoc.
  pose proof (refs_text (ni_References n)) as R.
  assert (R' : forall t, bs "References:" ++ (match ni_References n with [] => bs " " | r :: rs => concat (map (fun r => bs " " ++ r) (r :: rs)) end) ++ t
    = bs "References" ++ bs ": " ++ join_byte (ni_References n) " "%byte ++ t).
  { intros t. destruct (ni_References n); rewrite R; reflexivity. }
  rewrite R'. destruct (ni_Deriver n), (ni_System n), (ni_CA n); cbn [app]; rewrite <- ?app_assoc; reflexivity.
Qed.
