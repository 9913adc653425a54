From Verif Require Import Base.Bytes Base.BytesFacts Model.GoIO Model.GoStd Model.Scanner Model.Nixbase32 Model.Nixhash Model.Storepath
  Model.Signature Model.NarInfo Spec.HashSpec Spec.SignatureSpec Spec.NarInfoSpec Proof.Codec Proof.Base32Facts Proof.Base32Props Proof.HashProps
  Proof.StorePathProps Proof.SignatureProps Proof.ScannerProps Proof.NarInfoProps Proof.NarInfoMore.
Ltac Zify.zify_post_hook ::= idtac.

Lemma join_in c l : forall x, In x (join_byte l c) -> x = c \/ exists y, In y l /\ In x y.
Proof.
  induction l as [|a l IH]; intros x H; [destruct H|]. destruct l as [|b l].
  - right. exists a. split; [left; reflexivity|exact H].
  - change (join_byte (a :: b :: l) c) with (a ++ c :: join_byte (b :: l) c) in H. apply in_app_or in H. destruct H as [H|[H|H]].
    + right. exists a. split; [left; reflexivity|exact H].
    + left. auto.
    + destruct (IH x H) as [E|(y & A & B)]; [left; exact E|right; exists y; split; [right; exact A|exact B]].
Qed.
Lemma values_app k a b : values k (a ++ b) = values k a ++ values k b.
Proof. unfold values. rewrite filter_app, map_app. reflexivity. Qed.
Lemma values_opt k k' v : values k (opt_kv k' v) = if beq (bs k') (bs k) then match v with [] => [] | _ => [v] end else [].
Proof. destruct v; cbn [opt_kv]; [destruct (beq _ _); reflexivity|]. rewrite values_cons. reflexivity. Qed.
Lemma values_sigs k l : values k (map (fun s => (bs "Sig", sig_String s)) l) = if beq (bs "Sig") (bs k) then map sig_String l else [].
Proof.
  induction l as [|s l IH]; [destruct (beq _ _); reflexivity|]. cbn [map]. rewrite values_cons, IH. destruct (beq _ _); reflexivity.
Qed.
Lemma last_opt (v : bytes) : last (match v with [] => [] | _ => [v] end) [] = v.
Proof. destruct v; reflexivity. Qed.

Lemma kvs_line P n fh nh : narinfo_form P n -> line_text fh -> line_text nh -> Forall line_kv (kvs_of n fh nh).
Proof.
  intros (W1 & W2 & W3 & W4 & W5 & W6 & W7 & W8 & W9 & W10 & W11 & W12 & W13) F1 F2.
  assert (KK : forall k v, existsb (beq k) known_keys = true -> line_text v -> line_kv (k, v)).
  { intros k v H1 H2. split; [|exact H2]. apply existsb_exists in H1. destruct H1 as (x & A & B). apply beq_eq in B. cbn [fst]. subst. exact A. }
  assert (OK : forall k v, existsb (beq (bs k)) known_keys = true -> line_text v -> Forall line_kv (opt_kv k v)).
  { intros k v H1 H2. destruct v; constructor; [apply KK; assumption|constructor]. }
  unfold kvs_of. repeat (apply Forall_app; split).
  - repeat (constructor; [apply KK; [reflexivity|assumption]|]). constructor.
  - unfold file_kvs. destruct (ni_FileHash n); [|constructor]. repeat (constructor; [apply KK; [reflexivity|first [assumption|apply digits_line]]|]). constructor.
  - repeat (constructor; [apply KK; [reflexivity|first [assumption|apply digits_line|apply W8]]|]). constructor.
  - apply OK; [reflexivity|exact W9].
  - apply OK; [reflexivity|exact W11].
  - apply Forall_map. apply Forall_impl with (2 := W13). intros s (A & B & C). apply KK; [reflexivity|]. apply sig_text; assumption.
  - apply OK; [reflexivity|exact W12].
Qed.

Ltac vals := unfold kvs_of, file_kvs; rewrite !values_app, !values_opt, values_sigs.
Lemma kvs_reads P n fh nh h : narinfo_form P n -> line_text fh -> line_text nh ->
  (forall f, ni_FileHash n = Some f -> ParseAny fh None = Ok f) -> ni_NarHash n = Some h -> ParseAny nh None = Ok h ->
  reads (ptext (kvs_of n fh nh)) n.
Proof.
  intros W F1 F2 P1 Hh P2. pose proof (kvs_line P n fh nh W F1 F2) as L. exists (kvs_of n fh nh).
  split; [apply ptext_kvs; exact L|]. split; [apply Forall_impl with (2 := L); intros kv [A _]; exact A|].
  destruct W as (W1 & W2 & W3 & W4 & W5 & W6 & W7 & W8 & W9 & W10 & W11 & W12 & W13).
  assert (FV : forall k, values k (file_kvs n fh) = match ni_FileHash n with None => [] | Some _ =>
    values k [(bs "FileHash", fh); (bs "FileSize", FormatUint (ni_FileSize n))] end)
    by (intros k; unfold file_kvs; destruct (ni_FileHash n); reflexivity).
  assert (NF : forall k, existsb (beq (bs k)) [bs "FileHash"; bs "FileSize"] = false -> values k (file_kvs n fh) = []).
  { intros k E. rewrite FV. destruct (ni_FileHash n); [|reflexivity]. rewrite !values_cons. cbn [existsb] in E. apply orb_false_iff in E. destruct E as [E1 E2].
    apply orb_false_iff in E2. destruct E2 as [E2 _].
    assert (S : forall a b, beq a b = false -> beq b a = false).
    { intros a b X. destruct (beq b a) eqn:Y; [|reflexivity]. apply beq_eq in Y. subst. rewrite beq_refl in X. discriminate. }
    rewrite (S _ _ E1), (S _ _ E2). reflexivity. }
  assert (V : forall k, values k (kvs_of n fh nh) =
     values k [(bs "StorePath", ni_StorePath n); (bs "URL", ni_URL n); (bs "Compression", ni_Compression n)] ++
     values k (file_kvs n fh) ++
     values k [(bs "NarHash", nh); (bs "NarSize", FormatUint (ni_NarSize n)); (bs "References", join_byte (ni_References n) " "%byte)] ++
     (if beq (bs "Deriver") (bs k) then match ni_Deriver n with [] => [] | _ => [ni_Deriver n] end else []) ++
     (if beq (bs "System") (bs k) then match ni_System n with [] => [] | _ => [ni_System n] end else []) ++
     (if beq (bs "Sig") (bs k) then map sig_String (ni_Signatures n) else []) ++
     (if beq (bs "CA") (bs k) then match ni_CA n with [] => [] | _ => [ni_CA n] end else [])).
  { intros k. unfold kvs_of. rewrite !values_app, !values_opt, values_sigs. reflexivity. }
  rewrite !V. clear V.
  rewrite !(NF "StorePath"%string), !(NF "URL"%string), !(NF "Compression"%string), !(NF "NarHash"%string), !(NF "NarSize"%string),
    !(NF "References"%string), !(NF "Deriver"%string), !(NF "System"%string), !(NF "Sig"%string), !(NF "CA"%string) by reflexivity.
  clear NF. rewrite !FV. clear FV.
  split; [reflexivity|]. split; [reflexivity|]. split; [cbn [app]; destruct (ni_Compression n) as [|c0 co] eqn:EC; [congruence|]; reflexivity|].
  split. { destruct (ni_FileHash n) as [f|] eqn:EF.
    - exists [f]. split; [|reflexivity]. constructor; [exact (P1 f eq_refl)|constructor].
    - exists []. split; [constructor|reflexivity]. }
  split. { destruct (ni_FileHash n) as [f|] eqn:EF.
    - exists [ni_FileSize n]. split; [|reflexivity]. constructor; [apply ParseUint_FormatUint; apply W5|constructor].
    - exists []. split; [constructor|exact W5]. }
  split. { exists [h]. split; [constructor; [exact P2|constructor]|exact Hh]. }
  split. { exists [ni_NarSize n]. split; [constructor; [apply ParseUint_FormatUint; exact W7|constructor]|reflexivity]. }
  split. { cbn -[join_byte split_byte]. rewrite app_nil_r. destruct (ni_References n) as [|r rs] eqn:ER; [reflexivity|].
    destruct (join_byte (r :: rs) " "%byte) as [|c j] eqn:EJ.
    - exfalso. destruct W8 as (_ & _ & X). destruct rs; cbn in EJ; [apply X; rewrite EJ; reflexivity|]. apply app_eq_nil in EJ. destruct EJ; discriminate.
    - rewrite <- EJ. symmetry. apply join_split; [discriminate|]. apply W8. }
  split. { match goal with |- _ = last (filter _ ?l) [] => assert (EL : l = match ni_Deriver n with [] => [] | _ => [ni_Deriver n] end) end.
    { cbn. rewrite app_nil_r. reflexivity. }
    rewrite EL. destruct (ni_Deriver n) as [|c d] eqn:ED; [reflexivity|]. cbn [filter].
    destruct (beq (c :: d) (bs "unknown-deriver")) eqn:E; [apply beq_eq in E; congruence|reflexivity]. }
  split. { cbn. rewrite app_nil_r. symmetry. apply last_opt. }
  split. { cbn. rewrite app_nil_r. clear - W13. induction W13 as [|s l (A & B & C) _ IH]; [constructor|]. cbn [map]. constructor; [apply sig_text; assumption|exact IH]. }
  cbn. symmetry. apply last_opt.
Qed.

Lemma hash_chars h s : he_String h = Ok s -> line_text s.
Proof.
  intros E. unfold he_String, Format in E. cbn zeta in E.
  assert (K : exists p, s = p ++ body (he_enc h) (h_digest (he_hash h)) /\ (p = [] \/ exists a t, p = algo_name a ++ t /\ (t = bs "-" \/ t = bs ":"))).
  { destruct (_ || _).
    - destruct (algo_String (h_algo (he_hash h))) as [a|e|w] eqn:A; try discriminate E. cbn [rbind] in E.
      exists (a ++ (if match he_enc h with SRI => true | _ => false end then bs "-" else bs ":")).
      split; [destruct (he_enc h); try discriminate E; apply ok_inj in E; rewrite <- E; reflexivity|]. right.
      exists (h_algo (he_hash h)). eexists. split; [f_equal; destruct (h_algo (he_hash h)); try discriminate A; apply ok_inj in A; rewrite <- A; reflexivity|].
      destruct (he_enc h); auto.
    - cbn [rbind] in E. exists []. split; [|left; reflexivity]. destruct (he_enc h); try discriminate E; apply ok_inj in E; rewrite <- E; reflexivity. }
  destruct K as (p & -> & K). apply line_text_chars. intros c Hc Hi. apply in_app_or in Hc. destruct Hc as [Hc|Hc].
  - destruct K as [->|(a & t & -> & K)]; [destruct Hc|]. apply contains_byte_iff in Hc.
    destruct Hi as [<-|[<-|[<-|[]]]]; destruct K as [->| ->]; destruct a; discriminate Hc.
  - revert Hc. destruct Hi as [<-|[<-|[<-|[]]]]; apply body_free; reflexivity.
Qed.
Lemma wf_lossless n : wf_narinfo n -> lossless n.
Proof.
  intros (W1 & W2 & W3 & W4 & W5 & (h & Hh & W6) & W7 & W8). unfold lossless, narinfo_form.
  assert (G : forall h, printable_hash h -> readable_hash h).
  { intros x Px. destruct (hash_text x Px) as (s & A & _ & C). exists s. auto. }
  split; [exact W1|]. split; [exact W2|]. split; [exact W3|]. split; [exact W4|].
  split; [destruct (ni_FileHash n); [destruct W5; auto|exact W5]|]. split; [exists h; auto|]. auto.
Qed.
Lemma String_Parse n : lossless n -> exists text, ni_String n = Ok text /\ forall r, src_data r = text -> fin r = EEOF -> Forall (fun c => c <> []) (chunks r) -> lines_below maxCapacity text -> Parse r = Ok n.
Proof.
  intros W. pose proof W as (_ & _ & _ & _ & W5 & (h & Hh & (nh & N1 & N3)) & _). pose proof (hash_chars h nh N1) as N2.
  assert (F : exists fh, line_text fh /\ forall f, ni_FileHash n = Some f -> he_String f = Ok fh /\ ni_FileSize n <> 0%N /\ ParseAny fh None = Ok f).
  { destruct (ni_FileHash n) as [f|].
    - destruct W5 as [(s & A & C) W5']. exists s. split; [exact (hash_chars f s A)|]. intros f' E. injection E as <-.
      split; [exact A|]. split; [lia|exact C].
    - exists []. split; [|discriminate]. apply line_text_chars. intros c []. }
  destruct F as (fh & F1 & F2). exists (ptext (kvs_of n fh nh)). split.
  - apply String_eq; [|exists h; auto]. intros f Hf. destruct (F2 f Hf) as (A & B & _). auto.
  - intros r E1 E2 E3 E4. apply Parse_complete; [exact E2|exact E3|rewrite E1; exact E4|]. rewrite E1. eapply kvs_reads; eauto.
    intros f Hf. apply F2. exact Hf.
Qed.
