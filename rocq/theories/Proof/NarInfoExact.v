From Verif Require Import Base.Bytes Base.BytesFacts Model.GoIO Model.GoStd Model.Scanner Model.Nixbase32 Model.Nixhash Model.Storepath
  Model.Signature Model.NarInfo Spec.HashSpec Spec.SignatureSpec Spec.NarInfoSpec Proof.Codec Proof.Base32Facts Proof.Base32Props Proof.HashProps
  Proof.StorePathProps Proof.SignatureProps Proof.ScannerProps Proof.NarInfoProps Proof.NarInfoMore Proof.NarInfoRound Proof.NarInfoCheck Proof.JsonRead.
Ltac Zify.zify_post_hook ::= idtac.

(** * Carriage returns *)
Lemma without_cr_cases v : without_cr v = v \/ v = without_cr v ++ [x0d].
Proof.
  unfold without_cr. destruct (rev v) as [|c r] eqn:E; [left; reflexivity|]. destruct c; try (left; reflexivity).
  right. rewrite <- (rev_involutive v), E. reflexivity.
Qed.
Lemma without_cr_snoc v : without_cr (v ++ [x0d]) = v.
Proof. unfold without_cr. rewrite rev_app_distr. cbn [rev app]. apply rev_involutive. Qed.
Lemma without_cr_fix v : without_cr v = v -> forall p, v <> p ++ [x0d].
Proof.
  intros H p E. subst v. rewrite without_cr_snoc in H. apply (f_equal (@length byte)) in H. rewrite app_length in H. cbn in H. lia.
Qed.
Lemma without_cr_pre a v : a <> [] -> last a x00 <> x0d -> without_cr (a ++ v) = a ++ without_cr v.
Proof.
  intros Ha Hl. destruct (without_cr_cases v) as [E|E].
  - rewrite E. apply without_cr_id. intros p X. destruct v as [|c v].
    + rewrite app_nil_r in X. subst a. rewrite last_last in Hl. congruence.
    + apply last_char_app in X; [|discriminate]. destruct X as (q & X). exact (without_cr_fix _ E q X).
  - rewrite E at 1. rewrite app_assoc. apply without_cr_snoc.
Qed.
Lemma without_cr_incl v c : In c (without_cr v) -> In c v.
Proof. destruct (without_cr_cases v) as [E|E]; [rewrite E; auto|]. intros H. rewrite E. apply in_or_app. auto. Qed.

(** * What Parse reads fits on lines *)
Lemma drop_last_incl l x : In x (drop_last_empty l) -> In x l.
Proof.
  induction l as [|a l IH]; [auto|]. cbn [drop_last_empty]. destruct a as [|c a]; [destruct l|]; cbn; intuition.
Qed.
Lemma text_line_no_nl text l : In l (text_lines text) -> ~ In x0a l.
Proof.
  intros H. unfold text_lines in H. apply filter_In in H. destruct H as [H _]. apply in_map_iff in H. destruct H as (y & <- & H).
  unfold lines_of in H. apply drop_last_incl in H. pose proof (split_no_sep text x0a) as S. rewrite Forall_forall in S.
  intros X. apply without_cr_incl in X. exact (S y H X).
Qed.
(** As [line_text], but it may end in a carriage return. *)
Definition one_line (v : bytes) : Prop := ~ In x0a v /\ forall p r, v <> p ++ bs ": " ++ r.
Lemma one_line_nil : one_line [].
Proof. split; [intros []|]. intros p r E. symmetry in E. apply app_eq_nil in E. destruct E as [_ E]. discriminate. Qed.
Lemma kv_value l k v : key_value l k v -> ~ In x0a l -> one_line v.
Proof.
  intros [-> U] N. split.
  - intros X. apply N. apply in_or_app. right. apply in_or_app. right. exact X.
  - intros p r E. subst v. specialize (U (k ++ bs ": " ++ p) r). rewrite <- !app_assoc in U. specialize (U eq_refl).
    apply (f_equal (@length byte)) in U. rewrite !app_length in U. cbn in U. lia.
Qed.
Lemma values_in k kvs v : In v (values k kvs) -> In (bs k, v) kvs.
Proof.
  unfold values. intros H. apply in_map_iff in H. destruct H as ([k0 v0] & E & H). apply filter_In in H. destruct H as [H B].
  cbn [fst snd] in *. apply beq_eq in B. subst. exact H.
Qed.
Lemma Forall2_in {A B} (P : A -> B -> Prop) l m y : Forall2 P l m -> In y m -> exists x, In x l /\ P x y.
Proof. induction 1; intros []; [subst; eauto with datatypes|]. destruct (IHForall2 H1) as (z & ? & ?). eauto with datatypes. Qed.
Lemma values_one_line text kvs k v : Forall2 (fun l kv => key_value l (fst kv) (snd kv)) (text_lines text) kvs ->
  In v (values k kvs) -> one_line v.
Proof.
  intros H1 H2. apply values_in in H2. destruct (Forall2_in _ _ _ _ H1 H2) as (l & A & B). cbn [fst snd] in B.
  eapply kv_value; [exact B|]. eapply text_line_no_nl; exact A.
Qed.
Lemma last_one_line l : (forall v, In v l -> one_line v) -> one_line (last l []).
Proof.
  intros H. destruct (last_in l [] (last l []) eq_refl) as [E|E]; [rewrite E; exact one_line_nil|exact (H _ E)].
Qed.
Lemma in_split v y c : In y (split_byte v c) -> forall x, In x y -> In x v.
Proof.
  intros H x Hx. rewrite <- (split_join v c). revert H. generalize (split_byte v c). clear v. intros l H.
  induction l as [|a l IH]; [destruct H|]. destruct l as [|b l].
  - destruct H as [<-|[]]. exact Hx.
  - change (join_byte (a :: b :: l) c) with (a ++ c :: join_byte (b :: l) c). apply in_or_app.
    destruct H as [<-|H]; [left; exact Hx|right; right; exact (IH H)].
Qed.
Lemma sig_inv v s : ParseSignature v = Ok s -> key_name (sig_name s) /\ length (sig_data s) = 64 /\ forall c, In c (sig_name s) -> In c v.
Proof.
  unfold ParseSignature. destruct (decode v SignatureSize) as [[a b]|e|w] eqn:E; try discriminate. cbn [rbind]. intros H. apply ok_inj in H. subst s.
  apply decode_inv in E. destruct E as (A & B & t & -> & _). cbn [sig_name sig_data]. split; [exact A|]. split; [exact B|].
  intros c Hc. apply in_or_app. auto.
Qed.

Record plain (n : narinfo) : Prop := {
  p_sp : one_line (ni_StorePath n); p_url : one_line (ni_URL n); p_co : one_line (ni_Compression n);
  p_refs : Forall (fun r => ~ In " "%byte r /\ ~ In x0a r) (ni_References n);
  p_der : one_line (ni_Deriver n); p_sys : one_line (ni_System n); p_ca : one_line (ni_CA n);
  p_sigs : Forall (fun s => key_name (sig_name s) /\ ~ In x0a (sig_name s) /\ length (sig_data s) = 64) (ni_Signatures n)
}.
Lemma reads_plain text n : reads text n -> plain n.
Proof.
  intros (kvs & H1 & H2 & A & B & C & _ & _ & _ & _ & I1 & J & K & L & M).
  pose proof (values_one_line text kvs) as V. constructor.
  - rewrite A. apply last_one_line. intros v. apply V. exact H1.
  - rewrite B. apply last_one_line. intros v. apply V. exact H1.
  - rewrite C. assert (X : one_line (last (values "Compression" kvs) [])) by (apply last_one_line; intros v; apply V; exact H1).
    destruct (last (values "Compression" kvs) []); [|exact X]. split; [apply contains_byte_false; reflexivity|].
    intros p r E. assert (F : contains_sub (bs "bzip2") (bs ": ") = true) by (apply contains_sub_iff; exists p, r; exact E). discriminate F.
  - rewrite I1. apply Forall_forall. intros x Hx. apply in_concat in Hx. destruct Hx as (l & Hl & Hx). apply in_map_iff in Hl.
    destruct Hl as (v & <- & Hv). destruct v as [|c v]; [destruct Hx|]. split.
    + pose proof (split_no_sep (c :: v) " "%byte) as S. rewrite Forall_forall in S. apply S. exact Hx.
    + intros X. destruct (V _ _ H1 Hv) as [N _]. apply N. eapply in_split; eauto.
  - rewrite J. apply last_one_line. intros v Hv. apply filter_In in Hv. apply (V "Deriver"%string); [exact H1|apply Hv].
  - rewrite K. apply last_one_line. intros v. apply V. exact H1.
  - rewrite M. apply last_one_line. intros v. apply V. exact H1.
  - apply Forall_forall. intros s Hs. destruct (Forall2_in _ _ _ _ L Hs) as (v & Hv & P). apply sig_inv in P. destruct P as (P1 & P2 & P3).
    split; [exact P1|]. split; [|exact P2]. intros X. destruct (V _ _ H1 Hv) as [N _]. apply N. apply P3. exact X.
Qed.

(** * Reading printed lines *)
Definition crv (kv : bytes * bytes) : bytes * bytes := (fst kv, without_cr (snd kv)).
Definition nl_kv (kv : bytes * bytes) : Prop := In (fst kv) known_keys /\ ~ In x0a (snd kv).
Lemma nl_pline kv : nl_kv kv -> ~ In x0a (pline kv).
Proof.
  intros [Hk V1]. destruct (known_key_chars _ Hk) as (_ & K2 & _). unfold pline. intros H.
  apply in_app_or in H. destruct H as [H|H]; [exact (K2 H)|]. cbn in H. destruct H as [H|[H|H]]; try discriminate. exact (V1 H).
Qed.
Lemma cr_pline kv : without_cr (pline kv) = pline (crv kv).
Proof.
  unfold pline, crv. cbn [fst snd]. rewrite !app_assoc. apply without_cr_pre.
  - intros E. apply app_eq_nil in E. destruct E as [_ E]. discriminate.
  - change (bs ": ") with ([":"%byte] ++ [" "%byte]). rewrite app_assoc, last_last. discriminate.
Qed.
Lemma cr_ptext_lines kvs : Forall nl_kv kvs -> text_lines (ptext kvs) = map pline (map crv kvs).
Proof.
  unfold text_lines. induction kvs as [|kv kvs IH]; intros H; [reflexivity|]. inversion H as [|? ? H1 H2]; subst.
  change (ptext (kv :: kvs)) with ((pline kv ++ [x0a]) ++ ptext kvs). rewrite <- app_assoc. cbn [app].
  rewrite lines_cons by (apply nl_pline; exact H1). cbn [map]. rewrite cr_pline. cbn [filter]. rewrite IH by exact H2.
  destruct (beq (pline (crv kv)) []) eqn:E; [|reflexivity]. exfalso. apply beq_eq in E. unfold pline in E. apply app_eq_nil in E. destruct E as [_ E]. discriminate.
Qed.
Lemma cr_kvs kvs kvs0 : Forall2 (fun l kv => key_value l (fst kv) (snd kv)) (map pline kvs) kvs0 -> kvs0 = kvs.
Proof.
  revert kvs0. induction kvs as [|[k v] kvs IH]; intros kvs0 H; inversion H as [|? [k0 v0] ? l [E U] H2]; subst; [reflexivity|].
  cbn [fst snd] in *. f_equal; [|exact (IH _ H2)]. unfold pline in *. cbn [fst snd] in *. specialize (U k v eq_refl). subst k0.
  apply app_inv_head in E. apply app_inv_head in E. congruence.
Qed.
Lemma values_crv k kvs : values k (map crv kvs) = map without_cr (values k kvs).
Proof.
  induction kvs as [|[k0 v] kvs IH]; [reflexivity|]. cbn [map]. unfold crv at 1. cbn [fst snd]. rewrite !values_cons, IH.
  destruct (beq k0 (bs k)); reflexivity.
Qed.

Lemma one_line_text v : one_line v -> without_cr v = v -> line_text v.
Proof. intros [A B] C. split; [exact A|]. split; [apply without_cr_fix; exact C|exact B]. Qed.
Lemma line_text_cr v : line_text v -> without_cr v = v.
Proof. intros (_ & A & _). apply without_cr_id. exact A. Qed.

Lemma printed_String n : ni_String (printed n) = ni_String n.
Proof.
  unfold ni_String, printed. proj. destruct (ni_FileHash n) as [f|]; [|reflexivity].
  destruct (N.eqb (ni_FileSize n) 0) eqn:E; cbn [negb]; [reflexivity|]. rewrite E. reflexivity.
Qed.
Lemma String_texts n text : ni_String n = Ok text -> exists fh nh h,
  text = ptext (kvs_of (printed n) fh nh) /\ line_text fh /\ line_text nh /\ ni_NarHash n = Some h /\ he_String h = Ok nh /\
  (forall f, ni_FileHash (printed n) = Some f -> he_String f = Ok fh /\ ni_FileSize (printed n) <> 0%N).
Proof.
  intros H. rewrite <- printed_String in H.
  assert (N : exists h nh, ni_NarHash (printed n) = Some h /\ he_String h = Ok nh).
  { unfold ni_String in H. destruct (match ni_FileHash (printed n) with Some _ => _ | None => _ end); try discriminate H. cbn [rbind] in H.
    destruct (ni_NarHash (printed n)) as [h|]; [|discriminate]. destruct (he_String h) as [nh| |] eqn:E; try discriminate. exists h, nh. auto. }
  assert (F : exists fh, line_text fh /\ forall f, ni_FileHash (printed n) = Some f -> he_String f = Ok fh /\ ni_FileSize (printed n) <> 0%N).
  { destruct (ni_FileHash (printed n)) as [f|] eqn:EF.
    - assert (Z : ni_FileSize (printed n) <> 0%N).
      { revert EF. unfold printed. proj. destruct (ni_FileHash n); [|discriminate]. destruct (N.eqb_spec (ni_FileSize n) 0); cbn [negb]; [discriminate|]. auto. }
      unfold ni_String in H. rewrite EF in H. destruct (N.eqb_spec (ni_FileSize (printed n)) 0) as [X|_]; [congruence|].
      destruct (he_String f) as [fh| |] eqn:E; try discriminate. exists fh. split; [exact (hash_chars f fh E)|]. intros f' E'. injection E' as <-. auto.
    - exists []. split; [|discriminate]. apply line_text_chars. intros c []. }
  destruct N as (h & nh & N1 & N2), F as (fh & F1 & F2). exists fh, nh, h.
  rewrite (String_eq (printed n) fh nh) in H; [|intros f Hf; exact (F2 f Hf)|exists h; auto]. apply ok_inj in H.
  split; [symmetry; exact H|]. split; [exact F1|]. split; [exact (hash_chars h nh N2)|]. split; [exact N1|]. auto.
Qed.

Lemma plain_printed n : plain n -> plain (printed n).
Proof. intros [A B C D E F G H]. constructor; assumption. Qed.
Lemma kvs_nl n fh nh : plain n -> line_text fh -> line_text nh -> Forall nl_kv (kvs_of n fh nh).
Proof.
  intros [A B C D E F G H] F1 F2.
  assert (KK : forall k v, existsb (beq k) known_keys = true -> ~ In x0a v -> nl_kv (k, v)).
  { intros k v H1 H2. split; [|exact H2]. apply existsb_exists in H1. destruct H1 as (x & X1 & X2). apply beq_eq in X2. cbn [fst]. subst. exact X1. }
  assert (OK : forall k v, existsb (beq (bs k)) known_keys = true -> ~ In x0a v -> Forall nl_kv (opt_kv k v)).
  { intros k v H1 H2. destruct v; constructor; [apply KK; assumption|constructor]. }
  assert (J : ~ In x0a (join_byte (ni_References n) " "%byte)).
  { intros X. apply join_in in X. destruct X as [X|(y & X1 & X2)]; [discriminate|]. rewrite Forall_forall in D. exact (proj2 (D y X1) X2). }
  unfold kvs_of. repeat (apply Forall_app; split).
  - constructor; [apply KK; [reflexivity|apply A]|]. constructor; [apply KK; [reflexivity|apply B]|]. constructor; [apply KK; [reflexivity|apply C]|]. constructor.
  - unfold file_kvs. destruct (ni_FileHash n); [|constructor]. constructor; [apply KK; [reflexivity|apply F1]|].
    constructor; [apply KK; [reflexivity|apply digits_line]|]. constructor.
  - constructor; [apply KK; [reflexivity|apply F2]|]. constructor; [apply KK; [reflexivity|apply digits_line]|].
    constructor; [apply KK; [reflexivity|exact J]|]. constructor.
  - apply OK; [reflexivity|apply E].
  - apply OK; [reflexivity|apply F].
  - apply Forall_map. apply Forall_impl with (2 := H). intros s (X1 & X2 & X3). apply KK; [reflexivity|]. apply sig_text; assumption.
  - apply OK; [reflexivity|apply G].
Qed.

Lemma kvs_values n fh nh k : values k (kvs_of n fh nh) =
     values k [(bs "StorePath", ni_StorePath n); (bs "URL", ni_URL n); (bs "Compression", ni_Compression n)] ++
     (match ni_FileHash n with None => [] | Some _ => values k [(bs "FileHash", fh); (bs "FileSize", FormatUint (ni_FileSize n))] end) ++
     values k [(bs "NarHash", nh); (bs "NarSize", FormatUint (ni_NarSize n)); (bs "References", join_byte (ni_References n) " "%byte)] ++
     (if beq (bs "Deriver") (bs k) then match ni_Deriver n with [] => [] | _ => [ni_Deriver n] end else []) ++
     (if beq (bs "System") (bs k) then match ni_System n with [] => [] | _ => [ni_System n] end else []) ++
     (if beq (bs "Sig") (bs k) then map sig_String (ni_Signatures n) else []) ++
     (if beq (bs "CA") (bs k) then match ni_CA n with [] => [] | _ => [ni_CA n] end else []).
Proof. unfold kvs_of, file_kvs. rewrite !values_app, !values_opt, values_sigs. destruct (ni_FileHash n); reflexivity. Qed.
Lemma opt_cr (v : bytes) x : x = last (map without_cr (match v with [] => [] | _ => [v] end)) [] -> x = v -> without_cr v = v.
Proof. intros H E. destruct v as [|c v]; [reflexivity|]. cbn [map last] in H. congruence. Qed.

Lemma String_lossless n text : ni_String n = Ok text -> reads text n -> lossless n.
Proof.
  intros HS HR. pose proof (reads_plain _ _ HR) as P. destruct (String_texts n text HS) as (fh & nh & h & -> & F1 & F2 & Hh & Nh & Fh).
  pose proof (kvs_nl (printed n) fh nh (plain_printed n P) F1 F2) as NL.
  destruct HR as (kvs & H1 & H2 & A & B & C & (fhs & D1 & D2) & (fss & E1 & E2) & (nhs & G1 & G2) & (nss & I1 & I2) & J & K & L & M & O).
  rewrite cr_ptext_lines in H1 by exact NL. pose proof (cr_kvs _ _ H1) as X. subst kvs.
  assert (SEP : forall k v, In (bs k, v) (map crv (kvs_of (printed n) fh nh)) -> one_line v).
  { intros k v Hv. destruct (Forall2_in _ _ _ _ H1 Hv) as (l & X1 & X2). cbn [fst snd] in X2. eapply kv_value; [exact X2|].
    apply in_map_iff in X1. destruct X1 as (kv & <- & X1). apply in_map_iff in X1. destruct X1 as (kv0 & <- & X1).
    rewrite <- cr_pline. intros Y. apply without_cr_incl in Y. rewrite Forall_forall in NL. exact (nl_pline _ (NL _ X1) Y). }
  assert (JR : In (bs "References", without_cr (join_byte (ni_References n) " "%byte)) (map crv (kvs_of (printed n) fh nh))).
  { apply in_map_iff. exists (bs "References", join_byte (ni_References n) " "%byte). split; [reflexivity|]. unfold kvs_of.
    apply in_or_app. right. apply in_or_app. right. apply in_or_app. left. right. right. left. reflexivity. }
  apply SEP in JR. clear SEP H1 H2 NL.
  rewrite values_crv, kvs_values in A, B, C, D1, E1, G1, I1, J, K, L, M, O.
  change (ni_StorePath (printed n)) with (ni_StorePath n) in *. change (ni_URL (printed n)) with (ni_URL n) in *.
  change (ni_Compression (printed n)) with (ni_Compression n) in *. change (ni_NarSize (printed n)) with (ni_NarSize n) in *.
  change (ni_References (printed n)) with (ni_References n) in *. change (ni_Deriver (printed n)) with (ni_Deriver n) in *.
  change (ni_System (printed n)) with (ni_System n) in *. change (ni_Signatures (printed n)) with (ni_Signatures n) in *.
  change (ni_CA (printed n)) with (ni_CA n) in *.
  set (pf := ni_FileHash (printed n)) in *. set (pz := ni_FileSize (printed n)) in *.
  rewrite !values_cons in A, B, C, D1, E1, G1, I1, J, K, L, M, O. unfold values in A, B, C, D1, E1, G1, I1, J, K, L, M, O.
  cbn [filter map] in A, B, C, D1, E1, G1, I1, J, K, L, M, O. beqs.
  assert (Z : forall l : list bytes, match pf with None => l | Some _ => l end = l) by (destruct pf; reflexivity).
  rewrite Z in A, B, C, G1, I1, J, K, L, M, O. cbn [app] in *. rewrite app_nil_r in *.
  destruct P as [P1 P2 P3 P4 P5 P6 P7 P8].
  unfold lossless, narinfo_form.
  split; [apply one_line_text; [exact P1|symmetry; exact A]|]. split; [apply one_line_text; [exact P2|symmetry; exact B]|].
  assert (CN : ni_Compression n <> []).
  { intros X. rewrite X in C. cbn in C. discriminate C. }
  assert (CC : without_cr (ni_Compression n) = ni_Compression n).
  { cbn [map last] in C. destruct (without_cr (ni_Compression n)) as [|c co] eqn:EC; [|congruence]. exfalso.
    rewrite C in EC. cbv in EC. discriminate EC. }
  split; [apply one_line_text; [exact P3|exact CC]|]. split; [exact CN|].
  split.
  { destruct pf as [f|] eqn:EF.
    - destruct (Fh f eq_refl) as (Ff & Fz). cbn [map] in D1, E1.
      inversion D1 as [|? f' ? l D3 D4]; subst. inversion D4; subst. inversion E1 as [|? z ? l E3 E4]; subst. inversion E4; subst. cbn [map last] in D2, E2.
      rewrite line_text_cr in D3 by exact F1. rewrite line_text_cr in E3 by apply digits_line.
      assert (EP : ni_FileHash n = Some f /\ pz = ni_FileSize n).
      { revert EF. unfold pf, pz, printed. proj. destruct (ni_FileHash n); [|discriminate]. destruct (negb _); [|discriminate]. auto. }
      destruct EP as (EP1 & EP2). rewrite EP1. assert (f' = f) by congruence. subst f'. split; [exists fh; auto|].
      rewrite <- EP2. apply ParseUint_iff in E3. destruct E3 as (_ & E3). rewrite E2 in EP2. rewrite EP2. split; [|exact E3]. rewrite <- EP2. destruct pz; [congruence|reflexivity].
    - cbn [app map] in D1, E1. inversion D1; subst. inversion E1; subst. cbn [map last] in D2, E2. rewrite D2. exact E2. }
  split. { exists h. split; [exact Hh|]. exists nh. split; [exact Nh|]. cbn [map] in G1. inversion G1 as [|? f' ? l G3 G4]; subst. inversion G4; subst. cbn [map last] in G2.
    rewrite line_text_cr in G3 by exact F2. congruence. }
  split. { cbn [map] in I1. inversion I1 as [|? z ? l I3 I4]; subst. cbn [map] in *. inversion I4; subst. cbn [last] in I2.
    rewrite line_text_cr in I3 by apply digits_line. apply ParseUint_iff in I3. rewrite I2. apply I3. }
  split. { cbn [map concat] in J. rewrite app_nil_r in J. set (j := join_byte (ni_References n) " "%byte) in *.
    assert (JJ : without_cr j = j).
    { destruct (without_cr_cases j) as [X|X]; [exact X|]. exfalso. assert (Y : join_byte (ni_References n) " "%byte = without_cr j).
      { rewrite J. destruct (without_cr j); [reflexivity|]. apply split_join. }
      fold j in Y. rewrite Y in X at 1. apply (f_equal (@length byte)) in X. rewrite app_length in X. cbn in X. lia. }
    rewrite JJ in *. split; [|split].
    - apply Forall_impl with (2 := P4). intros x Hx. apply Hx.
    - apply one_line_text; [exact JR|exact JJ].
    - intros X. unfold j in J. rewrite X in J. cbn in J. discriminate J. }
  split. { apply one_line_text; [exact P5|]. destruct (ni_Deriver n) as [|c d]; [reflexivity|]. cbn [map filter] in K.
    destruct (beq (without_cr (c :: d)) (bs "unknown-deriver")); cbn [negb last] in K; [discriminate|congruence]. }
  split. { intros X. rewrite X in K. vm_compute in K. discriminate K. }
  split. { apply one_line_text; [exact P6|]. eapply opt_cr; [exact L|reflexivity]. }
  split. { apply one_line_text; [exact P7|]. eapply opt_cr; [exact O|reflexivity]. }
  exact P8.
Qed.

(** * Parsed hashes are readable (C98) *)
Lemma ParseAny_prefix a e d n : digest_size a = Some n -> ParseAny (hash_prefix a e true ++ body e d) None = parse_rest a true (is_SRI e) (body e d).
Proof.
  intros Hw. destruct (name_sep _ _ Hw) as [[N1 N2] N3]. destruct (body_sep e d) as [B1 B2]. unfold ParseAny, hash_prefix. destruct (is_SRI e) eqn:Es.
  - rewrite <- app_assoc. change (bs "-" ++ body e d) with ("-"%byte :: body e d). rewrite index_pos_none.
    2:{ rewrite in_app_iff. intros [H|[H|H]]; [auto|discriminate|auto]. }
    rewrite index_pos_first by auto. destruct (HashProps.split_at (algo_name a) (body e d) "-"%byte) as [X Y]. rewrite X, Y, (ParseAlgorithm_name _ _ Hw). reflexivity.
  - rewrite <- app_assoc. change (bs ":" ++ body e d) with (":"%byte :: body e d).
    rewrite index_pos_first by auto. destruct (HashProps.split_at (algo_name a) (body e d) ":"%byte) as [X Y]. rewrite X, Y, (ParseAlgorithm_name _ _ Hw). reflexivity.
Qed.
Lemma b64_go_reencode s d : b64_decode_go s = Ok d -> length (b64_encode d) = length s.
Proof.
  rewrite b64_encode_length. revert d. induction s as [|a|a b|a b c|a b c d0 s IH] using list_ind4; intros d; try (cbn [b64_decode_go]; discriminate).
  - intros [= <-]. reflexivity.
  - cbn [b64_decode_go]. destruct (b64_val a), (b64_val b); try discriminate. destruct (b64_val c).
    + destruct (b64_val d0).
      * destruct (b64_decode_go s) as [r| |]; try discriminate. cbn [rbind]. intros [= <-].
        specialize (IH r eq_refl). unfold b64_EncodedLen in *. cbn [length]. rewrite <- IH.
        replace (S (S (S (length r))) + 2) with (length r + 2 + 1 * 3) by lia. rewrite Nat.div_add by discriminate. lia.
      * destruct (byte_eqb d0 pad_char); [destruct s|]; try discriminate. intros [= <-]. reflexivity.
    + destruct (_ && _); [destruct s|]; try discriminate. intros [= <-]. reflexivity.
Qed.
Lemma b64_reencode s d : ~ In x0a s -> ~ In x0d s -> b64_decode s = Ok d -> length (b64_encode d) = length s.
Proof.
  intros N1 N2 H. unfold b64_decode in H. rewrite filter_id in H; [exact (b64_go_reencode s d H)|]. apply Forall_forall. intros c Hc.
  unfold is_newline. destruct (byte_eqb_spec c x0a) as [->|]; [tauto|]. destruct (byte_eqb_spec c x0d) as [->|]; [tauto|]. reflexivity.
Qed.
Lemma parsed_readable v h : ParseAny v None = Ok h -> ~ In x0a v -> ~ In x0d v -> readable_hash h.
Proof.
  intros H N1 N2. apply ParseAny_inv in H. destruct H as (t & b & Hs & H & _ & HI & Hb).
  assert (I1 : he_incl h = true) by (destruct (he_incl h); [reflexivity|discriminate (HI eq_refl)]). clear HI.
  assert (T1 : ~ In x0a t) by (intros X; apply N1; rewrite Hs; apply in_or_app; auto).
  assert (T2 : ~ In x0d t) by (intros X; apply N2; rewrite Hs; apply in_or_app; auto).
  pose proof H as H0. apply parse_rest_inv in H0. destruct H0 as (n & d & e0 & Hn & Hr & H1 & H2).
  assert (K : known_encoding (he_enc h) = true).
  { rewrite Hr. cbn [he_enc]. destruct b; [reflexivity|]. destruct H2 as [(-> & _)|[(-> & _)|(-> & _)]]; reflexivity. }
  exists (hash_prefix (h_algo (he_hash h)) (he_enc h) true ++ body (he_enc h) (h_digest (he_hash h))). split.
  { unfold he_String. rewrite I1. eapply Format_ok; eauto. }
  rewrite (ParseAny_prefix _ _ _ n) by exact Hn. rewrite Hb, Hr in *. cbn [he_hash he_enc he_incl h_algo h_digest] in *. subst.
  set (a := h_algo (he_hash h)) in *. rewrite I1 in *. assert (Z : algo_Size a = Ok n) by (apply size_spec; exact Hn).
  destruct H2 as [(-> & L & D)|[(-> & L & D)|(-> & L & D)]].
  - destruct b; [discriminate (H1 eq_refl)|]. cbn [body]. unfold parse_rest. rewrite Z. cbn [rbind].
    assert (X : length (hex_encode d) = hex_EncodedLen n).
    { rewrite hex_encode_length. apply hex_decode_length in D. lia. }
    rewrite X, Nat.eqb_refl, hex_roundtrip. reflexivity.
  - destruct b; [discriminate (H1 eq_refl)|]. cbn [body]. apply decode_iff_encode in D. rewrite D. exact H.
  - assert (X : length (b64_encode d) = b64_EncodedLen n) by (rewrite <- L; apply b64_reencode; assumption).
    assert (Y : body (if b then SRI else Base64) d = b64_encode d) by (destruct b; reflexivity). rewrite Y.
    unfold parse_rest. rewrite Z. cbn [rbind]. rewrite X.
    assert (Hne : Nat.eqb (b64_EncodedLen n) (hex_EncodedLen n) = false /\ Nat.eqb (b64_EncodedLen n) (EncodedLen n) = false).
    { destruct a; cbn in Hn; try discriminate Hn; injection Hn as <-; vm_compute; auto. }
    destruct Hne as [-> ->]. rewrite Nat.eqb_refl, b64_roundtrip. cbn [rbind]. destruct b; reflexivity.
Qed.

Lemma text_line_incl text l c : In l (text_lines text) -> In c l -> In c text.
Proof.
  intros H X. unfold text_lines in H. apply filter_In in H. destruct H as [H _]. apply in_map_iff in H. destruct H as (y & <- & H).
  unfold lines_of in H. apply drop_last_incl in H. apply without_cr_incl in X. eapply in_split; eauto.
Qed.
Lemma value_incl text kvs k v c : Forall2 (fun l kv => key_value l (fst kv) (snd kv)) (text_lines text) kvs ->
  In v (values k kvs) -> In c v -> In c text.
Proof.
  intros H1 H2 Hc. apply values_in in H2. destruct (Forall2_in _ _ _ _ H1 H2) as (l & A & [B _]). cbn [fst snd] in B.
  eapply text_line_incl; [exact A|]. rewrite B. apply in_or_app. right. apply in_or_app. right. exact Hc.
Qed.
Lemma reference_values ls kvs : Forall2 (fun l kv => key_value l (fst kv) (snd kv)) ls kvs ->
  length (values "References" kvs) = length (filter (fun l => has_prefix l (bs "References: ")) ls).
Proof.
  induction 1 as [|l [k v] ls kvs [E U] _ IH]; [reflexivity|]. cbn [fst snd] in *. rewrite values_cons. cbn [filter].
  assert (X : has_prefix l (bs "References: ") = beq k (bs "References")).
  { apply eq_true_iff_eq. rewrite has_prefix_iff, beq_eq. split.
    - intros (r & Hr). symmetry. apply (U (bs "References") r). exact Hr.
    - intros ->. exists v. exact E. }
  rewrite X. destruct (beq k (bs "References")); cbn [length]; rewrite IH; reflexivity.
Qed.
Lemma last_some {A} (l : list A) x : last (map Some l) None = Some x -> In x l.
Proof. intros H. apply last_in in H. destruct H as [H|H]; [discriminate|]. apply in_map_iff in H. destruct H as (y & E & H). congruence. Qed.

Lemma reads_lossless text n : reads text n -> ni_NarHash n <> None -> ~ In x0d text -> length (reference_lines text) <= 1 -> lossless (printed n).
Proof.
  intros HR HN NC RL. pose proof (reads_plain _ _ HR) as [P1 P2 P3 P4 P5 P6 P7 P8].
  destruct HR as (kvs & H1 & H2 & A & B & C & (fhs & D1 & D2) & (fss & E1 & E2) & (nhs & G1 & G2) & (nss & I1 & I2) & J & K & L & M & O).
  unfold reference_lines in RL. rewrite <- (reference_values _ _ H1) in RL.
  assert (V : forall k v, In v (values k kvs) -> ~ In x0d v) by (intros k v Hv X; apply NC; eapply value_incl; eauto).
  assert (LL : forall k, ~ In x0d (last (values k kvs) [])).
  { intros k X. destruct (last_in (values k kvs) [] _ eq_refl) as [Y|Y]; [rewrite Y in X; destruct X|exact (V _ _ Y X)]. }
  assert (LT : forall v, one_line v -> ~ In x0d v -> line_text v).
  { intros v [X1 X2] X3. split; [exact X1|]. split; [|exact X2]. intros p ->. apply X3. apply in_or_app. right. left. reflexivity. }
  assert (HH : forall vs hs h k, vs = values k kvs -> Forall2 (fun v h => ParseAny v None = Ok h) vs hs -> last (map Some hs) None = Some h -> readable_hash h).
  { intros vs hs h k -> X1 X2. apply last_some in X2. destruct (Forall2_in _ _ _ _ X1 X2) as (v & X3 & X4). eapply parsed_readable; [exact X4| |exact (V _ _ X3)].
    apply (values_one_line _ _ _ _ H1 X3). }
  assert (SZ : forall vs xs, Forall2 (fun v x => ParseUint v = Ok x) vs xs -> (last xs 0 < 2 ^ 64)%N).
  { intros vs xs X. destruct (last_in xs 0%N _ eq_refl) as [Y|Y]; [rewrite Y; reflexivity|]. destruct (Forall2_in _ _ _ _ X Y) as (v & _ & Z).
    apply ParseUint_iff in Z. apply Z. }
  unfold lossless, narinfo_form, printed. proj.
  split; [apply LT; [exact P1|rewrite A; apply LL]|]. split; [apply LT; [exact P2|rewrite B; apply LL]|].
  assert (C0 : ~ In x0d (ni_Compression n) /\ ni_Compression n <> []).
  { rewrite C. pose proof (LL "Compression"%string) as X. destruct (last (values "Compression" kvs) []); [|split; [exact X|discriminate]].
    split; [apply contains_byte_false; reflexivity|discriminate]. }
  split; [apply LT; [exact P3|apply C0]|]. split; [apply C0|]. split.
  { destruct (ni_FileHash n) as [f|] eqn:EF; [|reflexivity]. destruct (N.eqb_spec (ni_FileSize n) 0) as [Z|Z]; cbn [negb]; [reflexivity|].
    split; [eapply HH; [reflexivity|exact D1|rewrite <- D2; reflexivity]|]. split; [destruct (ni_FileSize n); [congruence|reflexivity]|]. rewrite E2. eapply SZ; exact E1. }
  split. { destruct (ni_NarHash n) as [h|]; [|congruence]. exists h. split; [reflexivity|]. eapply HH; [reflexivity|exact G1|rewrite <- G2; reflexivity]. }
  split; [rewrite I2; eapply SZ; exact I1|]. split.
  { split; [apply Forall_impl with (2 := P4); intros x Hx; apply Hx|].
    destruct (values "References" kvs) as [|v [|v' vs]] eqn:EV; [| |cbn in RL; lia].
    - rewrite J. split; [|discriminate]. apply LT; [exact one_line_nil|intros []].
    - cbn [map concat] in J. rewrite app_nil_r in J. assert (Hv : In v (values "References" kvs)) by (rewrite EV; left; reflexivity).
      destruct v as [|c v]; [rewrite J; split; [apply LT; [exact one_line_nil|intros []]|discriminate]|].
      rewrite J, split_join. split; [apply LT; [exact (values_one_line _ _ _ _ H1 Hv)|exact (V _ _ Hv)]|].
      intros X. apply (f_equal (fun l => join_byte l " "%byte)) in X. rewrite split_join in X. discriminate X. }
  assert (DI : ~ In x0d (ni_Deriver n) /\ ni_Deriver n <> bs "unknown-deriver").
  { rewrite K. match goal with |- ~ In _ (last ?l _) /\ _ => destruct (last_in l [] _ eq_refl) as [Y|Y] end.
    - rewrite Y. split; [intros []|discriminate].
    - apply filter_In in Y. destruct Y as [Y1 Y2]. split; [exact (V _ _ Y1)|]. intros X. rewrite X in Y2. discriminate Y2. }
  split; [apply LT; [exact P5|apply DI]|]. split; [apply DI|]. split; [apply LT; [exact P6|rewrite L; apply LL]|].
  split; [apply LT; [exact P7|rewrite O; apply LL]|]. exact P8.
Qed.

(** The exact condition, for any text that was read. *)
Lemma reads_lossless_iff text n : reads text n -> ni_NarHash n <> None ->
  (lossless (printed n) <->
   (forall v, In v [ni_StorePath n; ni_URL n; ni_Compression n; ni_Deriver n; ni_System n; ni_CA n] -> forall p, v <> p ++ [x0d]) /\
   line_text (join_byte (ni_References n) " "%byte) /\
   (forall h, In (Some h) [ni_FileHash (printed n); ni_NarHash n] -> readable_hash h)).
Proof.
  intros HR HN. pose proof (reads_plain _ _ HR) as [P1 P2 P3 P4 P5 P6 P7 P8].
  destruct HR as (kvs & H1 & H2 & A & B & C & (fhs & D1 & D2) & (fss & E1 & E2) & (nhs & G1 & G2) & (nss & I1 & I2) & J & K & L & M & O).
  split.
  - intros (L1 & L2 & L3 & L4 & L5 & (h & L6 & L6') & L7 & (L8a & L8b & L8c) & L9 & L10 & L11 & L12 & L13). split.
    { intros v [<-|[<-|[<-|[<-|[<-|[<-|[]]]]]]]; [apply L1|apply L2|apply L3|apply L9|apply L11|apply L12]. }
    split; [exact L8b|]. intros g [E|[E|[]]].
    + rewrite E in L5. apply L5.
    + change (ni_NarHash (printed n)) with (ni_NarHash n) in L6. rewrite L6 in E. injection E as ->. exact L6'.
  - intros (X1 & X2 & X3).
    assert (LT : forall v, one_line v -> (forall p, v <> p ++ [x0d]) -> line_text v) by (intros v [Y1 Y2] Y3; split; [exact Y1|]; split; [exact Y3|exact Y2]).
    assert (SZ : forall vs xs, Forall2 (fun v x => ParseUint v = Ok x) vs xs -> (last xs 0 < 2 ^ 64)%N).
    { intros vs xs X. destruct (last_in xs 0%N _ eq_refl) as [Y|Y]; [rewrite Y; reflexivity|]. destruct (Forall2_in _ _ _ _ X Y) as (v & _ & Z).
      apply ParseUint_iff in Z. apply Z. }
    unfold lossless, narinfo_form. 
    split; [apply LT; [exact P1|apply X1; cbn; auto 10]|]. split; [apply LT; [exact P2|apply X1; cbn; auto 10]|]. split; [apply LT; [exact P3|apply X1; cbn; auto 10]|].
    split. { change (ni_Compression n <> []). rewrite C. destruct (last (values "Compression" kvs) []); discriminate. }
    split. { destruct (ni_FileHash (printed n)) as [f|] eqn:EF.
      - split; [apply X3; left; reflexivity|]. revert EF. unfold printed. proj. destruct (ni_FileHash n) as [f'|]; [|discriminate].
        destruct (N.eqb_spec (ni_FileSize n) 0) as [Z|Z]; cbn [negb]; [discriminate|]. intros _. split; [destruct (ni_FileSize n); [congruence|reflexivity]|]. rewrite E2. eapply SZ; exact E1.
      - revert EF. unfold printed. proj. destruct (ni_FileHash n) as [f'|]; [|reflexivity]. destruct (N.eqb_spec (ni_FileSize n) 0); cbn [negb]; [reflexivity|discriminate]. }
    split. { change (ni_NarHash (printed n)) with (ni_NarHash n). destruct (ni_NarHash n) as [h|] eqn:EN; [|congruence]. exists h. split; [reflexivity|]. apply X3. right. left. reflexivity. }
    split; [change (ni_NarSize n < 2 ^ 64)%N; rewrite I2; eapply SZ; exact I1|]. split.
    { change (reference_list (ni_References n)). split; [apply Forall_impl with (2 := P4); intros x Hx; apply Hx|]. split; [exact X2|]. rewrite J. clear.
      intros E. induction (values "References" kvs) as [|v vs IH]; [discriminate E|]. cbn [map concat] in E. destruct v as [|c v]; [exact (IH E)|].
      destruct (split_byte (c :: v) " "%byte) as [|a l] eqn:S; [|].
      - pose proof (split_join (c :: v) " "%byte) as Q. rewrite S in Q. discriminate Q.
      - cbn [app] in E. injection E as -> E. apply app_eq_nil in E. destruct E as [-> _]. pose proof (split_join (c :: v) " "%byte) as Q. rewrite S in Q. discriminate Q. }
    split; [apply LT; [exact P5|apply X1; cbn; auto 10]|]. split.
    { change (ni_Deriver n <> bs "unknown-deriver"). rewrite K. match goal with |- last ?l _ <> _ => destruct (last_in l [] _ eq_refl) as [Y|Y] end.
      - rewrite Y. discriminate.
      - apply filter_In in Y. destruct Y as [_ Y2]. intros X. rewrite X in Y2. discriminate Y2. }
    split; [apply LT; [exact P6|apply X1; cbn; auto 10]|]. split; [apply LT; [exact P7|apply X1; cbn; auto 10]|]. exact P8.
Qed.
