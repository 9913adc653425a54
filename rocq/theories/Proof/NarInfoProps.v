From Verif Require Import Base.Bytes Base.BytesFacts Model.GoIO Model.GoStd Model.Scanner Model.Nixhash Model.Storepath
  Model.Signature Model.NarInfo Spec.HashSpec Spec.SignatureSpec Spec.NarInfoSpec Proof.Codec Proof.HashProps
  Proof.StorePathProps Proof.SignatureProps Proof.ScannerProps.
Ltac Zify.zify_post_hook ::= idtac.

(** * splitOnce *)
Lemma index_sub_min s sub i p r : index_sub s sub = Some i -> s = p ++ sub ++ r -> i <= length p.
Proof.
  revert i p. induction s as [|x s IH]; intros i p; cbn [index_sub].
  - destruct (has_prefix [] sub); [intros [= <-]; lia|discriminate].
  - destruct (has_prefix (x :: s) sub) eqn:E; [intros [= <-]; lia|].
    destruct (index_sub s sub) as [k|] eqn:Ek; [|discriminate]. intros [= <-] Es.
    destruct p as [|y p]; cbn [app] in Es.
    + exfalso. rewrite Es, has_prefix_app in E. discriminate.
    + inversion Es; subst. cbn [length]. apply le_n_S. eapply IH; reflexivity.
Qed.
Lemma splitOnce_iff s k v : splitOnce s (bs ": ") = Ok (k, v) <-> key_value s k v.
Proof.
  unfold splitOnce, key_value. split.
  - destruct (index_sub s (bs ": ")) as [i|] eqn:Ei; [|discriminate].
    destruct (contains_sub (skipn (i + 1) s) (bs ": ")) eqn:Ec; [discriminate|]. intros H. apply ok_inj in H.
    pose proof (index_sub_some _ _ _ Ei) as (p & r & Es & Hp).
    assert (E1 : firstn i s = p) by (rewrite Es, <- Hp, firstn_app, firstn_all, Nat.sub_diag; apply app_nil_r).
    assert (E2 : skipn (i + length (bs ": ")) s = r).
    { rewrite Es, app_assoc. replace (i + length (bs ": ")) with (length (p ++ bs ": ")) by (rewrite app_length, Hp; reflexivity).
      rewrite skipn_app, skipn_all, Nat.sub_diag. reflexivity. }
    rewrite E1, E2 in H. inversion H; subst k v. split; [exact Es|].
    intros p' r' Es'. pose proof (index_sub_min _ _ _ _ _ Ei Es') as Hle.
    destruct (Nat.eq_dec (length p') i) as [Hq|Hq].
    + rewrite <- E1, Es', <- Hq, firstn_app, firstn_all, Nat.sub_diag. symmetry. apply app_nil_r.
    + exfalso. assert (Hc : contains_sub (skipn (i + 1) s) (bs ": ") = true).
      { apply contains_sub_iff. exists (skipn (i + 1) p'), r'. transitivity (skipn (i + 1) (p' ++ bs ": " ++ r')); [f_equal; exact Es'|]. rewrite skipn_app.
        replace (i + 1 - length p') with 0 by lia. reflexivity. }
      congruence.
  - intros [Es Hu]. destruct (index_sub s (bs ": ")) as [i|] eqn:Ei.
    + pose proof (index_sub_some _ _ _ Ei) as (p & r & Es' & Hp). pose proof (Hu _ _ Es') as Ek. subst p.
      destruct (contains_sub (skipn (i + 1) s) (bs ": ")) eqn:Ec.
      { exfalso. apply contains_sub_iff in Ec. destruct Ec as (p & q & E).
        assert (Es2 : s = (firstn (i + 1) s ++ p) ++ bs ": " ++ q) by (rewrite <- app_assoc, <- E; symmetry; apply firstn_skipn).
        apply Hu in Es2. apply (f_equal (@length byte)) in Es2. rewrite app_length, firstn_length in Es2.
        assert (L : length s = length k + (2 + length v)) by (rewrite Es, app_length; reflexivity). lia. }
      f_equal. rewrite Es. f_equal.
      * rewrite <- Hp, firstn_app, firstn_all, Nat.sub_diag. apply app_nil_r.
      * rewrite app_assoc. replace (i + length (bs ": ")) with (length (k ++ bs ": ")) by (rewrite app_length, Hp; reflexivity).
        rewrite skipn_app, skipn_all, Nat.sub_diag. reflexivity.
    + exfalso. assert (H : contains_sub s (bs ": ") = true) by (apply contains_sub_iff; eauto).
      unfold contains_sub in H. rewrite Ei in H. discriminate.
Qed.
Lemma key_value_intro k v : ~ In ":"%byte k -> (forall p r, v <> p ++ bs ": " ++ r) -> key_value (k ++ bs ": " ++ v) k v.
Proof.
  intros Hk Hv. split; [reflexivity|]. intros p r E. change (bs ": ") with [":"%byte; " "%byte] in *. cbn [app] in *.
  apply app_eq_app in E. destruct E as (l & [[A B]|[A B]]).
  - destruct l as [|c l]; [rewrite app_nil_r in A; congruence|]. exfalso. inversion B; subst. apply Hk. apply in_or_app. right. left. reflexivity.
  - destruct l as [|c l]; [rewrite app_nil_r in A; congruence|]. destruct l as [|c' l]; [inversion B|].
    exfalso. inversion B; subst. apply (Hv l r). reflexivity.
Qed.

(** * The fields *)
Definition apply_kv (n : narinfo) (k v : bytes) : res narinfo :=
  let '(NarInfo sp url co fh fs nh ns refs der sys sigs ca) := n in
      if beq k (bs "StorePath") then Ok (NarInfo v url co fh fs nh ns refs der sys sigs ca)
      else if beq k (bs "URL") then Ok (NarInfo sp v co fh fs nh ns refs der sys sigs ca)
      else if beq k (bs "Compression") then Ok (NarInfo sp url v fh fs nh ns refs der sys sigs ca)
      else if beq k (bs "FileHash") then
        let* h := ParseAny v None in Ok (NarInfo sp url co (Some h) fs nh ns refs der sys sigs ca)
      else if beq k (bs "FileSize") then
        let* x := ParseUint v in Ok (NarInfo sp url co fh x nh ns refs der sys sigs ca)
      else if beq k (bs "NarHash") then
        let* h := ParseAny v None in Ok (NarInfo sp url co fh fs (Some h) ns refs der sys sigs ca)
      else if beq k (bs "NarSize") then
        let* x := ParseUint v in Ok (NarInfo sp url co fh fs nh x refs der sys sigs ca)
      else if beq k (bs "References") then
        match v with
        | [] => Ok n
        | _ => Ok (NarInfo sp url co fh fs nh ns (refs ++ split_byte v " "%byte) der sys sigs ca)
        end
      else if beq k (bs "Deriver") then
        if negb (beq v (bs "unknown-deriver")) then Ok (NarInfo sp url co fh fs nh ns refs v sys sigs ca) else Ok n
      else if beq k (bs "System") then Ok (NarInfo sp url co fh fs nh ns refs der v sigs ca)
      else if beq k (bs "Sig") then
        let* s := ParseSignature v in Ok (NarInfo sp url co fh fs nh ns refs der sys (sigs ++ [s]) ca)
      else if beq k (bs "CA") then Ok (NarInfo sp url co fh fs nh ns refs der sys sigs v)
      else Err (EMsg "unknown key").
Lemma parse_line_eq n line : line <> [] ->
  parse_line n line = let* kv := splitOnce line (bs ": ") in apply_kv n (fst kv) (snd kv).
Proof.
  intros H. unfold parse_line, apply_kv. destruct n. destruct line as [|c line]; [congruence|].
  destruct (splitOnce (c :: line) (bs ": ")) as [[k v]|e|w]; reflexivity.
Qed.
Fixpoint apply_all (n : narinfo) (kvs : list (bytes * bytes)) : res narinfo :=
  match kvs with
  | [] => Ok n
  | kv :: kvs' => let* n := apply_kv n (fst kv) (snd kv) in apply_all n kvs'
  end.
Definition nonblank (ls : list bytes) := filter (fun l => negb (beq l [])) ls.
Lemma parse_lines_iff ls : forall n n', parse_lines n ls = Ok n' <->
  exists kvs, Forall2 (fun l kv => key_value l (fst kv) (snd kv)) (nonblank ls) kvs /\ apply_all n kvs = Ok n'.
Proof.
  induction ls as [|l ls IH]; intros n n'; cbn [parse_lines nonblank filter].
  - split; [intros H; exists []; split; [constructor|exact H]|]. intros (kvs & H & E). inversion H; subst. exact E.
  - destruct (beq l []) eqn:El; cbn [negb].
    + apply beq_eq in El. subst l. unfold parse_line. destruct n; cbn [rbind]. apply IH.
    + apply beq_neq in El. rewrite parse_line_eq by exact El. fold (nonblank ls). split.
      * destruct (splitOnce l (bs ": ")) as [[k v]|e|w] eqn:Es; cbn [rbind fst snd]; try discriminate.
        destruct (apply_kv n k v) as [n1|e|w] eqn:Ea; cbn [rbind]; try discriminate. intros H. apply IH in H.
        destruct H as (kvs & A & B). exists ((k, v) :: kvs). split; [constructor; [apply splitOnce_iff; exact Es|exact A]|].
        cbn [apply_all fst snd]. rewrite Ea. exact B.
      * intros (kvs & A & B). inversion A as [|? [k v] ? kvs' A1 A2]; subst. cbn [fst snd] in A1. apply splitOnce_iff in A1. rewrite A1.
        cbn [rbind fst snd]. cbn [apply_all fst snd] in B. destruct (apply_kv n k v) as [n1|e|w]; cbn [rbind] in *; try discriminate.
        apply IH. exists kvs'. auto.
Qed.

(** The equations of [reads], from an arbitrary start. *)
Definition ends (n : narinfo) (kvs : list (bytes * bytes)) (n' : narinfo) : Prop :=
    Forall (fun kv => In (fst kv) known_keys) kvs /\
    ni_StorePath n' = last (values "StorePath" kvs) (ni_StorePath n) /\
    ni_URL n' = last (values "URL" kvs) (ni_URL n) /\
    ni_Compression n' = last (values "Compression" kvs) (ni_Compression n) /\
    (exists hs, Forall2 (fun v h => ParseAny v None = Ok h) (values "FileHash" kvs) hs /\
       ni_FileHash n' = last (map Some hs) (ni_FileHash n)) /\
    (exists xs, Forall2 (fun v x => ParseUint v = Ok x) (values "FileSize" kvs) xs /\ ni_FileSize n' = last xs (ni_FileSize n)) /\
    (exists hs, Forall2 (fun v h => ParseAny v None = Ok h) (values "NarHash" kvs) hs /\
       ni_NarHash n' = last (map Some hs) (ni_NarHash n)) /\
    (exists xs, Forall2 (fun v x => ParseUint v = Ok x) (values "NarSize" kvs) xs /\ ni_NarSize n' = last xs (ni_NarSize n)) /\
    ni_References n' = ni_References n ++ concat (map (fun v => match v with [] => [] | _ => split_byte v " "%byte end) (values "References" kvs)) /\
    ni_Deriver n' = last (filter (fun v => negb (beq v (bs "unknown-deriver"))) (values "Deriver" kvs)) (ni_Deriver n) /\
    ni_System n' = last (values "System" kvs) (ni_System n) /\
    (exists ss, Forall2 (fun v s => ParseSignature v = Ok s) (values "Sig" kvs) ss /\ ni_Signatures n' = ni_Signatures n ++ ss) /\
    ni_CA n' = last (values "CA" kvs) (ni_CA n).

Lemma last_cons {A} (x : A) l d : last (x :: l) d = last l x.
Proof. revert x d. induction l as [|y l IH]; intros x d; [reflexivity|]. change (last (x :: y :: l) d) with (last (y :: l) d). rewrite (IH y d), (IH y x). reflexivity. Qed.
Lemma values_cons k k0 v kvs : values k ((k0, v) :: kvs) = if beq k0 (bs k) then v :: values k kvs else values k kvs.
Proof. unfold values. cbn [filter fst]. destruct (beq k0 (bs k)); reflexivity. Qed.

Lemma known_cases k : In k known_keys -> forall P : bytes -> Prop,
  P (bs "StorePath") -> P (bs "URL") -> P (bs "Compression") -> P (bs "FileHash") -> P (bs "FileSize") -> P (bs "NarHash") ->
  P (bs "NarSize") -> P (bs "References") -> P (bs "Deriver") -> P (bs "System") -> P (bs "Sig") -> P (bs "CA") -> P k.
Proof. intros H P **. cbn [known_keys map In] in H. repeat destruct H as [<-|H]; auto. destruct H. Qed.
Lemma apply_known n k v n1 : apply_kv n k v = Ok n1 -> In k known_keys.
Proof.
  unfold apply_kv. destruct n. unfold known_keys.
  repeat match goal with |- context [beq k ?x] => destruct (beq_spec k x) as [->|]; [intros _; cbn [map In]; tauto|] end. discriminate.
Qed.

Ltac beqs := repeat match goal with
  | |- context [beq (bs ?a) (bs ?b)] => let x := eval vm_compute in (beq (bs a) (bs b)) in change (beq (bs a) (bs b)) with x
  | H : context [beq (bs ?a) (bs ?b)] |- _ => let x := eval vm_compute in (beq (bs a) (bs b)) in change (beq (bs a) (bs b)) with x in H
  end; cbv iota in *.

Ltac proj := cbn [ni_StorePath ni_URL ni_Compression ni_FileHash ni_FileSize ni_NarHash ni_NarSize ni_References ni_Deriver ni_System ni_Signatures ni_CA] in *.
Lemma apply_all_iff kvs : forall n n', apply_all n kvs = Ok n' <-> ends n kvs n'.
Proof.
  induction kvs as [|[k v] kvs IH]; intros n n'.
  - cbn [apply_all]. unfold ends, values. cbn [filter map last concat]. split.
    + intros H. apply ok_inj in H. subst n'. rewrite !app_nil_r.
      repeat (split; [first [constructor|reflexivity|exists []; split; [constructor|cbn [map last]; rewrite ?app_nil_r; reflexivity]]|]). reflexivity.
    + intros (_ & A & B & C & (? & D1 & D2) & (? & E1 & E2) & (? & F1 & F2) & (? & G1 & G2) & I1 & J & K & (? & L1 & L2) & M).
      inversion D1; inversion E1; inversion F1; inversion G1; inversion L1; subst. cbn [map last] in *. rewrite app_nil_r in *.
      destruct n as [sp0 url0 co0 fh0 fs0 nh0 ns0 rf0 dv0 sy0 sg0 ca0], n' as [sp1 url1 co1 fh1 fs1 nh1 ns1 rf1 dv1 sy1 sg1 ca1]. cbn in *. congruence.
  - cbn [apply_all fst snd]. split.
    + destruct (apply_kv n k v) as [n1|e|w] eqn:Ea; cbn [rbind]; try discriminate. intros H. apply IH in H.
      pose proof (apply_known _ _ _ _ Ea) as Hk. destruct H as (Hks & H). unfold ends.
      split; [constructor; [exact Hk|exact Hks]|]. rewrite !values_cons.
      destruct H as (A & B & C & (hs & D1 & D2) & (xs & E1 & E2) & (hs' & F1 & F2) & (xs' & G1 & G2) & I1 & J & K & (ss & L1 & L2) & M).
      revert Ea. pattern k. apply (known_cases k Hk); clear k Hk; unfold apply_kv; destruct n as [sp0 url0 co0 fh0 fs0 nh0 ns0 rf0 dv0 sy0 sg0 ca0]; beqs; proj.
      1-3: intros Ea; apply ok_inj in Ea; subst n1; rewrite ?last_cons; eauto 30.
      * destruct (ParseAny v None) as [h|e|w] eqn:Ep; cbn [rbind]; try discriminate. intros Ea; apply ok_inj in Ea; subst n1.
        repeat (split; [solve [eauto | exists (h :: hs); split; [constructor; auto|cbn [map]; rewrite last_cons; exact D2]]|]). eauto.
      * destruct (ParseUint v) as [h|e|w] eqn:Ep; cbn [rbind]; try discriminate. intros Ea; apply ok_inj in Ea; subst n1.
        repeat (split; [solve [eauto | exists (h :: xs); split; [constructor; auto|rewrite last_cons; exact E2]]|]). eauto.
      * destruct (ParseAny v None) as [h|e|w] eqn:Ep; cbn [rbind]; try discriminate. intros Ea; apply ok_inj in Ea; subst n1.
        repeat (split; [solve [eauto | exists (h :: hs'); split; [constructor; auto|cbn [map]; rewrite last_cons; exact F2]]|]). eauto.
      * destruct (ParseUint v) as [h|e|w] eqn:Ep; cbn [rbind]; try discriminate. intros Ea; apply ok_inj in Ea; subst n1.
        repeat (split; [solve [eauto | exists (h :: xs'); split; [constructor; auto|rewrite last_cons; exact G2]]|]). eauto.
      * intros Ea. cbn [map concat]. destruct v as [|c v]; apply ok_inj in Ea; subst n1;
          proj;
          [cbn [app]; eauto 30|rewrite <- app_assoc in I1; eauto 30].
      * intros Ea. cbn [filter]. destruct (beq v (bs "unknown-deriver")); cbn [negb] in *; apply ok_inj in Ea; subst n1; rewrite ?last_cons;
          proj; eauto 30.
      * intros Ea; apply ok_inj in Ea; subst n1; rewrite ?last_cons; eauto 30.
      * destruct (ParseSignature v) as [h|e|w] eqn:Ep; cbn [rbind]; try discriminate. intros Ea; apply ok_inj in Ea; subst n1.
        cbn [ni_Signatures] in L2. rewrite <- app_assoc in L2. cbn [app] in L2.
        repeat (split; [solve [eauto | exists (h :: ss); split; [constructor; auto|exact L2]]|]). eauto.
      * intros Ea; apply ok_inj in Ea; subst n1; rewrite ?last_cons; eauto 30.
    + unfold ends. rewrite !values_cons. intros (Hks & H). inversion Hks as [|? ? Hk Hks']; subst. cbn [fst] in Hk.
      destruct H as (A & B & C & (hs & D1 & D2) & (xs & E1 & E2) & (hs' & F1 & F2) & (xs' & G1 & G2) & I1 & J & K & (ss & L1 & L2) & M).
      enough (G : exists n1, apply_kv n k v = Ok n1 /\ ends n1 kvs n').
      { destruct G as (n1 & Ga & Gb). rewrite Ga. cbn [rbind]. apply IH. exact Gb. }
      unfold ends.
      revert A B C D1 D2 E1 E2 F1 F2 G1 G2 I1 J K L1 L2 M. pattern k. apply (known_cases k Hk); clear k Hk Hks; unfold apply_kv; destruct n as [sp0 url0 co0 fh0 fs0 nh0 ns0 rf0 dv0 sy0 sg0 ca0]; beqs; intros.
      1-3: rewrite ?last_cons in *; eexists; split; [reflexivity|]; proj; eauto 30.
      * inversion D1 as [|? h ? hs0 P1 P2]; subst. rewrite P1. cbn [rbind map] in *. rewrite last_cons in D2. eexists; split; [reflexivity|]. eauto 30.
      * inversion E1 as [|? h ? hs0 P1 P2]; subst. rewrite P1. cbn [rbind map] in *. rewrite last_cons in E2. eexists; split; [reflexivity|]. eauto 30.
      * inversion F1 as [|? h ? hs0 P1 P2]; subst. rewrite P1. cbn [rbind map] in *. rewrite last_cons in F2. eexists; split; [reflexivity|]. eauto 30.
      * inversion G1 as [|? h ? hs0 P1 P2]; subst. rewrite P1. cbn [rbind map] in *. rewrite last_cons in G2. eexists; split; [reflexivity|]. eauto 30.
      * cbn [map concat] in I1. destruct v as [|c v]; (eexists; split; [reflexivity|]); cbn [ni_References app] in *; [eauto 30|].
        rewrite app_assoc in I1. eauto 30.
      * cbn [filter] in J. destruct (beq v (bs "unknown-deriver")); cbn [negb] in *; (eexists; split; [reflexivity|]); rewrite ?last_cons in J; cbn [ni_Deriver] in *; eauto 30.
      * rewrite ?last_cons in *; eexists; split; [reflexivity|]; eauto 30.
      * inversion L1 as [|? h ? hs0 P1 P2]; subst. rewrite P1. cbn [rbind map] in *. eexists; split; [reflexivity|].
        cbn [ni_Signatures] in *. change (h :: hs0) with ([h] ++ hs0) in L2. rewrite app_assoc in L2. eauto 30.
      * rewrite ?last_cons in *; eexists; split; [reflexivity|]; eauto 30.
Qed.
