(** A fingerprint of a narinfo with proper store paths determines any narinfo that has it. *)
From Verif Require Import Base.Bytes Base.BytesFacts Model.GoIO Model.GoStd Model.Scanner Model.Nixbase32 Model.Nixhash Model.Storepath
  Model.Signature Model.NarInfo Spec.HashSpec Spec.StorePathSpec Spec.SignatureSpec Spec.NarInfoSpec Spec.RefSpec Spec.PipelineSpec
  Proof.Codec Proof.Base32Facts Proof.Base32Props Proof.HashProps
  Proof.StorePathProps Proof.SignatureProps Proof.ScannerProps Proof.NarInfoProps Proof.NarInfoMore Proof.NarInfoCheck Proof.JsonRead.
Ltac Zify.zify_post_hook ::= idtac.

Notation count l := (count_occ byte_eq_dec l ";"%byte).
Lemma Fingerprint_any n f : Fingerprint n = Ok f -> exists h a, ni_NarHash n = Some h /\ algo_String (h_algo (he_hash h)) = Ok a /\
  f = fingerprint_text (ni_StorePath n) (a ++ bs ":" ++ EncodeToString (h_digest (he_hash h))) (FormatUint (ni_NarSize n)) (ni_References n).
Proof.
  unfold Fingerprint. destruct (ni_NarHash n) as [h|] eqn:E; [|discriminate]. unfold Format. cbn [orb].
  destruct (algo_String (h_algo (he_hash h))) as [a|e|w] eqn:A; cbn [rbind]; try discriminate. intros H. exists h, a. split; [reflexivity|]. split; [exact A|].
  unfold fingerprint_text. pose proof (refs_join (ni_References n)) as R. destruct (ni_References n) as [|r rs].
  - injection H as <-. cbn [map join_byte]. rewrite app_nil_r. rewrite <- !app_assoc. reflexivity.
  - rewrite R in H by discriminate. apply ok_inj in H. rewrite <- H. rewrite <- !app_assoc. reflexivity.
Qed.
Lemma algo_String_inj a b x y s t : algo_String a = Ok x -> algo_String b = Ok y -> x ++ bs ":" ++ EncodeToString s = y ++ bs ":" ++ EncodeToString t -> a = b /\ s = t.
Proof.
  intros A B E. assert (K : forall a x, algo_String a = Ok x -> ~ In ":"%byte x).
  { clear. intros [| | | |k] x H; cbn in H; try discriminate H; injection H as <-; intros X; apply contains_byte_iff in X; discriminate X. }
  change (bs ":") with [":"%byte] in E. cbn [app] in E. apply cut_at in E; [|exact (K _ _ A)|exact (K _ _ B)]. destruct E as [-> E].
  split.
  - destruct a, b; cbn in A, B; try discriminate A; try discriminate B; try reflexivity; rewrite <- A in B; discriminate B.
  - pose proof (Base32Props.decode_encode s) as D. pose proof (Base32Props.decode_encode t) as D2. congruence.
Qed.
Lemma in_split_first (c : byte) l : In c l -> exists a b, l = a ++ c :: b /\ ~ In c a.
Proof.
  induction l as [|x l IH]; [intros []|]. intros H. destruct (byte_eq_dec x c) as [->|D]; [exists [], l; split; [reflexivity|intros []]|].
  destruct H as [H|H]; [congruence|]. destruct (IH H) as (a & b & -> & N). exists (x :: a), b. split; [reflexivity|]. intros [X|X]; [congruence|exact (N X)].
Qed.
Lemma refs_cut (l : list bytes) : forall m : list bytes, (forall r, In r l -> ~ occurs (bs ",/nix/store/") r) -> Forall (fun r => ~ In ","%byte r) m ->
  join_byte (map (fun r : bytes => bs "/nix/store/" ++ r) l) ","%byte = join_byte (map (fun r : bytes => bs "/nix/store/" ++ r) m) ","%byte -> l = m.
Proof.
  set (P := bs "/nix/store/"). assert (PC : ~ In ","%byte P) by (intros X; apply contains_byte_iff in X; discriminate X).
  assert (J : forall (r : bytes) (l : list bytes), exists t, join_byte (map (fun r : bytes => P ++ r) (r :: l)) ","%byte = P ++ r ++ t /\
    (l = [] /\ t = [] \/ l <> [] /\ t = ","%byte :: join_byte (map (fun r : bytes => P ++ r) l) ","%byte)).
  { clear. intros r l. destruct l as [|u l]; cbn [map join_byte].
    - exists []. rewrite app_nil_r. auto.
    - eexists. split; [rewrite <- app_assoc; reflexivity|]. right. split; [discriminate|reflexivity]. }
  induction l as [|r l IH]; intros m H M E.
  - destruct m as [|y m]; [reflexivity|]. destruct (J y m) as (t & T & _). rewrite T in E. discriminate E.
  - destruct m as [|y m]; [destruct (J r l) as (t & T & _); rewrite T in E; discriminate E|].
    destruct (J r l) as (t & T & TC), (J y m) as (u & U & UC). rewrite T, U in E. apply app_inv_head in E. inversion M as [|? ? M1 M2]; subst.
    assert (R : ~ In ","%byte r).
    { intros X. apply in_split_first in X. destruct X as (a & b & -> & NA). rewrite <- app_assoc in E. cbn [app] in E.
      destruct UC as [(-> & ->)|(NM & ->)].
      - rewrite app_nil_r in E. apply M1. rewrite <- E. apply in_or_app. right. left. reflexivity.
      - apply cut_at in E; [|exact NA|exact M1]. destruct E as [-> E]. destruct m as [|z m]; [congruence|]. destruct (J z m) as (v & V & _). rewrite V in E.
        apply (H (y ++ ","%byte :: b)); [left; reflexivity|]. 
        assert (LE : length P <= length b).
        { destruct (le_lt_dec (length P) (length b)) as [|LT]; [assumption|exfalso]. apply (f_equal (firstn (S (length b)))) in E.
          rewrite (firstn_app _ P) in E. replace (S (length b) - length P) with 0 in E by lia. rewrite firstn_O, app_nil_r in E.
          destruct TC as [(_ & ->)|(_ & ->)].
          - rewrite app_nil_r in E. rewrite firstn_all2 in E by lia. apply (f_equal (@length byte)) in E. rewrite firstn_length in E. lia.
          - rewrite firstn_app, firstn_all2 in E by lia. replace (S (length b) - length b) with 1 in E by lia. remember (S (length b)) as q. cbn [firstn] in E.
            apply PC. assert (Q : In ","%byte (firstn q P)) by (rewrite <- E; apply in_or_app; right; left; reflexivity).
            rewrite <- (firstn_skipn q P). apply in_or_app. left. exact Q. }
        apply (f_equal (firstn (length P))) in E. rewrite (firstn_app _ P), Nat.sub_diag, firstn_O, app_nil_r, (firstn_all P) in E. rewrite firstn_app in E.
        replace (length P - length b) with 0 in E by lia. rewrite firstn_O, app_nil_r in E.
        exists y, (skipn (length P) b). change (bs ",/nix/store/") with (","%byte :: P). cbn [app]. do 2 f_equal. pose proof (firstn_skipn (length P) b) as FS. rewrite E in FS. symmetry. exact FS. }
    destruct TC as [(-> & ->)|(NL & ->)], UC as [(-> & ->)|(NM & ->)]; rewrite ?app_nil_r in E.
    + congruence.
    + exfalso. apply R. rewrite E. apply in_or_app. right. left. reflexivity.
    + exfalso. apply M1. rewrite <- E. apply in_or_app. right. left. reflexivity.
    + apply cut_at in E; [|exact R|exact M1]. destruct E as [-> E]. f_equal. apply IH; [intros q Q; apply H; right; exact Q|exact M2|exact E].
Qed.
Lemma claim_of_text n m f : signable m -> (ni_NarSize n < 2 ^ 64)%N -> (forall r, In r (ni_References n) -> ~ occurs (bs ",/nix/store/") r) ->
  Fingerprint n = Ok f -> Fingerprint m = Ok f -> same_claim n m.
Proof.
  intros (M1 & M2 & M3) N1 N2 F G. destruct (Fingerprint_any n f F) as (h & a & H & A & ->), (Fingerprint_any m _ G) as (h' & a' & H' & A' & E). unfold fingerprint_text in E.
  assert (AS : forall k x, algo_String k = Ok x -> ~ In ";"%byte x).
  { clear. intros [| | | |k] x H; cbn in H; try discriminate H; injection H as <-; intros X; apply contains_byte_iff in X; discriminate X. }
  assert (HS : forall k x (h : hash_enc), algo_String k = Ok x -> ~ In ";"%byte (x ++ bs ":" ++ EncodeToString (h_digest (he_hash h)))).
  { intros k x g K X. apply in_app_or in X. destruct X as [X|X]; [exact (AS _ _ K X)|]. apply in_app_or in X. destruct X as [X|X]; [apply contains_byte_iff in X; discriminate X|].
    revert X. apply (body_free _ NixBase32); reflexivity. }
  assert (CR : ~ In ";"%byte (join_byte (map (fun r : bytes => bs "/nix/store/" ++ r) (ni_References m)) ","%byte)).
  { clear - M3. induction (ni_References m) as [|r l IH]; [intros []|]. inversion M3 as [|? ? (R1 & R2) M]; subst. specialize (IH M).
    assert (NP : ~ In ";"%byte (bs "/nix/store/" ++ r)). { intros X. apply in_app_or in X. destruct X as [X|X]; [apply contains_byte_iff in X; discriminate X|exact (R2 X)]. }
    cbn [map]. destruct (map (fun r : bytes => bs "/nix/store/" ++ r) l) eqn:ML; cbn [join_byte]; [exact NP|]. intros X. apply in_app_or in X. destruct X as [X|[X|X]]; [exact (NP X)|discriminate X|exact (IH X)]. }
  assert (NS : ~ In ";"%byte (ni_StorePath n)).
  { pose proof (f_equal (fun x => count x) E) as C. cbn beta in C. rewrite !count_occ_app in C. pose proof CR as CR'. unfold bytes in C, CR'.
    rewrite (proj1 (count_occ_not_In byte_eq_dec (ni_StorePath m) _) M1) in C. rewrite (proj1 (count_occ_not_In byte_eq_dec _ _) CR') in C.
    rewrite (proj1 (count_occ_not_In byte_eq_dec (FormatUint (ni_NarSize n)) _) (digits_semi _)) in C. rewrite (proj1 (count_occ_not_In byte_eq_dec (FormatUint (ni_NarSize m)) _) (digits_semi _)) in C.
    pose proof (HS _ _ h' A') as Z. rewrite (count_occ_not_In byte_eq_dec), !count_occ_app in Z. rewrite Z in C.
    change (count (bs "1;")) with 1 in C. change (count (bs ";")) with 1 in C. apply (count_occ_not_In byte_eq_dec). lia. }
  apply app_inv_head in E. change (bs ";") with [";"%byte] in E. cbn [app] in E.
  apply cut_at in E; [|exact NS|exact M1]. destruct E as [E1 E]. apply cut_at in E; [|exact (HS _ _ _ A)|exact (HS _ _ _ A')]. destruct E as [E2 E].
  apply cut_at in E; [|apply digits_semi|apply digits_semi]. destruct E as [E3 E].
  destruct (algo_String_inj _ _ _ _ _ _ A A' E2) as [E4 E5].
  split; [exact E1|]. split; [rewrite H, H'; cbn; f_equal; destruct (he_hash h), (he_hash h'); cbn in E4, E5; congruence|].
  split; [apply FormatUint_inj; assumption|]. apply refs_cut; [exact N2| |exact E]. apply Forall_impl with (2 := M3). intros r (X & _). exact X.
Qed.
Lemma parsed_size r n : Parse r = Ok n -> (ni_NarSize n < 2 ^ 64)%N.
Proof.
  intros H. apply Parse_sound in H. destruct H as (_ & (kvs & _ & _ & _ & _ & _ & _ & _ & _ & (xs & X1 & X2) & _) & _). rewrite X2.
  assert (F : Forall (fun x => (x < 2 ^ 64)%N) xs). { clear - X1. induction X1 as [|v x vs l P F IH]; constructor; [|exact IH]. apply ParseUint_iff in P. apply P. }
  destruct xs as [|x xs] using rev_ind; [reflexivity|]. rewrite last_last. apply Forall_app in F. destruct F as [_ F]. inversion F; assumption.
Qed.
