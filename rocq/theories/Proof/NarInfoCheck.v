From Verif Require Import Base.Bytes Base.BytesFacts Model.GoIO Model.GoStd Model.Scanner Model.Nixbase32 Model.Nixhash Model.Storepath
  Model.Signature Model.NarInfo Spec.HashSpec Spec.StorePathSpec Spec.SignatureSpec Spec.NarInfoSpec Proof.Codec Proof.Base32Facts Proof.Base32Props Proof.HashProps
  Proof.StorePathProps Proof.SignatureProps Proof.ScannerProps Proof.NarInfoProps Proof.NarInfoMore.
Ltac Zify.zify_post_hook ::= idtac.

(** * Fingerprint *)
Lemma refs_join rs f : rs <> [] ->
  let g := f ++ concat (map (fun ref => StoreDir ++ bs "/" ++ ref ++ bs ",") rs) in
  firstn (length g - 1) g = f ++ join_byte (map (fun r => bs "/nix/store/" ++ r) rs) ","%byte.
Proof.
  intros H g. assert (E : concat (map (fun ref => StoreDir ++ bs "/" ++ ref ++ bs ",") rs) =
    join_byte (map (fun r => bs "/nix/store/" ++ r) rs) ","%byte ++ [","%byte]).
  { destruct rs as [|r rs]; [congruence|]. clear. revert r. induction rs as [|r' rs IH]; intros r.
    - cbn [map concat]. rewrite app_nil_r. cbn [join_byte]. rewrite <- app_assoc. reflexivity.
    - cbn [map concat] in IH |- *. rewrite IH. cbn [join_byte]. change (bs ",") with [","%byte]. rewrite <- !app_assoc. reflexivity. }
  unfold g. rewrite E, app_assoc, app_length. cbn [length]. rewrite Nat.add_sub, firstn_app, Nat.sub_diag, firstn_all. apply app_nil_r.
Qed.
Lemma Fingerprint_eq n h : ni_NarHash n = Some h -> wf_hash (he_hash h) -> exists s,
  Format (he_hash h) NixBase32 true = Ok s /\
  Fingerprint n = Ok (fingerprint_text (ni_StorePath n) s (FormatUint (ni_NarSize n)) (ni_References n)).
Proof.
  intros E W. destruct (parse_format (he_hash h) NixBase32 true None W eq_refl) as (s & A & B); [auto|]. exists s. split; [exact A|].
  unfold Fingerprint. rewrite E, A. cbn [rbind]. unfold fingerprint_text. pose proof (refs_join (ni_References n)) as R.
  destruct (ni_References n) as [|r rs].
  - cbn [map join_byte]. rewrite app_nil_r. reflexivity.
  - rewrite R by discriminate. f_equal. rewrite <- !app_assoc. reflexivity.
Qed.
Lemma cut_at (c : byte) a : forall b x y, ~ In c a -> ~ In c b -> a ++ c :: x = b ++ c :: y -> a = b /\ x = y.
Proof.
  induction a as [|u a IH]; intros [|v b] x y Ha Hb E; cbn [app] in E.
  - injection E as E. auto.
  - injection E as E1 E2. exfalso. apply Hb. left. congruence.
  - injection E as E1 E2. exfalso. apply Ha. left. congruence.
  - injection E as E1 E2. subst v. destruct (IH b x y) as [-> ->]; auto; intros X; [apply Ha|apply Hb]; right; exact X.
Qed.
Lemma hash_semi h s : wf_hash h -> Format h NixBase32 true = Ok s -> ~ In ";"%byte s.
Proof.
  intros W A. rewrite (Format_ok h NixBase32 true _ W eq_refl) in A. apply ok_inj in A. subst s. intros H. apply in_app_or in H. destruct H as [H|H].
  - apply contains_byte_iff in H. unfold wf_hash in W. destruct (h_algo h); try discriminate W; discriminate H.
  - revert H. apply body_free; reflexivity.
Qed.
Lemma digits_semi n : ~ In ";"%byte (FormatUint n).
Proof.
  intros H. pose proof (FormatUint_digits n) as D. rewrite Forall_forall in D. apply D in H. vm_compute in H. destruct H as [_ H]. apply H. reflexivity.
Qed.
Lemma Format_inj h h' s : wf_hash h -> wf_hash h' -> Format h NixBase32 true = Ok s -> Format h' NixBase32 true = Ok s -> h = h'.
Proof.
  intros W W' A B. destruct (parse_format h NixBase32 true None W eq_refl) as (x & A1 & A2); [auto|].
  destruct (parse_format h' NixBase32 true None W' eq_refl) as (y & B1 & B2); [auto|].
  assert (x = s) by congruence. assert (y = s) by congruence. subst x y. congruence.
Qed.
Lemma map_pre_inj (p : bytes) a : forall b, map (fun r => p ++ r) a = map (fun r => p ++ r) b -> a = b.
Proof.
  induction a as [|x a IH]; intros [|y b] H; try discriminate; [reflexivity|]. cbn [map] in H. injection H as H1 H2. apply app_inv_head in H1.
  rewrite H1, (IH b H2). reflexivity.
Qed.
Lemma Fingerprint_inj a b f : fingerprintable a -> fingerprintable b -> Fingerprint a = Ok f -> Fingerprint b = Ok f ->
  ni_StorePath a = ni_StorePath b /\ option_map he_hash (ni_NarHash a) = option_map he_hash (ni_NarHash b) /\
  ni_NarSize a = ni_NarSize b /\ ni_References a = ni_References b.
Proof.
  intros (A1 & (h & A2 & A3) & A4 & A5) (B1 & (h' & B2 & B3) & B4 & B5) Fa Fb.
  destruct (Fingerprint_eq a h A2 A3) as (s & S1 & S2). destruct (Fingerprint_eq b h' B2 B3) as (t & T1 & T2).
  rewrite S2 in Fa. rewrite T2 in Fb. apply ok_inj in Fa. apply ok_inj in Fb. subst f. unfold fingerprint_text in Fb.
  apply app_inv_head in Fb. symmetry in Fb. change (bs ";") with [";"%byte] in Fb. cbn [app] in Fb.
  apply cut_at in Fb; [|exact A1|exact B1]. destruct Fb as [E1 Fb].
  apply cut_at in Fb; [|exact (hash_semi _ _ A3 S1)|exact (hash_semi _ _ B3 T1)]. destruct Fb as [E2 Fb].
  apply cut_at in Fb; [|apply digits_semi|apply digits_semi]. destruct Fb as [E3 Fb].
  split; [exact E1|]. split; [rewrite A2, B2; cbn; f_equal; apply (Format_inj _ _ s A3 B3 S1); rewrite E2; exact T1|].
  split; [apply FormatUint_inj; assumption|].
  assert (NC : forall l, Forall (fun r => ~ In ","%byte r) l -> Forall (fun r => ~ In ","%byte r) (map (fun r => bs "/nix/store/" ++ r) l)).
  { intros l H. apply Forall_map. apply Forall_impl with (2 := H). intros r Hr X. apply in_app_or in X. destruct X as [X|X]; [|exact (Hr X)].
    apply contains_byte_iff in X. discriminate X. }
  destruct (ni_References a) as [|r rs] eqn:Ra, (ni_References b) as [|r' rs'] eqn:Rb.
  - reflexivity.
  - exfalso. destruct rs'; discriminate Fb.
  - exfalso. destruct rs; discriminate Fb.
  - apply (f_equal (fun x => split_byte x ","%byte)) in Fb. rewrite !join_split in Fb by (try discriminate; apply NC; assumption).
    apply map_pre_inj in Fb. exact Fb.
Qed.

(** * Check *)
Lemma check_refs_ok l : check_refs l = Ok tt <-> Forall (fun r => exists sp, FromString r = Ok sp) l.
Proof.
  induction l as [|r l IH]; cbn [check_refs]; [split; auto|]. destruct (FromString r) as [sp|e|w] eqn:E.
  - rewrite IH. split; [intros H; constructor; eauto|intros H; inversion H; assumption].
  - split; [discriminate|]. intros H. inversion H as [|? ? (sp & X) _]; subst. congruence.
  - split; [discriminate|]. intros H. inversion H as [|? ? (sp & X) _]; subst. congruence.
Qed.
Lemma check_refs_no_panic l : is_panic (check_refs l) = false.
Proof.
  induction l as [|r l IH]; cbn [check_refs]; [reflexivity|]. pose proof (FromString_no_panic r) as P. destruct (FromString r); [exact IH|reflexivity|discriminate].
Qed.
Lemma algo_eqb_eq a b : algo_eqb a b = true <-> a = b.
Proof.
  destruct a, b; cbn; split; intros H; try reflexivity; try discriminate; [apply N.eqb_eq in H; congruence|injection H as ->; apply N.eqb_refl].
Qed.
Definition tail_check (n : narinfo) : res unit :=
  if negb (beq (ni_Compression n) (bs "none")) then Ok tt
      else if (0 <? ni_FileSize n)%N && negb (N.eqb (ni_FileSize n) (ni_NarSize n))
      then Err (EMsg "FileSize/NarSize differs")
      else match ni_FileHash n, ni_NarHash n with
           | Some fh, Some nh =>
               if negb (algo_eqb (h_algo (he_hash fh)) (h_algo (he_hash nh))) then
                 let* _ := algo_String (h_algo (he_hash fh)) in
                 let* _ := algo_String (h_algo (he_hash nh)) in
                 Err (EMsg "FileHash/NarHash type differ")
               else if negb (beq (h_digest (he_hash fh)) (h_digest (he_hash nh)))
               then Err (EMsg "FileHash/NarHash differs")
               else Ok tt
           | _, _ => Ok tt
           end.
Lemma tail_ok n : tail_check n = Ok tt <-> consistent n.
Proof.
  unfold tail_check, consistent. destruct (beq_spec (ni_Compression n) (bs "none")) as [E|E]; cbn [negb].
  2:{ split; [intros _ X; contradiction|reflexivity]. }
  assert (S : ((0 <? ni_FileSize n)%N && negb (ni_FileSize n =? ni_NarSize n)%N = false) <-> (ni_FileSize n <> 0%N -> ni_FileSize n = ni_NarSize n)).
  { destruct (N.ltb_spec 0 (ni_FileSize n)), (N.eqb_spec (ni_FileSize n) (ni_NarSize n)); cbn; split; intros; try reflexivity; try assumption; try discriminate; try lia. }
  destruct (_ && _) eqn:Es.
  - split; [discriminate|]. intros X. destruct (X E) as [X1 _]. apply S in X1. discriminate.
  - split.
    + intros H _. split; [apply S; reflexivity|]. intros f h Ef Eh. revert H. rewrite Ef, Eh. destruct (algo_eqb _ _) eqn:Ea; cbn [negb].
      * destruct (beq_spec (h_digest (he_hash f)) (h_digest (he_hash h))) as [Eb|]; cbn [negb]; [|discriminate]. intros _.
        apply algo_eqb_eq in Ea. destruct (he_hash f), (he_hash h). cbn in *. congruence.
      * destruct (algo_String (h_algo (he_hash f))); cbn [rbind]; try discriminate. destruct (algo_String (h_algo (he_hash h))); discriminate.
    + intros X. destruct (X E) as [_ X2]. destruct (ni_FileHash n) as [f|], (ni_NarHash n) as [h|]; try reflexivity.
      rewrite (X2 f h eq_refl eq_refl). replace (algo_eqb (h_algo (he_hash h)) (h_algo (he_hash h))) with true by (symmetry; apply algo_eqb_eq; reflexivity).
      rewrite beq_refl. reflexivity.
Qed.
Lemma Check_eq n : Check n =
  match FromAbsolutePath (ni_StorePath n) with
  | Panic w => Panic w
  | Err _ => Err (EMsg "invalid StorePath")
  | Ok _ =>
      let* _ := check_refs (ni_References n) in
      let* _ := match ni_Deriver n with
                | [] => Ok tt
                | d => match FromString d with
                       | Ok _ => Ok tt
                       | Err _ => Err (EMsg "invalid Deriver")
                       | Panic w => Panic w
                       end
                end in tail_check n
  end.
Proof. reflexivity. Qed.
Lemma Check_iff n : Check n = Ok tt <->
  (exists sp, FromAbsolutePath (ni_StorePath n) = Ok sp) /\
  Forall (fun r => exists sp, FromString r = Ok sp) (ni_References n) /\
  (ni_Deriver n = [] \/ exists sp, FromString (ni_Deriver n) = Ok sp) /\ consistent n.
Proof.
  rewrite Check_eq, <- tail_ok, <- check_refs_ok.
  destruct (FromAbsolutePath (ni_StorePath n)) as [sp|e|w].
  2,3: split; [discriminate|intros ((sp & X) & _); discriminate].
  destruct (check_refs (ni_References n)) as [[]|e|w]; cbn [rbind].
  2,3: split; [discriminate|intros (_ & X & _); discriminate].
  destruct (ni_Deriver n) as [|c d].
  - cbn [rbind]. split; [intros H; repeat split; eauto|intros (_ & _ & _ & H); exact H].
  - destruct (FromString (c :: d)) as [sp'|e|w]; cbn [rbind].
    + split; [intros H; repeat split; eauto|intros (_ & _ & _ & H); exact H].
    + split; [discriminate|intros (_ & _ & [X|(x & X)] & _); discriminate].
    + split; [discriminate|intros (_ & _ & [X|(x & X)] & _); discriminate].
Qed.
Lemma Check_no_panic n : known_algorithms n -> is_panic (Check n) = false.
Proof.
  intros K. rewrite Check_eq. pose proof (FromAbsolutePath_no_panic (ni_StorePath n)) as P1.
  destruct (FromAbsolutePath (ni_StorePath n)); try reflexivity; try discriminate.
  pose proof (check_refs_no_panic (ni_References n)) as P2. destruct (check_refs (ni_References n)); cbn [rbind]; try reflexivity; try discriminate.
  assert (P3 : is_panic (tail_check n) = false).
  { unfold tail_check. destruct (negb (beq _ _)); [reflexivity|]. destruct (_ && _); [reflexivity|].
    destruct (ni_FileHash n) as [f|] eqn:Ef, (ni_NarHash n) as [h|] eqn:Eh; try reflexivity.
    pose proof (K f (or_introl Ef)) as Kf. pose proof (K h (or_intror Eh)) as Kh.
    destruct (negb (algo_eqb _ _)).
    - destruct (h_algo (he_hash f)), (h_algo (he_hash h)); try reflexivity; (exfalso; apply Kf; reflexivity) || (exfalso; apply Kh; reflexivity).
    - destruct (negb _); reflexivity. }
  destruct (ni_Deriver n) as [|c d]; cbn [rbind]; [exact P3|].
  pose proof (FromString_no_panic (c :: d)) as P4. destruct (FromString (c :: d)); cbn [rbind]; [exact P3|reflexivity|discriminate].
Qed.
Lemma last_in {A} (l : list A) d x : last l d = x -> x = d \/ In x l.
Proof. intros <-. destruct l as [|a l]; [left; reflexivity|]. right. destruct (@exists_last A (a :: l)) as (p & y & E); [discriminate|]. rewrite E, last_last. apply in_or_app. right. left. reflexivity. Qed.
Lemma reads_known text n : reads text n -> known_algorithms n.
Proof.
  intros (kvs & _ & _ & _ & _ & _ & (hs & F1 & F2) & _ & (hs' & N1 & N2) & _) h H.
  assert (K : forall vs hs, Forall2 (fun v h => ParseAny v None = Ok h) vs hs -> last (map Some hs) None = Some h -> digest_size (h_algo (he_hash h)) <> None).
  { intros vs l F E. apply last_in in E. destruct E as [E|E]; [discriminate|]. apply in_map_iff in E. destruct E as (x & E & I). injection E as ->.
    clear - F I. induction F as [|v y vs l P F IH]; [destruct I|]. destruct I as [->|I]; [|exact (IH I)].
    apply ParseAny_inv in P. destruct P as (t & b & _ & P & _). apply parse_rest_inv in P. destruct P as (k & d & e0 & Hn & _). congruence. }
  destruct H as [H|H]; [apply (K _ _ F1); congruence|apply (K _ _ N1); congruence].
Qed.
