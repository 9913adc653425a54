(** Which narinfos have the fingerprint of a proper one. *)
From Verif Require Import Base.Bytes Base.BytesFacts Model.GoIO Model.GoStd Model.Scanner Model.Nixbase32 Model.Nixhash Model.Storepath
  Model.Signature Model.NarInfo Spec.HashSpec Spec.StorePathSpec Spec.SignatureSpec Spec.NarInfoSpec Spec.RefSpec Spec.PipelineSpec Spec.GlueSpec
  Proof.Codec Proof.Base32Facts Proof.Base32Props Proof.HashProps
  Proof.StorePathProps Proof.SignatureProps Proof.ScannerProps Proof.NarInfoProps Proof.NarInfoMore Proof.NarInfoCheck Proof.NarInfoVerify.
Ltac Zify.zify_post_hook ::= idtac.

Definition in_store (r : bytes) : bytes := bs "/nix/store/" ++ r.
Definition comma : byte := ","%byte.
Lemma in_store_free r : ~ In comma r -> ~ In comma (in_store r).
Proof. intros N X. apply in_app_or in X. destruct X as [X|X]; [apply contains_byte_iff in X; discriminate X|exact (N X)]. Qed.
Lemma in_store_inj a b : in_store a = in_store b -> a = b.
Proof. apply app_inv_head. Qed.
Lemma join_app (c : byte) a b : a <> [] -> b <> [] -> join_byte (a ++ b) c = join_byte a c ++ c :: join_byte b c.
Proof.
  intros A B. induction a as [|x a IH]; [congruence|]. destruct a as [|y a].
  - cbn [app]. destruct b as [|z b]; [congruence|]. reflexivity.
  - change ((x :: y :: a) ++ b) with (x :: (y :: a) ++ b). cbn [app join_byte] in IH |- *. rewrite IH by discriminate. rewrite <- app_assoc. reflexivity.
Qed.
Lemma glue_join g : g <> [] -> in_store (glue g) = join_byte (map in_store g) comma.
Proof.
  induction g as [|r g IH]; [congruence|]. intros _. destruct g as [|s g]; [reflexivity|]. specialize (IH ltac:(discriminate)).
  change (glue (r :: s :: g)) with (r ++ bs ",/nix/store/" ++ glue (s :: g)). change (map in_store (r :: s :: g)) with ([in_store r] ++ map in_store (s :: g)).
  rewrite join_app by discriminate. rewrite <- IH. cbn [join_byte]. unfold in_store. rewrite <- app_assoc. reflexivity.
Qed.
Lemma join_groups groups : ~ In [] groups -> join_byte (map in_store (map glue groups)) comma = join_byte (map in_store (concat groups)) comma.
Proof.
  induction groups as [|g groups IH]; [reflexivity|]. intros N. assert (G : g <> []) by (intros ->; apply N; left; reflexivity). specialize (IH (fun X => N (or_intror X))).
  cbn [map concat]. rewrite map_app. destruct groups as [|g' groups].
  - cbn [map concat join_byte]. rewrite app_nil_r. apply glue_join, G.
  - rewrite join_app; [|destruct g; [congruence|discriminate]|].
    + change (in_store (glue g) :: map in_store (map glue (g' :: groups))) with ([in_store (glue g)] ++ map in_store (map glue (g' :: groups))).
      rewrite join_app by discriminate. rewrite IH. cbn [join_byte]. rewrite glue_join by exact G. reflexivity.
    + cbn [concat]. destruct g' as [|x g']; [elim N; right; left; reflexivity|discriminate].
Qed.
Lemma split_groups l : l <> [] -> split_byte (join_byte l comma) comma = concat (map (fun x => split_byte x comma) l).
Proof.
  intros NE. assert (J : forall l, l <> [] -> concat (map (fun x => split_byte x comma) l) <> [] /\ join_byte (concat (map (fun x => split_byte x comma) l)) comma = join_byte l comma).
  { clear. induction l as [|x l IH]; [congruence|]. intros _. cbn [map concat]. pose proof (split_byte_nonnil x comma) as S. split; [destruct (split_byte x comma); [congruence|discriminate]|].
    destruct l as [|y l]; [cbn [map concat]; rewrite app_nil_r; apply split_join|]. destruct (IH ltac:(discriminate)) as (I1 & I2).
    rewrite join_app by assumption. rewrite I2, split_join. reflexivity. }
  destruct (J l NE) as (J1 & J2). rewrite <- J2. apply join_split; [exact J1|]. apply Forall_concat. apply Forall_map. apply Forall_forall. intros x _. apply split_no_sep.
Qed.
Lemma groups_of l : forall m, map in_store m = concat (map (fun r => split_byte (in_store r) comma) l) -> glued m l.
Proof.
  induction l as [|r l IH]; intros m E.
  - cbn in E. destruct m; [|discriminate E]. exists []. cbn. auto.
  - cbn [map concat] in E. apply map_eq_app in E. destruct E as (g & m' & -> & E1 & E2).
    destruct (IH m') as (gs & N & C & M); [exact E2|]. exists (g :: gs). assert (G : g <> []) by (intros ->; exact (split_byte_nonnil _ _ (eq_sym E1))).
    split; [intros [X|X]; [exact (G X)|exact (N X)]|]. split; [cbn [concat]; rewrite C; reflexivity|]. cbn [map]. rewrite M. f_equal.
    apply in_store_inj. rewrite glue_join by exact G. rewrite E1. apply split_join.
Qed.
Lemma glued_iff m l : Forall (fun r => ~ In comma r) m ->
  (join_byte (map in_store l) comma = join_byte (map in_store m) comma <-> glued m l).
Proof.
  intros F. split.
  - intros E. destruct l as [|r l].
    + destruct m as [|x m]; [exists []; cbn; auto|]. exfalso. symmetry in E. cbn [map join_byte] in E. destruct m; [discriminate E|]. cbn [map] in E. discriminate E.
    + destruct m as [|x m].
      { exfalso. cbn [map join_byte] in E. destruct l; [discriminate E|]. cbn [map] in E. discriminate E. }
      apply groups_of. rewrite <- (join_split (map in_store (x :: m)) comma); [|discriminate|].
      * rewrite <- E. rewrite split_groups by discriminate. rewrite map_map. reflexivity.
      * apply Forall_map. apply Forall_impl with (2 := F). intros a. apply in_store_free.
  - intros (gs & N & <- & <-). apply join_groups, N.
Qed.
Lemma claim_parts n m f : signable m -> (ni_NarSize n < 2 ^ 64)%N -> Fingerprint n = Ok f -> Fingerprint m = Ok f ->
  ni_StorePath n = ni_StorePath m /\ option_map he_hash (ni_NarHash n) = option_map he_hash (ni_NarHash m) /\ ni_NarSize n = ni_NarSize m /\
  join_byte (map in_store (ni_References n)) comma = join_byte (map in_store (ni_References m)) comma.
Proof.
  intros (M1 & M2 & M3) N1 F G. destruct (Fingerprint_any n f F) as (h & a & H & A & ->), (Fingerprint_any m _ G) as (h' & a' & H' & A' & E). unfold fingerprint_text in E.
  assert (AS : forall k x, algo_String k = Ok x -> ~ In ";"%byte x).
  { clear. intros [| | | |k] x H; cbn in H; try discriminate H; injection H as <-; intros X; apply contains_byte_iff in X; discriminate X. }
  assert (HS : forall k x (h : hash_enc), algo_String k = Ok x -> ~ In ";"%byte (x ++ bs ":" ++ EncodeToString (h_digest (he_hash h)))).
  { intros k x g K X. apply in_app_or in X. destruct X as [X|X]; [exact (AS _ _ K X)|]. apply in_app_or in X. destruct X as [X|X]; [apply contains_byte_iff in X; discriminate X|].
    revert X. apply (body_free _ NixBase32); reflexivity. }
  assert (CR : ~ In ";"%byte (join_byte (map (fun r : bytes => bs "/nix/store/" ++ r) (ni_References m)) ","%byte)).
  { clear - M3. induction (ni_References m) as [|r l IH]; [intros []|]. inversion M3 as [|? ? (R1 & R2) M]; subst. specialize (IH M).
    assert (NP : ~ In ";"%byte (bs "/nix/store/" ++ r)). { intros X. apply in_app_or in X. destruct X as [X|X]; [apply contains_byte_iff in X; discriminate X|exact (R2 X)]. }
    cbn [map]. destruct (map (fun r : bytes => bs "/nix/store/" ++ r) l) eqn:ML; cbn [join_byte]; [exact NP|]. intros X. apply in_app_or in X. destruct X as [X|[X|X]]; [exact (NP X)|discriminate X|exact (IH X)]. }
  assert (NS : ~ In ";"%byte (ni_StorePath n)).
  { pose proof (f_equal (fun x => count x) E) as C. cbn beta in C. rewrite !count_occ_app in C. pose proof CR as CR'. unfold bytes in C, CR'.
    rewrite (proj1 (count_occ_not_In byte_eq_dec (ni_StorePath m) _) M1) in C. rewrite (proj1 (count_occ_not_In byte_eq_dec _ _) CR') in C.
    rewrite (proj1 (count_occ_not_In byte_eq_dec (FormatUint (ni_NarSize n)) _) (digits_semi _)) in C. rewrite (proj1 (count_occ_not_In byte_eq_dec (FormatUint (ni_NarSize m)) _) (digits_semi _)) in C.
    pose proof (HS _ _ h' A') as Z. rewrite (count_occ_not_In byte_eq_dec), !count_occ_app in Z. rewrite Z in C.
    change (count (bs "1;")) with 1 in C. change (count (bs ";")) with 1 in C. apply (count_occ_not_In byte_eq_dec). lia. }
  apply app_inv_head in E. change (bs ";") with [";"%byte] in E. cbn [app] in E.
  apply cut_at in E; [|exact NS|exact M1]. destruct E as [E1 E]. apply cut_at in E; [|exact (HS _ _ _ A)|exact (HS _ _ _ A')]. destruct E as [E2 E].
  apply cut_at in E; [|apply digits_semi|apply digits_semi]. destruct E as [E3 E].
  destruct (algo_String_inj _ _ _ _ _ _ A A' E2) as [E4 E5].
  split; [exact E1|]. split; [rewrite H, H'; cbn; f_equal; destruct (he_hash h), (he_hash h'); cbn in E4, E5; congruence|].
  split; [apply FormatUint_inj; assumption|]. exact E.
Qed.

Theorem fingerprint_glued n m f : signable m -> (ni_NarSize n < 2 ^ 64)%N -> Fingerprint m = Ok f ->
  (Fingerprint n = Ok f <-> ni_StorePath n = ni_StorePath m /\ option_map he_hash (ni_NarHash n) = option_map he_hash (ni_NarHash m) /\
     ni_NarSize n = ni_NarSize m /\ glued (ni_References m) (ni_References n)).
Proof.
  intros S N F. assert (C : Forall (fun r => ~ In comma r) (ni_References m)) by (apply Forall_impl with (2 := proj2 (proj2 S)); intros r (X & _); exact X). split.
  - intros G. destruct (claim_parts n m f S N G F) as (A & B & D & E). apply (glued_iff _ _ C) in E. auto.
  - intros (A & B & D & E). apply (glued_iff _ _ C) in E. destruct (Fingerprint_any m f F) as (h & a & H & K & ->). rewrite H in B. destruct (ni_NarHash n) as [h'|] eqn:H'; [|discriminate B]. cbn [option_map] in B.
    assert (B' : he_hash h' = he_hash h) by congruence. assert (X : exists g, Fingerprint n = Ok g).
    { unfold Fingerprint. rewrite H', B'. unfold Format. cbn [orb]. rewrite K. cbn [rbind]. destruct (ni_References n); eexists; reflexivity. }
    destruct X as (g & X). rewrite X. destruct (Fingerprint_any n g X) as (h2 & a2 & H2 & K2 & ->). assert (h2 = h') by congruence. subst h2.
    rewrite B' in K2 |- *. assert (a2 = a) by congruence. subst a2. unfold fingerprint_text. rewrite A, D. f_equal. repeat match goal with |- ?a ++ _ = ?a ++ _ => apply (f_equal (app a)) end. exact E.
Qed.
