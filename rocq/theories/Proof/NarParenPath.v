(** Nothing comes after an entry called ")": said of the paths of the headers (C28, C113). *)
From Coq Require Import Sorted.
From Verif Require Import Base.Bytes Base.BytesFacts Model.GoStd Model.Nar Spec.WireSpec Spec.NarSpec Spec.NarParenSpec
  Proof.NarPath Proof.NarReaderFacts Proof.NarSession Proof.NarReaderBad Proof.NarParenLast.
Ltac Zify.zify_post_hook ::= idtac.

(** * Components *)
Definition endp (c : list bytes) : Prop := exists c', c = c' ++ [bs ")"].
Definition below (c d : list bytes) : Prop := exists e, e <> [] /\ d = c ++ e.
Definition clear (c d : list bytes) : Prop := endp c -> below c d.

Lemma ss_app {A} (R : A -> A -> Prop) l1 l2 :
  StronglySorted R (l1 ++ l2) <-> StronglySorted R l1 /\ StronglySorted R l2 /\ (forall x y, In x l1 -> In y l2 -> R x y).
Proof.
  induction l1 as [|a l1 IH]; cbn [app].
  - split; [intros H; split; [constructor|split; [exact H|intros x y []]]|intros (_ & H & _); exact H].
  - split.
    + intros H. inversion H as [|? ? H1 H2]; subst. apply Forall_app in H2. destruct H2 as [H2 H3]. apply IH in H1. destruct H1 as (H1 & H4 & H5).
      split; [constructor; assumption|]. split; [exact H4|]. intros x y [->|Hx] Hy; [rewrite Forall_forall in H3; auto|auto].
    + intros (H1 & H2 & H3). inversion H1 as [|? ? H4 H5]; subst. constructor.
      * apply IH. split; [exact H4|]. split; [exact H2|]. intros x y Hx Hy. apply H3; [right; exact Hx|exact Hy].
      * apply Forall_app. split; [exact H5|]. apply Forall_forall. intros y Hy. apply H3; [left; reflexivity|exact Hy].
Qed.
Lemma cp_ext t : forall cs x, In x (cpaths cs t) -> exists e, x = cs ++ e.
Proof.
  induction t as [b c|tg|es IH] using node_ind2; intros cs x H; cbn [cpaths In] in H; (destruct H as [<-|H]; [exists []; symmetry; apply app_nil_r|]); try destruct H.
  apply in_concat in H. destruct H as (l & Hl & Hx). apply in_map_iff in Hl. destruct Hl as (e & <- & He). rewrite Forall_forall in IH.
  destruct (IH e He _ _ Hx) as (z & ->). exists ([fst e] ++ z). apply app_assoc_reverse.
Qed.
Lemma cp_root cs t : In cs (cpaths cs t).
Proof. destruct t; left; reflexivity. Qed.
Lemma bad_in t : bad t = true -> forall cs, exists x, In x (cpaths cs t) /\ endp x.
Proof.
  induction t as [b c|tg|es IH] using node_ind2; intros H cs; try discriminate. cbn [bad] in H. apply existsb_exists in H.
  destruct H as (e & He & H). rewrite Forall_forall in IH. apply orb_true_iff in H.
  assert (Q : exists x, In x (cpaths (cs ++ [fst e]) (snd e)) /\ endp x).
  { destruct H as [H|H]; [|apply (IH e He H)]. apply beq_eq in H. rewrite H. eexists. split; [apply cp_root|]. exists cs. reflexivity. }
  destruct Q as (x & Hx & E). exists x. split; [|exact E]. cbn [cpaths]. right. apply in_concat. eexists. split; [|exact Hx].
  apply in_map_iff. exists e. auto.
Qed.
Lemma in_bad t : forall cs x, In x (cpaths cs t) -> endp x -> x = cs \/ bad t = true.
Proof.
  induction t as [b c|tg|es IH] using node_ind2; intros cs x H E; cbn [cpaths In] in H; (destruct H as [<-|H]; [left; reflexivity|]); try destruct H.
  right. apply in_concat in H. destruct H as (l & Hl & Hx). apply in_map_iff in Hl. destruct Hl as (e & <- & He). rewrite Forall_forall in IH.
  cbn [bad]. apply existsb_exists. exists e. split; [exact He|]. apply orb_true_iff.
  destruct (IH e He _ _ Hx E) as [->|B]; [left|right; exact B]. destruct E as (c' & E). apply app_inj_tail in E. destruct E as [_ ->]. apply beq_refl.
Qed.
Lemma lastp_paths t : forall cs, lastp t <-> StronglySorted clear (cpaths cs t).
Proof.
  induction t as [b c|tg|es IH] using node_ind2; intros cs; try (split; [intros _; repeat constructor|intros _; exact I]).
  rewrite lastp_dir. cbn [cpaths].
  assert (Q : lasts es <-> StronglySorted clear (concat (map (fun e => cpaths (cs ++ [fst e]) (snd e)) es))).
  { induction IH as [|e es He _ IHes]; cbn [lasts map concat]; [split; [constructor|exact (fun _ => I)]|].
    rewrite ss_app, <- IHes, <- (He (cs ++ [fst e])). clear He IHes. split.
    - intros (H1 & H2 & H3). split; [exact H1|]. split; [exact H3|]. intros x y Hx Hy E. exfalso.
      assert (B : ebad e = true).
      { unfold ebad. apply orb_true_iff. destruct (in_bad _ _ _ Hx E) as [->|B]; [left|right; exact B].
        destruct E as (c' & E). apply app_inj_tail in E. destruct E as [_ ->]. apply beq_refl. }
      rewrite (H2 B) in Hy. destruct Hy.
    - intros (H1 & H3 & H2). split; [exact H1|]. split; [|exact H3]. intros B. destruct es as [|e2 es]; [reflexivity|]. exfalso.
      assert (X : exists x, In x (cpaths (cs ++ [fst e]) (snd e)) /\ endp x).
      { unfold ebad in B. apply orb_true_iff in B. destruct B as [B|B]; [|apply bad_in; exact B]. apply beq_eq in B. rewrite B.
        eexists. split; [apply cp_root|]. exists cs. reflexivity. }
      destruct X as (x & Hx & E). destruct (cp_ext _ _ _ Hx) as (z & ->).
      destruct (H2 _ (cs ++ [fst e2]) Hx) as (w & W1 & W2); [|exact E|].
      + cbn [map concat]. apply in_app_iff. left. apply cp_root.
      + apply (f_equal (@length bytes)) in W2. rewrite !app_length in W2. cbn [length] in W2. destruct w; [congruence|cbn [length] in W2; lia]. }
  rewrite Q. split; [|intros H; inversion H; assumption]. intros H. constructor; [exact H|]. apply Forall_forall. intros y Hy _.
  apply in_concat in Hy. destruct Hy as (l & Hl & Hy). apply in_map_iff in Hl. destruct Hl as (e & <- & He). destruct (cp_ext _ _ _ Hy) as (z & ->).
  exists ([fst e] ++ z). split; [discriminate|]. apply app_assoc_reverse.
Qed.

(** * Texts *)
Lemma split_cut a c b : split_byte (a ++ c :: b) c = split_byte a c ++ split_byte b c.
Proof.
  induction a as [|x a IH]; cbn [app split_byte].
  - rewrite byte_eqb_refl. reflexivity.
  - destruct (byte_eqb x c); [cbn [app]; rewrite IH; reflexivity|]. rewrite IH. pose proof (split_byte_nonnil a c). destruct (split_byte a c); [congruence|reflexivity].
Qed.
Lemma join_two c : forall a b, a <> [] -> b <> [] -> join_byte (a ++ b) c = join_byte a c ++ c :: join_byte b c.
Proof.
  induction a as [|x a IH]; intros b Ha Hb; [congruence|]. destruct a as [|y a].
  - cbn [app]. destruct b; [congruence|reflexivity].
  - cbn [app] in *. change (join_byte (x :: y :: a ++ b) c) with (x ++ c :: join_byte (y :: a ++ b) c). rewrite IH by (discriminate || assumption).
    change (join_byte (x :: y :: a) c) with (x ++ c :: join_byte (y :: a) c). rewrite <- app_assoc. reflexivity.
Qed.
Lemma endp_text cs : comps_ok cs -> (endp cs <-> exists q, path_of cs = q ++ bs "/)").
Proof.
  intros Hc. split.
  - intros (c' & ->). destruct c' as [|x c']; [exists []; reflexivity|]. exists (path_of (x :: c')). unfold path_of.
    rewrite join_two by discriminate. reflexivity.
  - intros (q & E). apply (f_equal (fun p => split_byte p slash)) in E. rewrite split_path_of in E by exact Hc.
    change (bs "/)") with (slash :: bs ")") in E. rewrite split_cut in E. change (split_byte (bs ")") slash) with [bs ")"] in E.
    destruct (split_byte q slash) as [|y l] eqn:S; [elim (split_byte_nonnil q slash S)|]. cbn [app] in E. injection E as _ E.
    destruct cs as [|x cs]; [|exists l; exact E]. destruct l as [|z l]; [|destruct l; discriminate E]. apply (f_equal (hd [])) in E. discriminate E.
Qed.
Lemma below_text cs ds : comps_ok cs -> comps_ok ds -> cs <> [] -> (below cs ds <-> exists z, path_of ds = path_of cs ++ bs "/" ++ z).
Proof.
  intros Hc Hd Hn. split.
  - intros (e & He & ->). exists (join_byte e slash). unfold path_of. rewrite join_two by assumption. reflexivity.
  - intros (z & E). apply (f_equal (fun p => split_byte p slash)) in E. change (bs "/" ++ z) with (slash :: z) in E.
    rewrite split_cut, !split_path_of in E by assumption. cbn [app] in E. destruct cs as [|c cs]; [congruence|].
    apply (f_equal (@tl bytes)) in E. cbn [tl] in E. exists (split_byte z slash). split; [apply split_byte_nonnil|].
    destruct ds as [|d ds]; [|exact E]. exfalso. destruct cs as [|c2 cs]; cbn [app] in E.
    + injection E as _ E. symmetry in E. exact (split_byte_nonnil _ _ E).
    + injection E as _ E. discriminate E.
Qed.
Lemma ss_split {A} (R : A -> A -> Prop) l : StronglySorted R l <-> forall l1 x l2, l = l1 ++ x :: l2 -> Forall (R x) l2.
Proof.
  split.
  - intros H l1 x l2 ->. apply ss_app in H. destruct H as (_ & H & _). inversion H; assumption.
  - induction l as [|a l IH]; intros H; constructor.
    + apply IH. intros l1 x l2 ->. apply (H (a :: l1)). reflexivity.
    + apply (H []). reflexivity.
Qed.
Lemma nothing_after t : wf_tree any_name t -> (nothing_after_paren (map fst (items [] t)) <-> lastp t).
Proof.
  intros Ht. rewrite (lastp_paths t []), ss_split. pose proof (cpaths_ok _ _ Ht [] (Forall_nil _)) as Ok.
  pose proof (items_cpaths t []) as E. rewrite <- map_map in E.
  assert (K : forall hs css, map hd_path hs = map path_of css -> Forall comps_ok css ->
    (nothing_after_paren hs <-> forall l1 x l2, css = l1 ++ x :: l2 -> Forall (clear x) l2)).
  { clear. intros hs css E Ok. split.
    - intros H l1 x l2 ->. apply Forall_app in Ok. destruct Ok as [_ Ok]. inversion Ok as [|? ? Ox O2]; subst.
      rewrite map_app in E. cbn [map] in E. apply map_eq_app in E. destruct E as (h1 & h2 & -> & E1 & E2).
      destruct h2 as [|h h2]; [discriminate|]. cbn [map] in E2. injection E2 as E2 E3. specialize (H h1 h h2 eq_refl).
      apply Forall_forall. intros y Hy Ex. assert (NE : x <> []) by (destruct Ex as (c' & ->); destruct c'; discriminate).
      rewrite Forall_forall in O2. apply below_text; [exact Ox|auto|exact NE|]. rewrite <- E2.
      assert (P : exists q, hd_path h = q ++ bs "/)") by (rewrite E2; apply endp_text; assumption). specialize (H P).
      assert (I : In (path_of y) (map hd_path h2)) by (rewrite E3; apply in_map; exact Hy).
      apply in_map_iff in I. destruct I as (g & <- & Hg). rewrite Forall_forall in H. apply H. exact Hg.
    - intros H l1 h l2 -> P. rewrite map_app in E. cbn [map] in E. symmetry in E. apply map_eq_app in E. destruct E as (c1 & c2 & -> & E1 & E2).
      destruct c2 as [|x c2]; [discriminate|]. cbn [map] in E2. injection E2 as E2 E3. specialize (H c1 x c2 eq_refl).
      apply Forall_app in Ok. destruct Ok as [_ Ok]. inversion Ok as [|? ? Ox O2]; subst.
      assert (Ex : endp x) by (apply endp_text; [exact Ox|rewrite E2; exact P]). assert (NE : x <> []) by (destruct Ex as (c' & ->); destruct c'; discriminate).
      apply Forall_forall. intros g Hg. assert (I : In (hd_path g) (map path_of c2)) by (rewrite E3; apply in_map; exact Hg).
      apply in_map_iff in I. destruct I as (y & <- & Hy). rewrite <- E2. rewrite Forall_forall in H, O2. apply below_text; [exact Ox|auto|exact NE|].
      apply H; assumption. }
  apply K; assumption.
Qed.
Lemma reader_good t : wf_tree reader_name t -> bad t = false.
Proof.
  induction t as [e c|tg|es IH] using node_ind2; intros H; inversion H as [| |? W1 W2 W3]; subst; try reflexivity.
  cbn [bad]. clear H W2. induction IH as [|e es He _ IHes]; [reflexivity|]. inversion W1 as [|? ? [_ A] W1']; inversion W3; subst. cbn [existsb].
  rewrite He by assumption. rewrite (proj2 (beq_neq (fst e) (bs ")")) A). cbn [orb]. auto.
Qed.
Lemma good_lastp t : bad t = false -> lastp t.
Proof.
  induction t as [e c|tg|es IH] using node_ind2; intros H; try exact I. rewrite lastp_dir. cbn [bad] in H.
  induction IH as [|e es He _ IHes]; [exact I|]. cbn [existsb] in H. apply orb_false_iff in H. destruct H as [H1 H2].
  cbn [lasts]. split; [apply He; apply orb_false_iff in H1; apply H1|]. split; [|auto]. unfold ebad. rewrite H1. discriminate.
Qed.
Lemma last_lastp t k : paren_last t k -> lastp t.
Proof.
  assert (A : forall es n t, Forall (fun e : bytes * node => reader_name (fst e) /\ wf_tree reader_name (snd e)) es -> lastp t -> lastp (Dir (es ++ [(n, t)]))).
  { intros es n u H Hu. rewrite lastp_dir. induction H as [|e es [H1 H2] _ IH]; cbn [app lasts].
    - cbn [snd]. repeat split; auto.
    - pose proof (reader_good _ H2) as B. split; [apply good_lastp; exact B|]. split; [|exact IH]. unfold ebad. rewrite B.
      rewrite (proj2 (beq_neq (fst e) (bs ")")) H1). discriminate. }
  induction 1; try exact I; apply A; assumption.
Qed.
Lemma listable_paths t : wf_tree any_name t -> (listable t <-> nothing_after_paren (map fst (items [] t))).
Proof.
  intros Ht. rewrite (nothing_after t Ht). split.
  - intros (_ & k & Hk). eapply last_lastp. exact Hk.
  - intros H. split; [exact Ht|]. apply last_of; assumption.
Qed.
