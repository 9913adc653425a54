(** The text of a derivation determines the derivation. *)
From Verif Require Import Base.Bytes Base.BytesFacts Model.GoIO Model.GoStd Model.Nixhash Model.Storepath Model.Derivation Model.DrvParser Spec.StorePathSpec Spec.DerivationSpec
  Proof.StorePathProps Proof.DrvEncode Proof.DrvParse Proof.DrvRound Proof.DrvValidate Proof.DrvText.
Ltac Zify.zify_post_hook ::= idtac.

Definition code {A} (P : A -> Prop) (f : A -> bytes) : Prop :=
  forall x y r s, P x -> P y -> f x ++ r = f y ++ s -> x = y /\ r = s.
Lemma literal_code n : forall x y r s, length x <= n -> literal x -> literal y -> x ++ x22 :: r = y ++ x22 :: s -> x = y /\ r = s.
Proof.
  induction n as [|n IH]; intros x y r s L X Y E.
  - destruct x as [|c x]; [|cbn in L; lia]. destruct y as [|d y]; [injection E as E; auto|]. cbn [app] in E. injection E as <- E. cbn [literal] in Y. change (byte_eqb x22 "\"%byte) with false in Y. cbn in Y. destruct Y as [Y _]. congruence.
  - destruct x as [|c x], y as [|d y]; cbn [app] in E; [injection E as E; auto|..].
    + injection E as <- E. cbn [literal] in Y. change (byte_eqb x22 "\"%byte) with false in Y. cbn in Y. destruct Y as [Y _]. congruence.
    + injection E as -> E. cbn [literal] in X. change (byte_eqb x22 "\"%byte) with false in X. cbn in X. destruct X as [X _]. congruence.
    + injection E as <- E. cbn [literal] in X, Y. cbn [length] in L. destruct (byte_eqb c "\"%byte) eqn:B.
      * destruct x as [|c' x]; [contradiction|]. destruct y as [|d' y]; [contradiction|]. cbn [app] in E. injection E as <- E. cbn [length] in L.
        destruct (IH x y r s) as [-> ->]; [lia|assumption..|]. auto.
      * destruct X as [_ X], Y as [_ Y]. destruct (IH x y r s) as [-> ->]; [lia|assumption..|]. auto.
Qed.
Lemma quoted_code : code literal quoted.
Proof.
  intros x y r s X Y E. unfold quoted in E. rewrite <- !app_assoc in E. cbn [app] in E. injection E as E. exact (literal_code (length x) x y r s (le_n _) X Y E).
Qed.
Lemma escaped_inj a b : escaped a = escaped b -> a = b.
Proof. intros E. apply (f_equal unescape) in E. rewrite !unescape_escaped in E. exact E. Qed.
Lemma quoted_escaped_code : code (fun _ => True) (fun s => quoted (escaped s)).
Proof.
  intros x y r s _ _ E. destruct (quoted_code _ _ _ _ (literal_escaped x) (literal_escaped y) E) as [H ->]. split; [apply escaped_inj; exact H|reflexivity].
Qed.
(** Items that do not start like the end of a list. *)
Definition opens {A} (P : A -> Prop) (f : A -> bytes) : Prop := forall x, P x -> exists c r, f x = c :: r /\ c <> "]"%byte.
Lemma join_cons t l : exists r, join_byte (t :: l) ","%byte = t ++ r /\ (l = [] /\ r = [] \/ l <> [] /\ r = ","%byte :: join_byte l ","%byte).
Proof. destruct l as [|u l]; cbn [join_byte]; [exists []; rewrite app_nil_r; auto|]. eexists. split; [reflexivity|]. right. split; [discriminate|reflexivity]. Qed.
Lemma items_code {A} (P : A -> Prop) f : opens P f -> code P f -> forall l m r s, Forall P l -> Forall P m ->
  join_byte (map f l) ","%byte ++ "]"%byte :: r = join_byte (map f m) ","%byte ++ "]"%byte :: s -> l = m /\ r = s.
Proof.
  intros O C. induction l as [|x l IH]; intros m r s L M E.
  - destruct m as [|y m]; [cbn in E; injection E as E; auto|]. inversion M as [|? ? M1 M2]; subst. destruct (O y M1) as (c & q & F & N).
    cbn [map] in E. destruct (join_cons (f y) (map f m)) as (t & J & _). rewrite J, F in E. cbn in E. injection E as E _. congruence.
  - inversion L as [|? ? L1 L2]; subst. destruct m as [|y m].
    + destruct (O x L1) as (c & q & F & N). cbn [map] in E. destruct (join_cons (f x) (map f l)) as (t & J & _). rewrite J, F in E. cbn in E. injection E as E _. congruence.
    + inversion M as [|? ? M1 M2]; subst. cbn [map] in E. destruct (join_cons (f x) (map f l)) as (t & J & T), (join_cons (f y) (map f m)) as (u & K & U).
      rewrite J, K in E. rewrite <- !app_assoc in E. destruct (C x y _ _ L1 M1 E) as [<- E']. destruct T as [(T1 & ->)|(T1 & ->)], U as [(U1 & ->)|(U1 & ->)].
      * apply map_eq_nil in T1, U1. subst. cbn in E'. injection E' as E'. auto.
      * cbn in E'. discriminate.
      * cbn in E'. discriminate.
      * cbn [app] in E'. injection E' as E'. destruct (IH m r s L2 M2 E') as [-> ->]. auto.
Qed.
Lemma brackets_code {A} (P : A -> Prop) f : opens P f -> code P f -> code (Forall P) (fun l => brackets (map f l)).
Proof.
  intros O C l m r s L M E. unfold brackets in E. rewrite <- !app_assoc in E. apply app_inv_head in E. change (bs "]") with ["]"%byte] in E. cbn [app] in E. exact (items_code P f O C l m r s L M E).
Qed.
Lemma opens_quoted P : opens P quoted.
Proof. intros x _. eexists. eexists. split; [reflexivity|discriminate]. Qed.

Lemma tl_eq (c : byte) a b : c :: a = c :: b -> a = b.
Proof. congruence. Qed.
Lemma output_code : code lit_output output_text.
Proof.
  intros [n [p a h]] [n' [p' a' h']] r s (L1 & L2 & L3 & L4) (M1 & M2 & M3 & M4) E. cbn [fst snd o_path o_algo o_hash] in *.
  unfold output_text, parens in E. cbn [join_byte fst snd o_path o_algo o_hash] in E. rewrite <- !app_assoc in E. apply app_inv_head in E. cbn [app] in E.
  repeat (rewrite <- ?app_assoc in E; cbn [app] in E).
  destruct (quoted_code _ _ _ _ L1 M1 E) as [<- E1]. apply tl_eq in E1.
  destruct (quoted_code _ _ _ _ L2 M2 E1) as [<- E2]. apply tl_eq in E2.
  destruct (quoted_code _ _ _ _ L3 M3 E2) as [<- E3]. apply tl_eq in E3.
  destruct (quoted_code _ _ _ _ L4 M4 E3) as [<- E4]. apply tl_eq in E4. auto.
Qed.
Lemma input_code : code lit_input input_text.
Proof.
  intros [p l] [q m] r s (L1 & L2) (M1 & M2) E. cbn [fst snd] in *. unfold input_text, parens in E. cbn [join_byte fst snd] in E. rewrite <- !app_assoc in E. apply app_inv_head in E.
  repeat (rewrite <- ?app_assoc in E; cbn [app] in E).
  destruct (quoted_code _ _ _ _ L1 M1 E) as [<- E1]. apply tl_eq in E1.
  destruct (brackets_code literal quoted (opens_quoted _) quoted_code _ _ _ _ L2 M2 E1) as [<- E2]. apply tl_eq in E2. auto.
Qed.
Lemma env_code : code lit_env env_text.
Proof.
  intros [k v] [k' v'] r s L M E. change (literal k) in L. change (literal k') in M. unfold env_text, parens in E. cbn [join_byte fst snd] in E. rewrite <- !app_assoc in E. apply app_inv_head in E.
  repeat (rewrite <- ?app_assoc in E; cbn [app] in E).
  destruct (quoted_code _ _ _ _ L M E) as [<- E1]. apply tl_eq in E1.
  destruct (quoted_escaped_code _ _ _ _ I I E1) as [<- E2]. apply tl_eq in E2. auto.
Qed.
Lemma text_inj outs ins srcs plat bld args env outs' ins' srcs' plat' bld' args' env' :
  Forall literal (raw_strings (drv_of outs ins srcs plat bld args env)) -> Forall literal (raw_strings (drv_of outs' ins' srcs' plat' bld' args' env')) ->
  drv_text outs ins srcs plat bld args env = drv_text outs' ins' srcs' plat' bld' args' env' ->
  outs = outs' /\ ins = ins' /\ srcs = srcs' /\ plat = plat' /\ bld = bld' /\ args = args' /\ env = env'.
Proof.
  intros L M E.
  destruct (lits _ _ _ _ _ _ _ L) as (L1 & L2 & L3 & L4 & L5), (lits _ _ _ _ _ _ _ M) as (M1 & M2 & M3 & M4 & M5). clear L M.
  unfold drv_text, parens in E. cbn [join_byte] in E. apply app_inv_head in E.
  repeat (rewrite <- ?app_assoc in E; cbn [app] in E). apply app_inv_head in E.
  assert (OP : forall A (P : A -> Prop) f, (forall x, exists r, f x = "("%byte :: r) -> opens P f).
  { intros A P f H x _. destruct (H x) as (r & ->). eexists. eexists. split; [reflexivity|discriminate]. }
  destruct (brackets_code lit_output output_text (OP _ _ _ ltac:(intros; eexists; reflexivity)) output_code _ _ _ _ L1 M1 E) as [<- E1]. apply tl_eq in E1.
  destruct (brackets_code lit_input input_text (OP _ _ _ ltac:(intros; eexists; reflexivity)) input_code _ _ _ _ L2 M2 E1) as [<- E2]. apply tl_eq in E2.
  destruct (brackets_code literal quoted (opens_quoted _) quoted_code _ _ _ _ L3 M3 E2) as [<- E3]. apply tl_eq in E3.
  destruct (quoted_escaped_code _ _ _ _ I I E3) as [<- E4]. apply tl_eq in E4.
  destruct (quoted_escaped_code _ _ _ _ I I E4) as [<- E5]. apply tl_eq in E5.
  destruct (brackets_code literal quoted (opens_quoted _) quoted_code _ _ _ _ L4 M4 E5) as [<- E6]. apply tl_eq in E6.
  destruct (brackets_code _ env_text (OP _ _ _ ltac:(intros; eexists; reflexivity)) env_code _ _ _ _ L5 M5 E6) as [<- _].
  repeat split.
Qed.
