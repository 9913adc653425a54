(** Property C108, for the trees that message_ok leaves out. *)
From Verif Require Import Base.Bytes Base.BytesFacts Model.GoIO Model.GoStd Model.Wire Model.Nar Model.NarReader Model.NarWriter Model.NarDump
  Spec.WireSpec Spec.NarSpec Spec.NarHist Spec.NarDumpSpec Spec.NarParenSpec Spec.StreamSpec
  Proof.NarReaderFacts Proof.NarSession Props.NarReaderP Props.NarDumpP Props.NarExactP Props.NarListedP Props.StreamP.
Ltac Zify.zify_post_hook ::= idtac.

Lemma recv_all_app a b : forall s, recv_all (a ++ b) s = (let '(g, s1) := recv_all a s in let '(h, s2) := recv_all b s1 in (g ++ h, s2)).
Proof.
  induction a as [|c a IH]; intros s; cbn [app recv_all].
  - destruct (recv_all b s); reflexivity.
  - destruct (recv c s) as [g s1]. rewrite IH. destruct (recv_all a s1) as [l s2]. destruct (recv_all b s2) as [h s3]. reflexivity.
Qed.
Lemma convey_app ms : forall cs gs ms' cs' gs', all_convey ms cs gs -> all_convey ms' cs' gs' -> all_convey (ms ++ ms') (cs ++ cs') (gs ++ gs').
Proof.
  induction ms as [|m ms IH]; intros [|c cs] [|g gs] ms' cs' gs' H H'; try (exfalso; exact H); cbn [app]; [exact H'|].
  destruct H as [H1 H2]. split; [exact H1|apply IH; assumption].
Qed.
(** If the last message is a tree, entries called ")" that nothing comes after do no harm; [k] closing tokens are left. *)
Theorem C108_received_last_partial : forall ms calls t k plans s rest e,
  Forall message_ok ms -> Forall2 suits ms calls -> wf_tree any_name t -> paren_last t k -> nodes t < length plans ->
  flat s = (concat (map message_bytes ms) ++ nar t ++ rest, e) ->
  exists got s', recv_all (calls ++ [RecvTree plans]) s = (got, s') /\
    all_convey (ms ++ [MTree t]) (calls ++ [RecvTree plans]) got /\ flat s' = (closers k ++ rest, e).
Proof.
  intros ms calls t k plans s rest e H1 H2 Ht Hk Hn F.
  destruct (C108_received_partial ms calls s (nar t ++ rest) e H1 H2 F) as (g & s1 & G1 & G2 & G3).
  destruct (C28_listed t k s1 rest e plans Ht Hk G3) as (r & s2 & o & r' & R1 & R2 & R3 & R4).
  exists (g ++ [GotTree o]), (rd_src r'). rewrite recv_all_app, G1. cbn [recv_all recv]. rewrite R1, R2.
  split; [reflexivity|]. split; [|apply R4; exact Hn]. apply convey_app; [exact G2|]. split; [exact R3|exact I].
Qed.
Print Assumptions C108_received_last_partial.

(** The right answers, with the stream left exactly behind the last message, from every stream that begins with them. *)
Definition received_from_all (ms : list message) : Prop := forall calls s rest e,
  Forall2 suits ms calls -> flat s = (concat (map message_bytes ms) ++ rest, e) ->
  exists got s', recv_all calls s = (got, s') /\ all_convey ms calls got /\ flat s' = (rest, e).
(** What the formats can hold, within the Reader's limits: message_ok without a word about ")". *)
Definition message_sized (m : message) : Prop :=
  match m with MTree t => wf_tree any_name t | _ => message_ok m end.
Definition suiting (m : message) : recv_call :=
  match m with MNum _ => RecvNum | MBool _ => RecvBool | MString c => RecvString (lenN c) | MTree t => RecvTree (repeat [] (S (nodes t))) end.
Lemma suiting_suits ms : Forall2 suits ms (map suiting ms).
Proof. induction ms as [|m ms IH]; constructor; [|exact IH]. destruct m; cbn [suits suiting]; try exact I; [lia|rewrite repeat_length; lia]. Qed.
(** The conversations every part of which, from its beginning, is received are exactly those without an entry called ")". *)
Theorem C108_exact : forall ms, Forall message_sized ms ->
  (Forall message_ok ms <-> forall a b, ms = a ++ b -> received_from_all a).
Proof.
  intros ms HS. split.
  - intros HO a b -> calls s rest e H F. apply Forall_app in HO. apply C108_received_partial; [apply HO|exact H|exact F].
  - induction ms as [|m a IH] using rev_ind; intros H; [constructor|]. apply Forall_app in HS. destruct HS as [HSa HSm]. inversion HSm as [|? ? HM _]; subst.
    assert (HO : Forall message_ok a) by (apply IH; [exact HSa|intros a' b' ->; apply (H a' (b' ++ [m])); rewrite <- app_assoc; reflexivity]).
    apply Forall_app. split; [exact HO|]. constructor; [|constructor]. destruct m as [n|b|c|t]; try exact HM.
    cbn [message_sized message_ok] in *.
    set (s := Src [concat (map message_bytes a) ++ nar t] (EIo 1) false).
    assert (F : flat s = (concat (map message_bytes (a ++ [MTree t])) ++ [], EIo 1)).
    { unfold s, flat, src_data. cbn [chunks fin concat]. rewrite map_app, concat_app. cbn [map concat message_bytes]. rewrite !app_nil_r. reflexivity. }
    destruct (H (a ++ [MTree t]) [] (eq_sym (app_nil_r _)) (map suiting (a ++ [MTree t])) s [] (EIo 1) (suiting_suits _) F) as (got & s' & E1 & E2 & E3).
    assert (F' : flat s = (concat (map message_bytes a) ++ nar t ++ [], EIo 1)).
    { unfold s, flat, src_data. cbn [chunks fin concat]. rewrite !app_nil_r. reflexivity. }
    destruct (C108_received_partial a (map suiting a) s (nar t ++ []) (EIo 1) HO (suiting_suits a) F') as (g & s1 & G1 & G2 & G3).
    rewrite map_app, recv_all_app, G1 in E1. cbn [map suiting recv_all recv] in E1.
    rewrite map_app in E2. destruct (NewReader s1) as [[r|er|x] s2] eqn:EN.
    + destruct (session (repeat [] (S (nodes t))) r) as [o r'] eqn:ES. injection E1 as <- <-.
      assert (C : session_of (items [] t) (repeat [] (S (nodes t))) o).
      { clear -G2 E2. revert g G2 E2. generalize (map suiting a). induction a as [|m a IH]; intros [|c cs] [|y g] G2 E2; try (exfalso; exact G2).
        - exact (proj1 E2).
        - apply (IH cs g); [exact (proj2 G2)|exact (proj2 E2)]. }
      assert (L : length (items [] t) < length (repeat (@nil N) (S (nodes t)))) by (rewrite repeat_length, items_length; lia).
      eapply C28_only_these with (rest := []) (e := EIo 1); [exact HM|exact G3|right; discriminate|exact EN|exact ES| |exact E3].
      eapply session_eof; eassumption.
    + injection E1 as <- <-. exfalso. clear -G2 E2. revert g G2 E2. generalize (map suiting a). induction a as [|m a IH]; intros [|c cs] [|y g] G2 E2; try (exfalso; exact G2).
      * exact (proj1 E2).
      * apply (IH cs g); [exact (proj2 G2)|exact (proj2 E2)].
    + injection E1 as <- <-. exfalso. clear -G2 E2. revert g G2 E2. generalize (map suiting a). induction a as [|m a IH]; intros [|c cs] [|y g] G2 E2; try (exfalso; exact G2).
      * exact (proj1 E2).
      * apply (IH cs g); [exact (proj2 G2)|exact (proj2 E2)].
Qed.
Print Assumptions C108_exact.
Example C108_exact_nonvacuous : Forall message_ok ex_messages /\ Forall message_sized (MNum 7 :: MTree tailed :: nil) /\
  ~ Forall message_ok (MNum 7 :: MTree tailed :: nil) /\ paren_last tailed 2.
Proof.
  destruct C28_listed_nonvacuous as (W & P & N & _). split; [apply C108_nonvacuous|]. split; [|split; [|exact P]].
  - constructor; [reflexivity|]. constructor; [exact W|constructor].
  - intros H. inversion H as [|? ? _ H']; subst. inversion H' as [|? ? H'' _]; subst. apply N. exact H''.
Qed.
