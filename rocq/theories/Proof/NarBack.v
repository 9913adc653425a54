(** What the Writer accepted is read back (C113). *)
From Verif Require Import Base.Bytes Base.BytesFacts Model.GoIO Model.GoStd Model.Wire Model.Nar
  Model.NarReader Model.NarWriter Spec.WireSpec Spec.NarSpec Spec.NarHist Spec.NarWHist Spec.NarBackSpec
  Proof.NarReaderFacts Proof.NarPath.
Ltac Zify.zify_post_hook ::= idtac.

Lemma split_of_path cs : cs <> [] -> Forall (fun c => ~ In "/"%byte c) cs ->
  split_byte (path_of cs) "/"%byte = [] :: cs.
Proof.
  intros H1 H2. unfold path_of. change ("/"%byte :: join_byte cs "/"%byte) with ([] ++ "/"%byte :: join_byte cs "/"%byte).
  rewrite split_app by (intros []). rewrite join_split by assumption. reflexivity.
Qed.
Lemma hdr_path cs t : hd_path (hdr_of cs t) = path_of cs.
Proof. destruct t; reflexivity. Qed.
Lemma items_head cs t : In (hdr_of cs t, content_of t) (items cs t).
Proof. destruct t; left; reflexivity. Qed.

Lemma readable_tree t : valid_tree t -> forall cs, Forall (fun c => ~ In "/"%byte c) cs ->
  Forall (fun it => within_limits (fst it) /\ (hd_size (fst it) < 2 ^ 63)%Z) (items cs t) -> wf_tree reader_name t.
Proof.
  induction t as [x c|tg|es IH] using node_ind2; intros V cs Hcs H; inversion V as [|? V1|? V1 V2 V3]; subst.
  - constructor. inversion H as [|? ? [_ H1] _]; subst. cbn in H1. unfold lenN. lia.
  - constructor; [assumption|]. inversion H as [|? ? [[_ H1] _] _]; subst. exact H1.
  - cbn [items] in H. inversion H as [|? ? _ H0]; subst. clear H V.
    assert (K : Forall (fun e => (name_ok (fst e) /\ reader_name (fst e)) /\ wf_tree reader_name (snd e)) es).
    { clear V2. revert IH V1 V3 H0. induction es as [|[n t] es IHes]; intros IH V1 V3 H0; constructor.
      - inversion IH as [|? ? I1 I2]; inversion V1 as [|? ? A1 A2]; inversion V3 as [|? ? B1 B2]; subst. cbn [fst snd map concat] in *.
        apply Forall_app in H0. destruct H0 as [H0 _].
        destruct A1 as (N1 & N2 & N3 & N4 & N5).
        assert (Hc : Forall (fun c => ~ In "/"%byte c) (cs ++ [n])) by (apply Forall_app; split; [exact Hcs|constructor; auto]).
        split; [|apply (I1 B1 (cs ++ [n]) Hc H0)].
        rewrite Forall_forall in H0. destruct (H0 _ (items_head (cs ++ [n]) t)) as [[L _] _]. cbn [fst] in L. rewrite hdr_path in L.
        rewrite split_of_path in L; [|destruct cs; discriminate|exact Hc].
        rewrite Forall_forall in L. destruct (L n) as [L1 L2]; [right; apply in_app_iff; right; left; reflexivity|].
        repeat split; assumption.
      - inversion IH as [|? ? I1 I2]; inversion V1 as [|? ? A1 A2]; inversion V3 as [|? ? B1 B2]; subst. cbn [map concat] in H0. apply Forall_app in H0.
        apply IHes; [assumption..|]. apply H0. }
    constructor; [|assumption|].
    + eapply Forall_impl; [|exact K]. intros e [A _]. exact A.
    + eapply Forall_impl; [|exact K]. intros e [_ A]. exact A.
Qed.
Lemma sized_tree t : valid_tree t -> forall cs, Forall (fun c => ~ In "/"%byte c) cs ->
  Forall (fun it => within_sizes (fst it) /\ (hd_size (fst it) < 2 ^ 63)%Z) (items cs t) -> wf_tree any_name t.
Proof.
  induction t as [x c|tg|es IH] using node_ind2; intros V cs Hcs H; inversion V as [|? V1|? V1 V2 V3]; subst.
  - constructor. inversion H as [|? ? [_ H1] _]; subst. cbn in H1. unfold lenN. lia.
  - constructor; [assumption|]. inversion H as [|? ? [[_ H1] _] _]; subst. exact H1.
  - cbn [items] in H. inversion H as [|? ? _ H0]; subst. clear H V.
    assert (K : Forall (fun e => (name_ok (fst e) /\ any_name (fst e)) /\ wf_tree any_name (snd e)) es).
    { clear V2. revert IH V1 V3 H0. induction es as [|[n t] es IHes]; intros IH V1 V3 H0; constructor.
      - inversion IH as [|? ? I1 I2]; inversion V1 as [|? ? A1 A2]; inversion V3 as [|? ? B1 B2]; subst. cbn [fst snd map concat] in *.
        apply Forall_app in H0. destruct H0 as [H0 _].
        destruct A1 as (N1 & N2 & N3 & N4 & N5).
        assert (Hc : Forall (fun c => ~ In "/"%byte c) (cs ++ [n])) by (apply Forall_app; split; [exact Hcs|constructor; auto]).
        split; [|apply (I1 B1 (cs ++ [n]) Hc H0)].
        rewrite Forall_forall in H0. destruct (H0 _ (items_head (cs ++ [n]) t)) as [[L _] _]. cbn [fst] in L. rewrite hdr_path in L.
        rewrite split_of_path in L; [|destruct cs; discriminate|exact Hc].
        rewrite Forall_forall in L. assert (L1 : length n <= 255) by (apply L; right; apply in_app_iff; right; left; reflexivity).
        repeat split; try assumption.
      - inversion IH as [|? ? I1 I2]; inversion V1 as [|? ? A1 A2]; inversion V3 as [|? ? B1 B2]; subst. cbn [map concat] in H0. apply Forall_app in H0.
        apply IHes; [assumption..|]. apply H0. }
    constructor; [|assumption|].
    + eapply Forall_impl; [|exact K]. intros e [A _]. exact A.
    + eapply Forall_impl; [|exact K]. intros e [_ A]. exact A.
Qed.
