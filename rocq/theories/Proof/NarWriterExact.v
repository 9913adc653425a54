(** The output of a Writer is a valid archive exactly if no path came twice in a row (C36). *)
From Verif Require Import Base.Bytes Base.BytesFacts Model.GoIO Model.GoStd Model.Wire Model.Nar Model.NarWriter
  Spec.WireSpec Spec.NarSpec Spec.NarWHist Spec.PipelineSpec Spec.CopySpec Proof.PathFacts Proof.NarUtilProps Proof.EntryPath Proof.NarReaderFacts
  Proof.NarWriterSound Proof.NarWriterComplete Proof.PipelineProps Proof.NarWriterTree.
Ltac Zify.zify_post_hook ::= idtac.

Lemma comps_split (Q : bytes -> Prop) cs : ecomps cs -> Forall Q (split_byte (path_of cs) "/"%byte) -> Forall Q cs.
Proof.
  intros E F. rewrite e_split_path_of in F by exact E. inversion F as [|? ? _ G]; subst. destruct cs; [constructor|exact G].
Qed.
Lemma rel_sized P n : Forall (fun p => canonical_path p /\ Forall (fun c => lenN c < 2 ^ 63)%N (split_byte p "/"%byte)) P -> rel_name P n -> (lenN n < 2 ^ 63)%N.
Proof.
  intros F (a & b & Ia & Ib & -> & G & V). rewrite Forall_forall in F. destruct (F a Ia) as ((ca & Ca & ->) & _). destruct (F b Ib) as ((cb & Cb & ->) & Lb).
  apply (comps_split _ _ Cb) in Lb. rewrite Rel_path_of in * by assumption. destruct (drop_common ca cb) as [u d] eqn:E.
  destruct (drop_common_spec _ _ _ _ E) as (p & _ & -> & _). destruct u as [|u0 u].
  - destruct d as [|d0 [|d1 d]]; [reflexivity| |].
    + apply Forall_app in Lb. destruct Lb as [_ Lb]. inversion Lb; assumption.
    + exfalso. apply IsValid_noslash in V. apply (proj1 V). apply join_two_slash.
  - cbn [length repeat app] in *. destruct (repeat dotdot (length u) ++ d) as [|y q]; [reflexivity|]. discriminate G.
Qed.
Definition item_sized (it : header * bytes) : Prop := (hd_size (fst it) < 2 ^ 63)%Z /\ (lenN (hd_target (fst it)) < 2 ^ 63)%N.
Lemma sized_names t : Forall (fun n => lenN n < 2 ^ 63)%N (all_names t) -> Forall item_sized (bares t) -> go_sized t.
Proof.
  induction t as [e c|x|es IH] using node_ind2; intros H1 H2.
  - constructor. inversion H2 as [|? ? [A _] _]; subst. cbn in A. unfold lenN. lia.
  - constructor. inversion H2 as [|? ? [_ A] _]; subst. exact A.
  - assert (Q : Forall (fun e => (lenN (fst e) < 2 ^ 63)%N /\ go_sized (snd e)) es).
    { unfold bares in H2. cbn [items map] in H2. inversion H2 as [|? ? _ H3]; subst. clear H2. cbn [all_names] in H1.
      induction IH as [|[n t] es Ht Hes IHes]; [constructor|]. cbn [map concat fst snd app] in *. inversion H1 as [|? ? H4 H5]; subst.
      apply Forall_app in H5. destruct H5 as [H5 H6]. rewrite map_app in H3. apply Forall_app in H3. destruct H3 as [H3 H7]. rewrite bares_cs in H3.
      constructor; [split; [exact H4|apply Ht; assumption]|apply IHes; assumption]. }
    constructor; eapply Forall_impl; try exact Q; intros a [A B]; assumption.
Qed.
Lemma sized_paths t : forall cs, valid_tree t -> ecomps cs -> Forall (fun it => go_header (fst it)) (items cs t) ->
  Forall (fun it => hd_size (fst it) < 2 ^ 63)%Z (items cs t) -> go_sized t.
Proof.
  induction t as [e c|x|es IH] using node_ind2; intros cs V C H1 H2.
  - constructor. inversion H2 as [|? ? A _]; subst. cbn in A. unfold lenN. lia.
  - constructor. inversion H1 as [|? ? [_ A] _]; subst. exact A.
  - inversion V as [| |? V1 _ V2]; subst. assert (Q : Forall (fun e => (lenN (fst e) < 2 ^ 63)%N /\ go_sized (snd e)) es).
    { cbn [items] in H1, H2. inversion H2 as [|? ? _ H3]; inversion H1 as [|? ? _ H4]; subst. clear H1 H2 V.
      induction IH as [|[n t] es Ht Hes IHes]; [constructor|]. cbn [map concat fst snd] in *. inversion V1; inversion V2; subst. cbn [fst snd] in *.
      apply Forall_app in H3, H4. destruct H3 as [H3 H5], H4 as [H4 H6].
      assert (C2 : ecomps (cs ++ [n])) by (apply Forall_app; split; [exact C|constructor; [assumption|constructor]]).
      constructor; [split; [|eapply Ht; eassumption]|apply IHes; assumption]. cbn [fst].
      destruct (items_head (cs ++ [n]) t) as (l & E). rewrite E in H4. inversion H4 as [|? ? [A _] _]; subst. cbn [fst] in A. rewrite hdr_of_path in A.
      apply (comps_split _ _ C2) in A. apply Forall_app in A. destruct A as [_ A]. inversion A; assumption. }
    constructor; eapply Forall_impl; try exact Q; intros a [A B]; assumption.
Qed.
Lemma no_repeat_dec l : no_repeat l \/ repeats l.
Proof.
  induction l as [|a [|b l] IH]; [left; exact I..|]. cbn [no_repeat repeats]. destruct (beq_spec a b); [tauto|]. destruct IH; tauto.
Qed.
Lemma log_all_of (Q : header -> Prop) hist : forall res, Forall (fun x => Q (fst x)) hist -> Forall (fun it => Q (fst it)) (log_of hist res).
Proof.
  induction hist as [|[h ps] hist IH]; intros [|[x l] res] H; cbn [log_of]; try constructor; inversion H; subst; auto.
Qed.
Lemma valid_no_dot t : valid_tree t -> ~ In dot (all_names t).
Proof.
  induction t as [e c|x|es IH] using node_ind2; intros V; [intros []..|]. inversion V as [| |? V1 _ V2]; subst. cbn [all_names]. intros I.
  apply in_concat in I. destruct I as (l & I & J). apply in_map_iff in I. destruct I as (e & <- & I).
  rewrite Forall_forall in *. destruct J as [J|J]; [|exact (IH e I (V2 e I) J)].
  destruct (V1 e I) as (_ & A & _). apply A. exact J.
Qed.
Lemma writer_exact w0 r0 w hist res r1 r2 :
  NewWriter w0 = (Ok r0, w) -> wsession hist r0 = (res, r1) -> Forall (fun x => fst x = WOk) res ->
  wr_Close r1 = (WOk, r2) ->
  Forall (fun x => careful (fst x) /\ go_header (fst x) /\ Forall (fun p => lenN p < 2 ^ 63)%N (snd x)) hist ->
  (exists t, valid_tree t /\ go_sized t /\ out (wr_sink r2) = out w0 ++ nar t) <-> no_repeat (hpaths hist).
Proof.
  intros HN HS HA HC Hc. split.
  - intros (t & V & G & E). destruct (no_repeat_dec (hpaths hist)) as [N|R]; [exact N|exfalso].
    destruct (gsound w0 r0 w hist res r1 r2 HN HS HA HC) as (t' & E' & L & NM & D).
    { eapply Forall_impl; [|exact Hc]. intros x ((_ & A & B) & _ & C). auto. }
    assert (t = t') as <-.
    { apply nar_inj; [exact G| |rewrite E in E'; apply app_inv_head in E'; exact E']. apply sized_names.
      - eapply Forall_impl; [|exact NM]. intros n. apply rel_sized. unfold hpaths. apply Forall_forall. intros p I. apply in_map_iff in I. destruct I as (x & <- & I).
        rewrite Forall_forall in Hc. destruct (Hc x I) as ((A & _) & (B & _) & _). auto.
      - rewrite L. apply Forall_forall. intros it I. apply in_map_iff in I. destruct I as (i & <- & I).
        assert (F : Forall (fun it => (hd_size (fst it) < 2 ^ 63)%Z /\ (lenN (hd_target (fst it)) < 2 ^ 63)%N) (log_of hist res)).
        { apply (log_all_of (fun h => (hd_size h < 2 ^ 63)%Z /\ (lenN (hd_target h) < 2 ^ 63)%N)). eapply Forall_impl; [|exact Hc]. intros x ((_ & _ & A) & (_ & B) & _). split; [apply A|exact B]. }
        rewrite Forall_forall in F. exact (F i I). }
    apply (valid_no_dot t V). apply D; [|exact R]. eapply Forall_impl; [|exact Hc]. intros x ((A & _) & _). exact A.
  - intros N. destruct (session_sound w0 r0 w hist res r1 r2 HN HS HA HC) as (t & W & E & L); [|exact N|].
    { eapply Forall_impl; [|exact Hc]. intros x (A & _ & C). auto. }
    exists t. split; [apply writable_valid; exact W|]. split; [|exact E]. apply (sized_paths t [] (writable_valid t W) (Forall_nil _)); rewrite L.
    + apply (log_all_of go_header). eapply Forall_impl; [|exact Hc]. intros x (_ & A & _). exact A.
    + apply (log_all_of (fun h => hd_size h < 2 ^ 63)%Z). eapply Forall_impl; [|exact Hc]. intros x ((_ & _ & A) & _). apply A.
Qed.
