(** Property C84: exactly which archives are copied as they are. *)
From Verif Require Import Base.Bytes Base.BytesFacts Model.GoIO Model.GoStd Model.Wire Model.Nar Model.NarReader Model.NarWriter
  Spec.WireSpec Spec.NarSpec Spec.NarHist Spec.NarWHist Spec.NarBackSpec Spec.NarAccept Spec.NarParenSpec Spec.PipelineSpec Spec.CopySpec
  Proof.EntryPath Proof.NarReaderAny Proof.NarReaderFacts Proof.NarSession Proof.WireFacts Proof.NarReaderBad Proof.NarTrunc Proof.NarWriterComplete Proof.NarExtract Proof.NarWriterTree Proof.NarCopy Proof.NarBack Proof.PipelineProps Proof.NarParenLast
  Props.NarReaderP Props.NarWriterP Props.AcceptP Props.NarExactP Props.NarListedP Props.CopyP Props.PipelineP.
Ltac Zify.zify_post_hook ::= idtac.

Lemma end_rewritten plans : forall o, session_of [] plans o -> rewritten o = [].
Proof. induction plans as [|ns plans IH]; intros o H; inversion H; subst; [reflexivity|]. unfold rewritten. cbn [map concat fst app]. apply IH. assumption. Qed.
Lemma headers_rewritten its plans o : session_of its plans o -> In (Err EEOF) (map fst o) -> map fst (rewritten o) = map fst its.
Proof.
  induction 1 as [its|h c its ns plans l o R S IH|ns plans l o R S IH]; intros HI.
  - destruct HI.
  - destruct HI as [HI|HI]; [discriminate HI|]. unfold rewritten. cbn [map concat fst snd app]. f_equal. apply IH. exact HI.
  - assert (E : rewritten ((Err EEOF, l) :: o) = []) by (apply (end_rewritten (ns :: plans)); constructor; assumption). rewrite E. reflexivity.
Qed.
Lemma session_longer its plans o : session_of its plans o -> In (Err EEOF) (map fst o) -> length its < length plans.
Proof.
  induction 1 as [its|h c its ns plans l o R S IH|ns plans l o R S IH]; cbn [length map fst In]; intros HI; [destruct HI| |lia].
  destruct HI as [HI|HI]; [discriminate HI|]. apply IH in HI. lia.
Qed.

Lemma reported_sizes s r s1 plans o r' : NewReader s = (Ok r, s1) -> session plans r = (o, r') ->
  Forall (fun x => within_sizes (fst x) /\ (hd_size (fst x) < 2 ^ 63)%Z) (rewritten o).
Proof.
  intros HN HS. pose proof (reader_headers _ _ _ _ _ _ HN HS) as RH.
  rewrite Forall_forall in *. intros x I. pose proof (RH x I) as RX. destruct RX as (Fd & cs & Ep & Ec & Es). split; [split|].
  - apply Forall_forall. intros c Ic. rewrite Ep, e_split_path_of in Ic by exact Ec.
    destruct Ic as [<-|Ic]; [cbn; lia|]. destruct cs as [|c0 cs]; [destruct Ic as [<-|[]]; cbn; lia|]. unfold short in Es. rewrite Forall_forall in Es. exact (Es c Ic).
  - destruct Fd as [(_ & _ & ->)|[(_ & _ & _ & L)|(_ & _ & _ & ->)]]; [cbn; lia|exact L|cbn; lia].
  - destruct (reader_careful _ (RH x I)) as [C _]. destruct C as (_ & _ & _ & C). exact C.
Qed.
(** A client that read everything up to io.EOF, from a stream that ends with another error behind the archive, and wrote
    it all, without an error, has copied the archive exactly if the tree is writable and nothing comes after an entry
    called ")". *)
Theorem C84_exact : forall t s e plans r s1 o r', wf_tree any_name t -> flat s = (nar t, e) -> e <> EEOF ->
  NewReader s = (Ok r, s1) -> session plans r = (o, r') -> buffers_ok plans -> read_to_end o -> In (Err EEOF) (map fst o) ->
  (writable t /\ listable t <->
   exists r0 w res r1 r2, NewWriter (Sink [] []) = (Ok r0, w) /\ wsession (rewritten o) r0 = (res, r1) /\ all_ok (rewritten o) res /\
     wr_Close r1 = (WOk, r2) /\ out (wr_sink r2) = nar t).
Proof.
  intros t s e plans r s1 o r' Ht F Ne HN HS HB HR HI. destruct (any_valid t Ht) as [Hv Hg]. split.
  - intros [W L]. apply (C84_copy_partial t s e plans r s1 o r' W L F); auto. destruct L as (_ & k & Hk).
    rewrite <- (app_nil_r (nar t)) in F. destruct (C28_listed t k s [] e plans Ht Hk F) as (r0 & s0 & o0 & r0' & A & B & C & _).
    rewrite HN in A. injection A as <- _. rewrite HS in B. injection B as <- _. rewrite <- (items_length t []). eapply session_longer; eassumption.
  - intros (r0 & w & res & r1 & r2 & E1 & E2 & E3 & E4 & E5).
    assert (NR : no_repeat (map (fun x => hd_path (fst x)) (rewritten o))).
    { apply (proj1 (copy_exact s r s1 plans o r' _ r0 w res r1 r2 HN HS HB E1 E2 E3 E4)). exists t. auto. }
    destruct (copy_tree s r s1 plans o r' _ r0 w res r1 r2 HN HS HB E1 E2 E3 E4 NR) as (t' & W & X & Y). cbn [out app] in X.
    assert (G : go_sized t').
    { pose proof (reader_headers _ _ _ _ _ _ HN HS) as RH. apply any_valid. apply (sized_tree t' (writable_valid t' W) [] (Forall_nil _)).
      match goal with |- Forall _ ?l => replace l with (contents (rewritten o)) by (symmetry; exact Y) end.
      unfold contents. apply Forall_map. exact (reported_sizes _ _ _ _ _ _ HN HS). }
    assert (E : t' = t) by (apply (nar_inj t' t G Hg); congruence). subst t'. split; [exact W|]. split; [exact Ht|].
    destruct (flat_data _ _ _ F) as [Hd He].
    destruct (C110_accepts_partial s r s1 plans o r' HN HS HI) as [(its & (d1 & T & HA) & _ & Ho)|[Z _]]; [|exfalso; apply Ne; congruence].
    rewrite Hd in T. rewrite <- (app_nil_r (nar t)) in T. unfold nar, str in T. rewrite <- app_assoc in T.
    apply NarReaderBad.takes_field in T; [|reflexivity..]. destruct T as [_ ->].
    eapply listed_last; [exact Ht|exact HA|]. rewrite <- (headers_rewritten its plans o Ho HI), Y. unfold contents. rewrite map_map. reflexivity.
Qed.
Print Assumptions C84_exact.
Example C84_exact_nonvacuous : writable tailed /\ listable tailed /\ wf_tree any_name shifted /\ ~ listable shifted /\
  forall t, t = tailed \/ t = shifted ->
  exists r s1 o r', NewReader (Src [nar t] (EIo 1) false) = (Ok r, s1) /\ session (repeat [4; 4]%N 6) r = (o, r') /\
    buffers_ok (repeat [4; 4]%N 6) /\ read_to_end o /\ In (Err EEOF) (map fst o).
Proof.
  destruct C29_listed_nonvacuous as (A & B & _). destruct C28_listed_nonvacuous as (_ & _ & _ & C & D).
  split; [exact A|]. split; [exact B|]. split; [exact C|]. split; [intros (_ & H); exact (D H)|].
  intros t [-> | ->]; eexists _, _, _, _; (split; [vm_compute; reflexivity|]); (split; [vm_compute; reflexivity|]);
    (split; [repeat constructor|]); (split; [repeat (constructor; [cbn; tauto|]); constructor|cbn; tauto]).
Qed.
