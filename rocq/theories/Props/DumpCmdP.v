(** C102: gonix nar dump writes the whole archive or fails. *)
From Verif Require Import Base.Bytes Base.BytesFacts Model.GoIO Model.GoStd Model.Wire Model.Nar Model.NarWriter Model.NarDump Model.Bufio
  Spec.NarSpec Spec.NarWHist Spec.NarDumpSpec Proof.NarDumpProps Proof.BufioProps Proof.DumpClient Props.NarDumpP.
Ltac Zify.zify_post_hook ::= idtac.

(** The sequence of writes nar.DumpPath does, as a program: what it does on every writer. *)
Definition dump_program (root : bytes) (f : fs) (c : client wres) : Prop := forall w, run c w = DumpPathFilter None root w f.
Theorem C102_program : forall root f, exists c, dump_program root f c.
Proof. intros root f. exists (proj1_sig (r_dump None root f)). exact (proj2_sig (r_dump None root f)). Qed.
Print Assumptions C102_program.
(** Success means that stdout has got the whole archive, whatever the buffer size and however stdout behaves. *)
Theorem C102_success_is_complete : forall size root f c stdout s', dump_program root f c -> fs_ok f ->
  dump_Run size c stdout = (WOk, s') ->
  intact (fun _ _ => true) root [] f /\ exists t, tree_of (fun _ _ => true) root [] f = Some t /\ writable t /\ out s' = out stdout ++ nar t.
Proof.
  intros size root f c stdout s' HC HF H. unfold dump_Run in H.
  destruct (run_buf_sink size c (BufW [] None stdout) (or_introl eq_refl)) as (pl & w' & a & b' & R1 & R2 & R3 & R4 & _ & _). rewrite R1 in H.
  destruct a; try discriminate H. rewrite HC in R2. destruct (C39_success_is_complete None root _ f w' HF R2) as (HI & t & T1 & TW & T2).
  split; [exact HI|]. exists t. split; [exact T1|]. split; [exact TW|].
  destruct (flush_spec b' R4) as [(pl2 & E & _ & _)|(b2 & E & _)]; rewrite E in H; [|discriminate H]. injection H as <-. cbn [b_wr out]. rewrite <- R3, T2.
  unfold accepted. cbn [b_wr b_buf out]. rewrite app_nil_r. reflexivity.
Qed.
Print Assumptions C102_success_is_complete.
(** And on a stdout that works a readable tree is dumped. *)
Theorem C102_readable_tree_partial : forall size root f c o t, dump_program root f c -> fs_ok f ->
  intact (fun _ _ => true) root [] f -> tree_of (fun _ _ => true) root [] f = Some t -> writable t ->
  exists s', dump_Run size c (Sink o []) = (WOk, s') /\ out s' = o ++ nar t.
Proof.
  intros size root f c o t HC HF HI HT HW. destruct (C38_dump_partial root o f t HF HI HT HW) as (w & D1 & D2).
  destruct (run_buf_sink size c (BufW [] None (Sink o [])) (or_introl eq_refl)) as (pl & w' & a & b' & R1 & R2 & R3 & R4 & R5 & _).
  destruct R5 as [-> [H1 H2]]; [split; reflexivity|]. rewrite HC in R2. unfold accepted in R2. cbn [b_wr b_buf out] in R2. rewrite app_nil_r in R2. rewrite D1 in R2. injection R2 as <- <-.
  unfold dump_Run. rewrite R1. destruct (flush_spec b' R4) as [(pl2 & E & _ & _)|(b2 & E & _ & _ & X & _)]; [|exfalso; apply X; assumption]. rewrite E. eexists. split; [reflexivity|]. cbn [b_wr out]. rewrite <- R3. exact D2.
Qed.
Print Assumptions C102_readable_tree_partial.
(** Exactly those. *)
Theorem C102_exact : forall size root f c o t, dump_program root f c -> fs_ok f ->
  intact (fun _ _ => true) root [] f -> tree_of (fun _ _ => true) root [] f = Some t ->
  (writable t <-> exists s', dump_Run size c (Sink o []) = (WOk, s')).
Proof.
  intros size root f c o t HC HF HI HT. split.
  - intros HW. destruct (C102_readable_tree_partial size root f c o t HC HF HI HT HW) as (s' & E & _). eauto.
  - intros (s' & E). destruct (C102_success_is_complete size root f c _ s' HC HF E) as (_ & t' & T1 & T2 & _). congruence.
Qed.
Print Assumptions C102_exact.
(** In every case stdout has got a beginning of what nar.DumpPath wrote. *)
Theorem C102_only_a_beginning : forall size root f c stdout x s', dump_program root f c -> dump_Run size c stdout = (x, s') ->
  exists q rest pl y w, out s' = out stdout ++ q /\ DumpPathFilter None root (Sink (out stdout) pl) f = (y, w) /\ out w = out s' ++ rest /\ (y <> WOk -> x = y).
Proof.
  intros size root f c stdout x s' HC H. unfold dump_Run in H.
  destruct (run_buf_sink size c (BufW [] None stdout) (or_introl eq_refl)) as (pl & w' & a & b' & R1 & R2 & R3 & R4 & _ & (q & R6)). rewrite R1 in H.
  rewrite HC in R2. unfold accepted in R2. cbn [b_wr b_buf out] in R2, R6. rewrite app_nil_r in R2.
  assert (END : s' = b_wr b' /\ a <> WOk /\ x = a \/ a = WOk /\ s' = b_wr (snd (buf_Flush b'))).
  { destruct a; [|injection H as <- <-; left; split; [reflexivity|]; split; [discriminate|reflexivity]..]. right. split; [reflexivity|]. destruct (buf_Flush b'). injection H as _ <-. reflexivity. }
  destruct END as [(-> & NA & ->)|(-> & ->)].
  - exists q, (b_buf b'), pl, a, w'. rewrite R3. auto.
  - destruct (flush_spec b' R4) as [(pl2 & E & _ & _)|(b2 & E & _ & AC & _ & q2 & Q1 & Q2)]; rewrite E; cbn [snd b_wr out].
    + exists (q ++ b_buf b'), [], pl, WOk, w'. rewrite R3, app_nil_r. unfold accepted. rewrite R6, <- app_assoc. split; [reflexivity|]. split; [exact R2|]. split; [reflexivity|]. congruence.
    + exists (q ++ q2), (b_buf b2), pl, WOk, w'. rewrite Q2, R6, R3, <- AC. unfold accepted. rewrite Q2, R6, <- !app_assoc. split; [reflexivity|]. split; [exact R2|]. split; [reflexivity|]. congruence.
Qed.
Print Assumptions C102_only_a_beginning.
(** Through a small buffer; with a stdout that fails at the end the dump itself succeeds and the flush fails. *)
Definition dump_ex : fs := FDir [(bs "f", FReg 420 3 (Src [bs "abc"] EEOF false))].
Example C102_nonvacuous :
  let c := proj1_sig (r_dump None (bs "/d") dump_ex) in
  fs_ok dump_ex /\ intact (fun _ _ => true) (bs "/d") [] dump_ex /\ writable (Dir [(bs "f", Reg false (bs "abc"))]) /\
  tree_of (fun _ _ => true) (bs "/d") [] dump_ex = Some (Dir [(bs "f", Reg false (bs "abc"))]) /\
  out (snd (dump_Run 16 c (Sink [] []))) = nar (Dir [(bs "f", Reg false (bs "abc"))]) /\
  fst (run_buf 4096 c (BufW [] None (Sink [] [Some 5]))) = WOk /\
  dump_Run 4096 c (Sink [] [Some 5]) = (WErr (EIo 1), Sink (firstn 5 (nar (Dir [(bs "f", Reg false (bs "abc"))]))) []).
Proof.
  cbv zeta. split; [|split; [|split; [|split; [|split; [|split]]]]].
  - repeat (constructor; cbn [fst snd]); try discriminate; try reflexivity; cbn; intuition discriminate.
  - vm_compute. repeat split; discriminate.
  - repeat (constructor; cbn [fst snd]); try discriminate; try reflexivity; cbn; intuition discriminate.
  - vm_compute. reflexivity.
  - vm_compute. reflexivity.
  - vm_compute. reflexivity.
  - vm_compute. reflexivity.
Qed.
