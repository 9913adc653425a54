(** Property C108: values and archives one after the other on one stream. *)
From Verif Require Import Base.Bytes Base.BytesFacts Model.GoIO Model.GoStd Model.Wire Model.Nar Model.NarReader Model.NarWriter Model.NarDump
  Spec.WireSpec Spec.NarSpec Spec.NarHist Spec.NarDumpSpec Spec.StreamSpec
  Proof.WireProps Proof.NarReaderFacts Proof.NarSession Proof.NarWriterSound Proof.NarDumpProps Props.WireP Props.NarReaderP Props.NarDumpP.
Ltac Zify.zify_post_hook ::= idtac.

(** C108, the sender: if all calls succeed, on whatever writer, exactly the
    messages' bytes were written, one after the other. *)
Theorem C108_sent : forall calls ms w w', Forall2 meant calls ms ->
  send_all calls w = (WOk, w') -> out w' = out w ++ concat (map message_bytes ms).
Proof.
  intros calls ms w w' H. revert w w'. induction H as [|c m calls ms Hm _ IH]; intros w w'; cbn [send_all].
  - intros E. inversion E. cbn. symmetry. apply app_nil_r.
  - destruct (send c w) as [x w1] eqn:E. destruct x; try discriminate. intros HS. apply IH in HS. rewrite HS.
    cbn [map concat]. rewrite app_assoc. f_equal. clear IH HS.
    destruct c as [n|b|s|flt root f]; cbn [send meant] in *.
    + destruct (WriteUint64 w n) as [[e|] w2] eqn:EW; inversion E; subst. apply WriteUint64_none in EW. exact EW.
    + destruct (WriteBool w b) as [[e|] w2] eqn:EW; inversion E; subst. unfold WriteBool in EW. destruct b; apply WriteUint64_none in EW; exact EW.
    + destruct (WriteString w s) as [[e|] w2] eqn:EW; inversion E; subst. apply WriteString_none in EW. exact EW.
    + destruct Hm as (F & t & T & ->). destruct (C39_success_is_complete _ _ _ _ _ F E) as (_ & t' & T' & _ & O).
      assert (t' = t) by congruence. subst. exact O.
Qed.
Print Assumptions C108_sent.
(** The receiver: on any stream that begins with these bytes, in any fragments,
    each call gives its message, and the stream is left right behind the last. *)
Theorem C108_received_partial : forall ms calls s rest e,
  Forall message_ok ms -> Forall2 suits ms calls -> flat s = (concat (map message_bytes ms) ++ rest, e) ->
  exists got s', recv_all calls s = (got, s') /\ all_convey ms calls got /\ flat s' = (rest, e).
Proof.
  intros ms calls s rest e Hok H. revert s. induction H as [|m c ms calls Hm _ IH]; intros s F.
  - exists [], s. split; [reflexivity|]. split; [exact I|exact F].
  - inversion Hok as [|? ? Ho Hr]; subst. cbn [map concat] in F. rewrite <- app_assoc in F.
    assert (G : exists g s1, recv c s = (g, s1) /\ conveys m c g /\ flat s1 = (concat (map message_bytes ms) ++ rest, e)).
    { destruct m as [n|b|x|t], c as [| |max|plans]; try (exfalso; exact Hm); cbn [message_ok message_bytes suits recv] in *.
      - destruct (C01_uint64_roundtrip n [] Ho) as (w & f & W1 & W2 & R). rewrite (WriteUint64_ok [] n) in W1. inversion W1; subst w.
        cbn in W2. subst f. destruct (R _ _ _ F) as (s1 & R1 & R2). rewrite R1. eexists _, _. split; [reflexivity|]. split; [reflexivity|exact R2].
      - destruct (C01_bool_roundtrip b []) as (w & f & W1 & W2 & R). rewrite (WriteBool_ok [] b) in W1. inversion W1; subst w.
        cbn in W2. subst f. destruct (R _ _ _ F) as (s1 & R1 & R2). rewrite R1. eexists _, _. split; [reflexivity|]. split; [reflexivity|exact R2].
      - destruct (C01_string_roundtrip x [] Ho) as (w & f & W1 & W2 & R). rewrite (WriteString_ok [] x) in W1. inversion W1; subst w.
        cbn [out app] in W2. subst f. destruct (R _ _ _ _ F Hm) as (s1 & R1 & R2). rewrite R1. eexists _, _. split; [reflexivity|]. split; [reflexivity|exact R2].
      - destruct (C28_reads_the_tree_partial t s _ e plans Ho F) as (r & s1 & o & r' & R1 & R2 & R3 & R4). rewrite R1, R2.
        eexists _, _. split; [reflexivity|]. split; [exact R3|]. apply R4. exact Hm. }
    destruct G as (g & s1 & G1 & G2 & G3). destruct (IH Hr s1 G3) as (got & s' & I1 & I2 & I3).
    exists (g :: got), s'. cbn [recv_all]. rewrite G1, I1. split; [reflexivity|]. split; [split; assumption|exact I3].
Qed.
Print Assumptions C108_received_partial.
(** Both: what was sent without an error is received, in the same order. *)
Theorem C108_conversation_partial : forall scalls ms rcalls o plan w' s rest e,
  Forall2 meant scalls ms -> send_all scalls (Sink o plan) = (WOk, w') ->
  Forall message_ok ms -> Forall2 suits ms rcalls -> flat s = (skipn (length o) (out w') ++ rest, e) ->
  exists got s', recv_all rcalls s = (got, s') /\ all_convey ms rcalls got /\ flat s' = (rest, e).
Proof.
  intros scalls ms rcalls o plan w' s rest e H1 H2 H3 H4 F. apply (C108_sent _ _ _ _ H1) in H2. cbn [out] in H2.
  apply (C108_received_partial ms rcalls s rest e H3 H4). rewrite F, H2, skipn_app, skipn_all, Nat.sub_diag. reflexivity.
Qed.
Print Assumptions C108_conversation_partial.
(** With an entry called ")" the stream is left inside the archive: the number sent after it is not received. *)
Theorem C108_conversation_refuted : exists scalls rcalls w' t, wf_tree any_name t /\
  let ms : list message := MTree t :: MNum 7%N :: nil in
  Forall2 meant scalls ms /\ send_all scalls (Sink [] []) = (WOk, w') /\ Forall2 suits ms rcalls /\
  ~ all_convey ms rcalls (fst (recv_all rcalls (Src [out w'] EEOF false))).
Proof.
  set (t := Dir [(bs ")", Sym (bs "x")); (bs "a", Sym (bs "y"))]).
  exists [SendDump None (bs "/d") (FDir [(bs ")", FSym (bs "x")); (bs "a", FSym (bs "y"))]); SendNum 7], [RecvTree [[]; []; []; []]; RecvNum].
  eexists _, t. split; [apply C28_reads_the_tree_refuted|]. cbn zeta. split.
  { constructor; [|constructor; [reflexivity|constructor]]. split; [|exists t; split; reflexivity].
    repeat (constructor; cbn [fst snd]); try discriminate; try reflexivity; cbn; intuition discriminate. }
  split; [vm_compute; reflexivity|]. split; [repeat (constructor; cbn [suits]); vm_compute; repeat constructor|].
  vm_compute. intros (_ & H & _). discriminate H.
Qed.
Print Assumptions C108_conversation_refuted.

(** A number, an archive, a string, the same archive filtered, a flag; sent
    over a writer whose writes succeed, received in fragments of three bytes. *)
Definition ex_calls : list send_call :=
  [SendNum 7; SendDump ex_filter (bs "/tmp/d") ex_fs; SendString (bs "sep"); SendDump None (bs "/x") (FSym (bs "y")); SendBool true].
Definition ex_messages : list message := [MNum 7; MTree ex_fs_tree; MString (bs "sep"); MTree (Sym (bs "y")); MBool true].
Definition ex_recvs : list recv_call :=
  [RecvNum; RecvTree (repeat [4; 9]%N 6); RecvString 3; RecvTree [[]; []]; RecvBool].
Example C108_nonvacuous :
  Forall2 meant ex_calls ex_messages /\ (exists w, send_all ex_calls (Sink (bs "before") []) = (WOk, w)) /\
  Forall message_ok ex_messages /\ Forall2 suits ex_messages ex_recvs.
Proof.
  assert (Hn : forall n, In n [bs "bin"; bs "sh"; bs "lib"; bs "skip"; bs "dev"; bs "z"] -> name_ok n /\ reader_name n).
  { intros n Hin. split; [|repeat destruct Hin as [<-|Hin]; try destruct Hin; discriminate].
    destruct (proj1 (ex_names n Hin)) as (N1 & N2 & N3 & N4 & N5). repeat split; try assumption.
    repeat destruct Hin as [<-|Hin]; try destruct Hin; apply Nat.leb_le; reflexivity. }
  split; [|split; [eexists; vm_compute; reflexivity|split]].
  - apply Forall2_cons; [reflexivity|]. apply Forall2_cons; [|apply Forall2_cons; [reflexivity|apply Forall2_cons; [|repeat constructor]]].
    + split; [apply (proj1 C38_nonvacuous)|]. exists ex_fs_tree. split; [apply C38_nonvacuous|reflexivity].
    + split; [constructor|]. exists (Sym (bs "y")). split; reflexivity.
  - repeat (constructor; cbn [fst snd message_ok]); try (apply Hn; cbn; tauto); try discriminate; reflexivity.
  - repeat (constructor; cbn [suits]); vm_compute; repeat constructor; discriminate.
Qed.
