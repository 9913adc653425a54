(** * C118: nothing is read ahead

    On any stream, well formed or not: a Reader that has not touched some part
    of the stream gives, on a stream that differs only in that part (other
    bytes, no bytes, another error at the end), the same results, and leaves
    the other stream at the same place.  [g1] and [g2] say whether the
    underlying reader reports its final error together with the last bytes;
    only a second stream that ends at the cut must not.  The cut can be between two chunks of
    the underlying reader or inside one. *)
From Verif Require Import Base.Bytes Base.BytesFacts Model.GoIO Model.GoStd Model.Wire Model.Nar
  Model.NarReader Spec.WireSpec Spec.NarHist Proof.NoLookahead.
Ltac Zify.zify_post_hook ::= idtac.

(** The cut is between two chunks. *)
Theorem C118_between_chunks cs x xs e1 g1 ys e2 g2 r1 s1 ops l r1' cs' : (ys = [] -> g2 = false) ->
  NewReader (Src (cs ++ x :: xs) e1 g1) = (Ok r1, s1) ->
  (forall n, In (ORead n) ops -> (0 < n)%N) ->
  rd_run ops r1 = (l, r1') -> chunks (rd_src r1') = cs' ++ x :: xs ->
  exists r2 s2 r2', NewReader (Src (cs ++ ys) e2 g2) = (Ok r2, s2) /\
    rd_run ops r2 = (l, r2') /\ rd_src r2' = Src (cs' ++ ys) e2 g2.
Proof.
  intros Hy HN Hb HR Hc.
  destruct (ahead x xs e1 g1 ys e2 g2 false Hy ltac:(discriminate) cs r1 s1 ops l r1') as (r2 & s2 & r2' & cs2 & E1 & E2 & E3 & E4); auto.
  - unfold A. rewrite glue_false. exact HN.
  - apply big_all, Hb.
  - unfold src_size, src_data. rewrite Hc. unfold A. cbn [chunks glue]. rewrite concat_app, !app_length. cbn [concat length]. lia.
  - exists r2, s2, r2'. split; [exact E1|]. split; [exact E2|]. rewrite E3 in Hc. unfold A in Hc. cbn [chunks] in Hc. rewrite glue_false in Hc.
    apply app_inv_tail in Hc. subst. exact E4.
Qed.
Print Assumptions C118_between_chunks.

(** The cut is inside a chunk, in front of [x]. *)
Theorem C118_inside_a_chunk cs a x xs e1 g1 ys e2 g2 r1 s1 ops l r1' : x <> [] -> (ys = [] -> g2 = false) ->
  NewReader (Src (cs ++ (a ++ x) :: xs) e1 g1) = (Ok r1, s1) ->
  (forall n, In (ORead n) ops -> (0 < n)%N) ->
  rd_run ops r1 = (l, r1') -> chunks (rd_src r1') = x :: xs ->
  exists r2 s2 r2', NewReader (Src (cs ++ a :: ys) e2 g2) = (Ok r2, s2) /\
    rd_run ops r2 = (l, r2') /\ src_data (rd_src r2') = concat ys.
Proof.
  intros Hx Hy HN Hb HR Hc.
  destruct (ahead x xs e1 g1 ys e2 g2 true Hy ltac:(auto) (cs ++ [a]) r1 s1 ops l r1') as (r2 & s2 & r2' & cs2 & E1 & E2 & E3 & E4); auto.
  - unfold A. rewrite glue_true. exact HN.
  - apply big_all, Hb.
  - unfold src_size, src_data. rewrite Hc. unfold A. cbn [chunks glue]. apply le_n.
  - exists r2, s2, r2'. unfold B in E1. rewrite <- app_assoc in E1. cbn [app] in E1. split; [exact E1|]. split; [exact E2|].
    rewrite E4. unfold B, src_data. cbn [chunks]. rewrite concat_app. rewrite E3 in Hc. unfold A in Hc. cbn [chunks] in Hc.
    assert (concat cs2 = []) as ->; [|reflexivity].
    pose proof (glue_length x xs cs2) as HL.
    rewrite Hc in HL. apply length_zero_iff_nil. apply (Nat.add_cancel_r _ _ (length (concat (x :: xs)))). symmetry. exact HL.
Qed.
Print Assumptions C118_inside_a_chunk.

(** A stream that is refused at once is refused for what was read of it. *)
Theorem C118_refused cs x xs e1 g1 ys e2 g2 e s1 cs' : (ys = [] -> g2 = false) ->
  NewReader (Src (cs ++ x :: xs) e1 g1) = (Err e, s1) -> chunks s1 = cs' ++ x :: xs ->
  NewReader (Src (cs ++ ys) e2 g2) = (Err e, Src (cs' ++ ys) e2 g2).
Proof.
  intros Hy HN Hc. pose proof (new_loc x xs e1 g1 ys e2 g2 Hy false ltac:(discriminate)) as [_ L]. specialize (L cs). cbv beta in L. unfold A in L.
  rewrite !glue_false in L. rewrite HN in L. destruct L as [P|(r & cs1 & EA & EB)].
  - exfalso. unfold past in P. cbn [snd] in P. unfold src_size, src_data in P. rewrite Hc in P. unfold A in P. cbn [chunks glue] in P.
    rewrite concat_app, !app_length in P. lia.
  - injection EA as <- ->. cbn [chunks] in Hc. rewrite glue_false in Hc. apply app_inv_tail in Hc. subst cs1. unfold B in EB.
    destruct (NewReader (Src (cs ++ ys) e2 g2)) as [[?|?|?] s2]; congruence.
Qed.
Print Assumptions C118_refused.

(** A regular file of five bytes, of which two are read, in a damaged stream: behind the content comes rubbish. *)
Definition ahead_head : bytes := field narVersionMagic1 ++ field (bs "(") ++ field (bs "type") ++ field (bs "regular") ++ field (bs "contents") ++ le8 5.
Definition ahead_ops : list rd_op := [ONext; ORead 2].
Definition ahead_run (s : src) : list rd_seen * src :=
  match NewReader s with
  | (Ok r, _) => let '(l, r') := rd_run ahead_ops r in (l, rd_src r')
  | _ => ([], s)
  end.
Example C118_nonvacuous :
  ahead_run (Src [ahead_head; bs "hello"; bs "rubbish"] (EIo 7) false) =
    ([SNext (Ok (Header (bs "/") (bs "regular") [] 5 false)); SRead (bs "he") None], Src [bs "llo"; bs "rubbish"] (EIo 7) false) /\
  ahead_run (Src [ahead_head; bs "he"] EEOF false) =
    ([SNext (Ok (Header (bs "/") (bs "regular") [] 5 false)); SRead (bs "he") None], Src [] EEOF false).
Proof. split; vm_compute; reflexivity. Qed.
Example C118_refused_nonvacuous :
  NewReader (Src [field (bs "nix-archive-2"); bs "rubbish"] EEOF false) = (Err (EMsg "unexpected token"), Src [bs "rubbish"] EEOF false).
Proof. vm_compute. reflexivity. Qed.
