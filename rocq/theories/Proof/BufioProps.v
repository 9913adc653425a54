(** bufio.Writer in front of any writer behaves like a writer (C102). *)
From Verif Require Import Base.Bytes Base.BytesFacts Model.GoIO Model.GoStd Model.Wire Model.Nar Model.NarWriter Model.NarDump Model.Bufio.
Ltac Zify.zify_post_hook ::= idtac.

Definition io_error (e : option error) : Prop := e = None \/ e = Some (EIo 1).
Lemma wwrite_cases p w : (exists pl, wwrite p w = (length p, None, Sink (out w ++ p) pl) /\ (plan w = [] -> pl = [])) \/
  (exists n pl, n <= length p /\ wwrite p w = (n, Some (EIo 1), Sink (out w ++ firstn n p) pl) /\ plan w <> []).
Proof.
  unfold wwrite. destruct (plan w) as [|[k|] pl].
  - left. eexists. split; [reflexivity|auto].
  - right. exists (Nat.min k (length p)), pl. split; [lia|]. split; [reflexivity|discriminate].
  - left. eexists. split; [reflexivity|discriminate].
Qed.
Definition accepted (b : bufw) : bytes := out (b_wr b) ++ b_buf b.
Lemma flush_spec b : io_error (b_err b) ->
  (exists pl, buf_Flush b = (None, BufW [] None (Sink (accepted b) pl)) /\ b_err b = None /\ (plan (b_wr b) = [] -> pl = [])) \/
  (exists b', buf_Flush b = (Some (EIo 1), b') /\ b_err b' = Some (EIo 1) /\ accepted b' = accepted b /\ (b_err b = None -> plan (b_wr b) <> []) /\
     exists q, b_buf b = q ++ b_buf b' /\ out (b_wr b') = out (b_wr b) ++ q).
Proof.
  destruct b as [buf err w]. unfold accepted, buf_Flush. cbn [b_err b_buf b_wr]. intros [-> | ->].
  - destruct buf as [|x buf'] eqn:EB.
    + left. exists (plan w). rewrite app_nil_r. destruct w. split; [reflexivity|auto].
    + rewrite <- EB. destruct (wwrite_cases buf w) as [(pl & E & P)|(n & pl & L & E & P)]; rewrite E.
      * left. exists pl. rewrite Nat.ltb_irrefl. split; [reflexivity|auto].
      * right. eexists. split; [reflexivity|]. cbn [b_err b_wr b_buf out]. split; [reflexivity|]. split; [rewrite <- app_assoc, firstn_skipn; reflexivity|].
        split; [auto|]. exists (firstn n buf). rewrite firstn_skipn. auto.
  - right. eexists. split; [reflexivity|]. cbn [b_err b_wr b_buf out]. split; [reflexivity|]. split; [reflexivity|]. split; [discriminate|]. exists []. rewrite app_nil_r. auto.
Qed.
Section Size.
Variable size : nat.
Definition healthy (b : bufw) : Prop := b_err b = None /\ plan (b_wr b) = [].
Definition extends (b b' : bufw) : Prop := exists q, out (b_wr b') = out (b_wr b) ++ q.
Lemma rounds_spec r : forall nn p b, io_error (b_err b) ->
  exists k b', write_rounds size r nn p b = (nn + k, skipn k p, b') /\ k <= length p /\ accepted b' = accepted b ++ firstn k p /\
    io_error (b_err b') /\ (healthy b -> healthy b') /\ extends b b' /\
    (b_err b' = None -> (2 <= r \/ b_buf b = [] /\ 1 <= r) -> length (skipn k p) <= size - length (b_buf b') \/ b_buf b' = [] /\ skipn k p = []).
Proof.
  induction r as [|r IH]; intros nn p b HE.
  - exists 0, b. cbn. rewrite Nat.add_0_r, app_nil_r. split; [reflexivity|]. split; [lia|]. split; [reflexivity|]. split; [exact HE|]. split; [auto|].
    split; [exists []; rewrite app_nil_r; reflexivity|]. intros _ [X|[_ X]]; lia.
  - cbn [write_rounds]. destruct (b_err b) as [e0|] eqn:EB.
    { exists 0, b. rewrite Nat.add_0_r, app_nil_r. split; [reflexivity|]. split; [lia|]. split; [reflexivity|]. split; [rewrite EB; exact HE|]. split; [auto|].
      split; [exists []; rewrite app_nil_r; reflexivity|]. congruence. }
    destruct (Nat.leb_spec (length p) (size - length (b_buf b))) as [L|L].
    { exists 0, b. rewrite Nat.add_0_r, app_nil_r. split; [reflexivity|]. split; [lia|]. split; [reflexivity|]. split; [rewrite EB; exact HE|]. split; [auto|].
      split; [exists []; rewrite app_nil_r; reflexivity|]. intros _ _. left. exact L. }
    destruct (b_buf b) as [|x buf'] eqn:EBUF.
    + destruct (wwrite_cases p (b_wr b)) as [(pl & E & P)|(n & pl & LN & E & P)]; rewrite E.
      * rewrite skipn_all. destruct (IH (nn + length p) [] (BufW [] None (Sink (out (b_wr b) ++ p) pl)) (or_introl eq_refl)) as (k & b' & E1 & E2 & E3 & E4 & E5 & E6 & E7).
        cbn in E2. assert (k = 0) by lia. subst k. rewrite E1. exists (length p), b'. rewrite Nat.add_0_r, skipn_all, firstn_all. split; [reflexivity|]. split; [lia|].
        unfold accepted in *. cbn [b_wr b_buf out] in E3. rewrite app_nil_r in E3. rewrite EBUF, app_nil_r. split; [rewrite E3; cbn; rewrite app_nil_r; reflexivity|].
        split; [exact E4|]. split; [intros [_ H]; apply E5; split; [reflexivity|cbn; auto]|]. split; [destruct E6 as (q & E6); exists (p ++ q); rewrite E6; cbn; rewrite app_assoc; reflexivity|].
        intros HN _. left. cbn. lia.
      * assert (FR : write_rounds size r (nn + n) (skipn n p) (BufW [] (Some (EIo 1)) (Sink (out (b_wr b) ++ firstn n p) pl)) = (nn + n, skipn n p, BufW [] (Some (EIo 1)) (Sink (out (b_wr b) ++ firstn n p) pl))) by (destruct r; reflexivity).
        rewrite FR. exists n. eexists. split; [reflexivity|]. split; [exact LN|]. unfold accepted. cbn [b_wr b_buf b_err out]. rewrite EBUF, !app_nil_r. split; [reflexivity|]. split; [right; reflexivity|].
        split; [intros [_ H]; contradiction|]. split; [eexists; reflexivity|]. discriminate.
    + rewrite <- EBUF in *. set (n := size - length (b_buf b)) in *. set (b1 := BufW (b_buf b ++ firstn n p) None (b_wr b)).
      assert (A1 : accepted b1 = accepted b ++ firstn n p) by (unfold accepted, b1; cbn; rewrite app_assoc; reflexivity).
      destruct (flush_spec b1 (or_introl eq_refl)) as [(pl & E & _ & P)|(b2 & E & ER & AC & P & q & Q1 & Q2)]; rewrite E.
      * destruct (IH (nn + n) (skipn n p) (BufW [] None (Sink (accepted b1) pl)) (or_introl eq_refl)) as (k & b' & E1 & E2 & E3 & E4 & E5 & E6 & E7).
        rewrite E1. exists (n + k), b'. rewrite skipn_length in E2. rewrite skipn_skipn. rewrite Nat.add_assoc. split; [reflexivity|]. split; [lia|].
        split. { rewrite E3. unfold accepted at 1. cbn [b_wr b_buf out]. rewrite app_nil_r, A1, <- app_assoc. f_equal. rewrite <- (firstn_skipn n (firstn (n + k) p)) . rewrite firstn_firstn. replace (Nat.min n (n + k)) with n by lia. f_equal. rewrite skipn_firstn_comm. f_equal. lia. }
        split; [exact E4|]. split; [intros [_ H]; apply E5; split; [reflexivity|apply P; exact H]|].
        split. { destruct E6 as (z & E6). exists (b_buf b1 ++ z). rewrite E6. cbn [b_wr out]. unfold accepted. cbn [b_wr]. rewrite <- app_assoc. reflexivity. }
        intros HN H. rewrite skipn_skipn in E7. apply E7; [exact HN|]. right. split; [reflexivity|]. destruct H as [H|[H _]]; [lia|rewrite H in EBUF; discriminate EBUF].
      * assert (FR : write_rounds size r (nn + n) (skipn n p) b2 = (nn + n, skipn n p, b2)) by (destruct r; [reflexivity|cbn [write_rounds]; rewrite ER; reflexivity]).
        rewrite FR. exists n, b2. split; [reflexivity|]. split; [lia|]. split; [rewrite AC; exact A1|]. split; [right; exact ER|].
        split; [intros [_ H]; exfalso; apply P; [reflexivity|exact H]|]. split; [exists q; rewrite Q2; reflexivity|]. congruence.
Qed.
(** One Write of the buffered writer is one Write of a writer that has got what the buffered one was given. *)
Lemma buf_Write_spec p b : io_error (b_err b) -> exists b',
  ((buf_Write size p b = (length p, None, b') /\ accepted b' = accepted b ++ p /\ b_err b' = None) \/
   (exists n, n <= length p /\ buf_Write size p b = (n, Some (EIo 1), b') /\ accepted b' = accepted b ++ firstn n p /\ b_err b' = Some (EIo 1))) /\
  (healthy b -> healthy b') /\ extends b b'.
Proof.
  intros HE. unfold buf_Write. destruct (rounds_spec 3 0 p b HE) as (k & b1 & E1 & E2 & E3 & E4 & E5 & E6 & _). rewrite E1. cbn [plus].
  destruct E4 as [E4|E4]; rewrite E4.
  - eexists. split; [left; split; [rewrite skipn_length; replace (k + (length p - k)) with (length p) by lia; reflexivity|]|].
    + unfold accepted in *. cbn [b_wr b_buf b_err]. rewrite app_assoc, E3, <- app_assoc, firstn_skipn. auto.
    + split; [intros H; split; [reflexivity|apply E5; exact H]|exact E6].
  - exists b1. split; [right; exists k; auto|]. split; [exact E5|exact E6].
Qed.
Theorem run_buf_sink {A} (c : client A) : forall b, io_error (b_err b) -> exists pl w' a b',
  run_buf size c b = (a, b') /\ run c (Sink (accepted b) pl) = (a, w') /\ out w' = accepted b' /\ io_error (b_err b') /\
  (healthy b -> pl = [] /\ healthy b') /\ extends b b'.
Proof.
  induction c as [a|p k IH]; intros b HE.
  - exists [], (Sink (accepted b) []), a, b. split; [reflexivity|]. split; [reflexivity|]. split; [reflexivity|]. split; [exact HE|]. split; [auto|]. exists []. rewrite app_nil_r. reflexivity.
  - cbn [run_buf run]. destruct (buf_Write_spec p b HE) as (b1 & H & HH & HX). destruct H as [(E & AC & ER)|(n & L & E & AC & ER)]; rewrite E.
    + destruct (IH (length p) None b1 (or_introl ER)) as (pl & w' & a & b' & R1 & R2 & R3 & R4 & R5 & R6).
      assert (EXT : extends b b') by (destruct HX as (q1 & X1), R6 as (q2 & X2); exists (q1 ++ q2); rewrite X2, X1, app_assoc; reflexivity).
      destruct pl as [|o pl].
      * exists [], w', a, b'. unfold wwrite. cbn [plan out]. rewrite <- AC. split; [exact R1|]. split; [exact R2|]. split; [exact R3|]. split; [exact R4|]. split; [|exact EXT].
        intros H. split; [reflexivity|]. apply R5. apply HH. exact H.
      * exists (None :: o :: pl), w', a, b'. unfold wwrite. cbn [plan out]. rewrite <- AC. split; [exact R1|]. split; [exact R2|]. split; [exact R3|]. split; [exact R4|]. split; [|exact EXT].
        intros H. exfalso. apply HH, R5 in H. destruct H as [H _]. discriminate H.
    + destruct (IH n (Some (EIo 1)) b1 (or_intror ER)) as (pl & w' & a & b' & R1 & R2 & R3 & R4 & R5 & R6).
      exists (Some n :: pl), w', a, b'. unfold wwrite. cbn [plan out]. replace (Nat.min n (length p)) with n by lia. rewrite <- AC. split; [exact R1|]. split; [exact R2|]. split; [exact R3|]. split; [exact R4|].
      split; [intros H; apply HH in H; destruct H as [H _]; congruence|]. destruct HX as (q1 & X1), R6 as (q2 & X2); exists (q1 ++ q2); rewrite X2, X1, app_assoc; reflexivity.
Qed.
End Size.
