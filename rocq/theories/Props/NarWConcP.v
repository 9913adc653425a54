(** Property C74: the goroutines of the nar Writer, under every schedule. *)
From Coq Require Import Lia Relations.Relation_Operators.
From Verif Require Import Base.Bytes Base.BytesFacts Model.GoIO Model.GoStd Model.Wire Model.Nar Model.NarWriter Spec.WireSpec Spec.NarSpec Spec.NarHist Spec.NarWHist Model.NarWConc Spec.WConcSpec Proof.NarConcWriter.
Ltac Zify.zify_post_hook ::= idtac.

(** For every history whose calls return (according to the sequential model) and
    every schedule: when nothing can move any more, all calls were made, each
    returned what the sequential model says, and so are the bytes written. *)
Theorem C74_same_results_partial : forall w0 r w ops c, NewWriter w0 = (Ok r, w) -> all_return ops r ->
  wexecution (wconc_start ops w) c -> wstuck c ->
  wc_ops c = [] /\ wc_seen c = map snd (fst (wr_run ops r)) /\ wc_sink c = wr_sink (snd (wr_run ops r)).
Proof.
  intros w0 r w ops c N A E St. apply new_w_is in N. subst r. pose proof (wsim_exec _ _ _ E) as S.
  assert (NP : forall m, wc_main c <> WPanicked m) by (intros m M; unfold wsim in S; rewrite M in S; tauto).
  assert (O : wc_ops c = []).
  { destruct (wc_ops c) eqn:O; [reflexivity|exfalso].
    destruct (wprogress _ _ _ S) as [[c' H]|(h & o & don & l' & r & _ & _ & _ & D & R & _ & _ & B)];
      [congruence|exact NP|exact (St _ H)|].
    unfold all_return in A. rewrite D, wrun_app, R in A. cbn [wr_run wr_step] in A. rewrite B in A.
    destruct (wr_run o r). cbn [fst] in A. rewrite map_app in A. apply Forall_app in A. destruct A as [_ A]. inversion A. contradiction. }
  split; [exact O|]. unfold wsim in S. destruct (wc_main c); [| | | |exfalso; exact (NP _ eq_refl)];
    destruct S as (don & l & r & D & R & L & K & S); rewrite O, app_nil_r in *; subst don; rewrite R; cbn [fst snd].
  - destruct S as (A1 & _). auto.
  - destruct S as ((o & H) & _). discriminate.
  - destruct S as (h & o & H & _). discriminate.
  - destruct S as (o & H & _). discriminate.
Qed.
Print Assumptions C74_same_results_partial.
(** For every history and at every moment of every schedule, what has been
    returned so far is a beginning of what the sequential model says. *)
Theorem C74_prefix : forall w0 r w ops c, NewWriter w0 = (Ok r, w) ->
  wexecution (wconc_start ops w) c -> prefix_of (wc_seen c) (map snd (fst (wr_run ops r))).
Proof.
  intros w0 r w ops c N E. apply new_w_is in N. subst r. pose proof (wsim_exec _ _ _ E) as S. unfold wsim in S.
  destruct (wc_main c); [| | | |tauto]; destruct S as (don & l & r & -> & R & <- & _); rewrite wrun_app, R;
    destruct (wr_run (wc_ops c) r); cbn [fst]; rewrite map_app; eexists; reflexivity.
Qed.
Print Assumptions C74_prefix.
(** A call hangs only where the sequential model says that it blocks: in a
    WriteHeader after the emitter has ended. *)
Theorem C74_deadlock_only : forall w0 r w ops c, NewWriter w0 = (Ok r, w) ->
  wexecution (wconc_start ops w) c -> wstuck c -> wc_ops c <> [] -> (forall m, wc_main c <> WPanicked m) ->
  exists don h rest l r', ops = don ++ WHeader h :: rest /\ wr_run don r = (l, r') /\
    wc_seen c = map snd l /\ wc_sink c = wr_sink r' /\ fst (WriteHeader h r') = WBlocked.
Proof.
  intros w0 r w ops c N E St O NP. apply new_w_is in N. subst r. pose proof (wsim_exec _ _ _ E) as S.
  destruct (wprogress _ _ _ S O NP) as [[c' H]|(h & o & don & l & r & _ & _ & _ & D & R & L & W & B)]; [exfalso; exact (St _ H)|].
  exists don, h, o, l, r. rewrite B. auto.
Qed.
Print Assumptions C74_deadlock_only.
Theorem C74_terminates : forall f : nat -> wconf, ~ forall n, wcstep (f n) (f (S n)).
Proof. exact wno_infinite. Qed.
Print Assumptions C74_terminates.
(** The goroutines never work at the same time, in any history: while the caller
    is outside of the package, the emitter does not touch the output or the
    content writer. *)
Theorem C74_exclusive : forall w ops c, wexecution (wconc_start ops w) c ->
  wcaller_free (wc_main c) -> ~ emitter_works (wc_em c).
Proof.
  intros w ops c E M. pose proof (wsim_exec _ _ _ E) as S. unfold wsim, wcaller_free in *. rewrite M in S.
  destruct S as (don & l & r & _ & _ & _ & _ & _ & _ & _ & _ & F).
  destruct F as [(-> & _)|(_ & [[-> _]|[-> _]])]; cbn; auto.
Qed.
Print Assumptions C74_exclusive.
(** Once Close has been called and returned, the goroutine ends, in every
    schedule. *)
Theorem C74_ends : forall w ops c x, wexecution (wconc_start ops w) c -> wstuck c ->
  (forall m, wc_main c <> WPanicked m) -> In (SClosed x) (wc_seen c) -> wc_em c = EExit.
Proof.
  intros w ops c x E St NP I. pose proof (wsim_exec _ _ _ E) as S.
  assert (K : forall don r0 l r, wr_run don r0 = (l, r) -> (In (SClosed x) (map snd l) \/ wr_closed r0 = true) -> 
     (forall m, ~ In (SClosed (WPanic m)) (map snd l)) -> wr_closed r = true).
  { clear. induction don as [|op don IH]; intros r0 l r R I P; cbn [wr_run] in R.
    - injection R as <- <-. destruct I as [[]|I]. exact I.
    - destruct (wr_step op r0) as [y r1] eqn:T. destruct (wr_run don r1) as [l' r2] eqn:R'. injection R as <- <-.
      cbn [map snd In] in I, P. apply (IH _ _ _ R'); [|intros m Q; exact (P m (or_intror Q))].
      assert (C1 : wr_closed r0 = true -> wr_closed r1 = true).
      { intros C. destruct op as [h|p|]; cbn [wr_step] in T.
        - unfold WriteHeader in T. rewrite C in T. destruct (hd_Validate h); injection T as _ <-; exact C.
        - unfold wr_Write in T. destruct (wr_cw r0) as [|bw|bw bf]; [injection T as _ <-; exact C| |];
            [destruct (bw_write bw p (wr_sink r0)) as [[? ?] [? ?]]|destruct (bw_write bw p bf) as [[? ?] [? ?]]]; injection T as _ <-; exact C.
        - unfold wr_Close in T. rewrite C in T. injection T as _ <-. exact C. }
      destruct I as [[Y|I]|I]; [|left; exact I|right; auto]. right.
      destruct op as [h|p|]; cbn [wr_step] in T.
      + destruct (WriteHeader h r0). injection T as <- <-. discriminate.
      + destruct (wr_Write p r0) as [[? ?] ?]. injection T as <- <-. discriminate.
      + unfold wr_Close in T. destruct (wr_closed r0) eqn:C; [injection T as <- <-; exact C|].
        destruct (wr_gor r0); try (injection T as _ <-; reflexivity).
        destruct (cw_close (wr_cw r0) (wr_sink r0)) as [[[er|]|] [cw' w']]; try (injection T as _ <-; reflexivity).
        destruct (finish up w') as [e w2]. injection T as _ <-. reflexivity. }
  assert (P : forall m, ~ In (SClosed (WPanic m)) (wc_seen c)).
  { intros m Q. assert (Q' : In (SClosed (WPanic m)) (wc_seen c) -> exists m, wc_main c = WPanicked m); [|destruct (Q' Q) as [m' M]; exact (NP _ M)].
    clear - E. refine (wexec_inv (fun c => In (SClosed (WPanic m)) (wc_seen c) -> exists m, wc_main c = WPanicked m) _ _ _ _ E); [|intros []].
    intros a b Ha St. destruct St; cbn [wc_seen wc_main] in *; intros H1;
      try (apply in_app_or in H1; destruct H1 as [H1|[H1|[]]]; try discriminate H1); try (destruct (Ha H1) as [? ?]; discriminate); eauto. }
  unfold wsim in S. destruct (wc_main c) eqn:M; [| | | |exfalso; exact (NP _ eq_refl)];
    destruct S as (don & l & r & D & R & L & G & S); rewrite <- L in *; pose proof (K _ _ _ _ R (or_introl I) P) as C; specialize (G C).
  - destruct S as (_ & _ & _ & _ & F). rewrite G in F. destruct F as [(_ & [] & _)|(_ & [[F1 F2]|[F _]])]; [|exact F].
    exfalso. destruct c as [o m em w1 cw cl hc ec seen]. wfields. subst. eapply St. apply t_close_errors.
  - destruct S as (SO & _ & _ & _ & _ & F & _). exfalso. destruct c as [o m em w1 cw cl hc ec seen]. wfields.
    assert (hc = true) as -> by congruence. subst m. destruct o as [|o1 o].
    + destruct SO as (o & SO). discriminate.
    + eapply St. apply t_send_panic.
  - destruct S as (h0 & o0 & _ & _ & _ & F & _). congruence.
  - destruct S as (o0 & _ & _ & F & _). congruence.
Qed.
Print Assumptions C74_ends.

(** A WriteHeader after one that failed hangs, and so does the program if nothing
    else runs in it: a deadlock that no schedule avoids. *)
Definition bad_ops : list wr_op := [WHeader (Header (bs "/a") (bs "directory") [] 0 false); WHeader (Header (bs "/") (bs "directory") [] 0 false)].
Definition out0 : sink := Sink [] [].
Definition out1 : sink := snd (NewWriter out0).
Theorem C74_hang_refuted : exists r c, NewWriter out0 = (Ok r, out1) /\
  wexecution (wconc_start bad_ops out1) c /\ wstuck c /\ wc_ops c <> [] /\ (forall m, wc_main c <> WPanicked m).
Proof.
  eexists. exists (wplay [true; true; false; true; false; true] (wconc_start bad_ops out1)).
  split; [vm_compute; reflexivity|]. split; [apply wplay_exec|]. split; [|split; vm_compute; discriminate].
  apply wstuck_when; [vm_compute; reflexivity|]. right. split; [eexists; vm_compute; reflexivity|vm_compute; reflexivity].
Qed.
Print Assumptions C74_hang_refuted.
(** A directory with a file, written under one schedule. *)
Definition good_ops : list wr_op :=
  [WHeader (Header (bs "/") (bs "directory") [] 0 false); WHeader (Header (bs "/a") (bs "regular") [] 5 true);
   WBytes (bs "he"); WBytes (bs "llo"); WClose].
Example C74_nonvacuous : exists r c, NewWriter out0 = (Ok r, out1) /\ all_return good_ops r /\
  wexecution (wconc_start good_ops out1) c /\ wstuck c /\ In (SClosed WOk) (wc_seen c) /\
  out (wc_sink c) = nar (Dir [(bs "a", Reg true (bs "hello"))]).
Proof.
  eexists. exists (wplay (concat (map (fun _ => [true; false]) (seq 0 30))) (wconc_start good_ops out1)).
  split; [vm_compute; reflexivity|]. split; [vm_compute; repeat constructor|]. split; [apply wplay_exec|].
  split; [apply wstuck_when; [vm_compute; reflexivity|left; vm_compute; auto]|]. vm_compute. auto 12.
Qed.
