(** Property C73: the goroutines of the nar Reader, under every schedule. *)
From Coq Require Import Lia Relations.Relation_Operators.
From Verif Require Import Base.Bytes Base.BytesFacts Model.GoIO Model.GoStd Model.Wire Model.Nar Model.NarReader Spec.WireSpec Spec.NarHist Spec.NarSpec Model.NarConc Spec.ConcSpec Proof.NarReaderFacts Proof.NarConcReader.
Ltac Zify.zify_post_hook ::= idtac.

(** What the calls return does not depend on the schedule: whenever nothing can
    move any more, every call has been made (unless one of them panicked) and has
    returned what the sequential model says.  This holds for every history in
    which Read is not called after Close (see [C73_read_after_close_refuted]). *)
Theorem C73_same_results_partial : forall s0 r s ops c, NewReader s0 = (Ok r, s) -> no_read_after_close ops ->
  execution (conc_start ops s) c -> stuck c ->
  cf_seen c = until_panic (fst (rd_run ops r)) /\ (cf_ops c = [] \/ exists w, cf_main c = MPanicked w).
Proof.
  intros s0 r s ops c N A E St. apply new_is in N. subst r.
  destruct (both_exec _ _ _ (conj (ctl_start ops s) (sim_start ops s A)) E) as [C S].
  assert (D : cf_ops c = [] \/ exists w, cf_main c = MPanicked w).
  { destruct (cf_ops c) eqn:O; [left; reflexivity|]. right.
    destruct (cf_main c) eqn:M; try (destruct (ctl_progress c C) as [c' H]; [congruence|congruence|exact (False_ind _ (St c' H))]).
    eexists; reflexivity. }
  split; [|exact D]. unfold sim in S. destruct D as [O|[w M]]; [|rewrite M in S; exact S].
  destruct (cf_main c); [| | |exact S]; destruct S as (r & -> & _); rewrite O; cbn [rd_run fst until_panic]; rewrite app_nil_r; reflexivity.
Qed.
Print Assumptions C73_same_results_partial.
(** At every moment of every schedule, what has been returned so far is a
    beginning of that. *)
Theorem C73_prefix_partial : forall s0 r s ops c, NewReader s0 = (Ok r, s) -> no_read_after_close ops ->
  execution (conc_start ops s) c -> prefix_of (cf_seen c) (until_panic (fst (rd_run ops r))).
Proof.
  intros s0 r s ops c N A E. apply new_is in N. subst r.
  destruct (both_exec _ _ _ (conj (ctl_start ops s) (sim_start ops s A)) E) as [C S]. unfold sim in S.
  destruct (cf_main c); [| | |exists []; rewrite app_nil_r; auto]; destruct S as (r & -> & _); eexists; reflexivity.
Qed.
Print Assumptions C73_prefix_partial.
(** No schedule deadlocks: as long as calls are left, and none panicked, some
    thread can move, for every history. *)
Theorem C73_no_deadlock : forall s ops c, execution (conc_start ops s) c ->
  cf_ops c <> [] -> (forall w, cf_main c <> MPanicked w) -> exists c', cstep c c'.
Proof.
  intros s ops c E. apply ctl_progress. exact (exec_inv ctl ctl_step _ _ (ctl_start ops s) E).
Qed.
Print Assumptions C73_no_deadlock.
(** And no schedule goes on for ever. *)
Theorem C73_terminates : forall f : nat -> conf, ~ forall n, cstep (f n) (f (S n)).
Proof. exact no_infinite. Qed.
Print Assumptions C73_terminates.
(** The two goroutines never work at the same time before Close: while the
    caller is outside of the package, the parser does not touch the archive. *)
Theorem C73_exclusive_partial : forall s ops c, execution (conc_start ops s) c ->
  cf_next_closed c = false -> caller_free (cf_main c) -> ~ parser_works (cf_par c).
Proof.
  intros s ops c E N M. pose proof (exec_inv ctl ctl_step _ _ (ctl_start ops s) E) as (_ & HM & _).
  unfold caller_free in M. rewrite M in HM. destruct (HM N) as [[g ->]|[_ [(->&_)|[(->&_)| ->]]]]; auto.
Qed.
Print Assumptions C73_exclusive_partial.
(** Once Next returned an error of the parser (io.EOF at the end of the archive),
    the goroutine ends, in every schedule. *)
Theorem C73_ends_partial : forall s ops c e, execution (conc_start ops s) c -> stuck c ->
  In (SNext (Err e)) (cf_seen c) -> e <> EMsg "received header in the wrong order" -> cf_par c = TDone.
Proof.
  intros s ops c e E St I W. pose proof (exec_inv ctl ctl_step _ _ (ctl_start ops s) E) as (HP & _ & HE & HS).
  specialize (HS _ I). specialize (HE _ HS W).
  destruct c as [o m p s' ct er pv nc hc ec seen]. cbn [cf_par cf_headers_closed cf_errors_closed] in *.
  destruct p; try contradiction; [| |reflexivity].
  - destruct HP as [-> ->]. exfalso. eapply St. apply s_close_headers.
  - destruct HP as [-> ->]. exfalso. eapply St. apply s_close_errors.
Qed.
Print Assumptions C73_ends_partial.

Definition ex_arch : src := Src [nar (Dir [(bs "a", Reg false (bs "hello")); (bs "b", Sym (bs "a"))])] EEOF false.
Definition after_magic : src := snd (NewReader ex_arch).
(** Close gives the archive to the parser once more: it goes on parsing (with
    the content that was not read) while the caller may read from it.  What a Read
    returns then depends on the schedule. *)
Definition racy : list rd_op := [ONext; ONext; OClose; ORead 5].
Definition sched1 : list bool := [true; true; false; false; true; true; true; false; false; false; false; true; true; true; false; false; false].
Definition sched2 : list bool := [true; true; false; false; true; true; true; false; false; false; false; true; true; false; false; false; true].
Theorem C73_read_after_close_refuted : exists r s c1 c2, NewReader ex_arch = (Ok r, s) /\
  execution (conc_start racy s) c1 /\ execution (conc_start racy s) c2 /\ stuck c1 /\ stuck c2 /\
  cf_seen c1 <> cf_seen c2 /\
  exists c, execution (conc_start racy s) c /\ caller_free (cf_main c) /\ parser_works (cf_par c).
Proof.
  eexists. exists after_magic, (play sched1 (conc_start racy after_magic)), (play sched2 (conc_start racy after_magic)).
  split; [vm_compute; reflexivity|]. do 2 (split; [apply play_exec|]).
  split; [|split; [|split]].
  - apply stuck_when; [vm_compute; reflexivity|vm_compute; reflexivity|]. right. right. left. eexists. vm_compute. reflexivity.
  - apply stuck_when; [vm_compute; reflexivity|vm_compute; reflexivity|]. right. right. left. eexists. vm_compute. reflexivity.
  - vm_compute. discriminate.
  - exists (play (firstn 14 sched2) (conc_start racy after_magic)). split; [apply play_exec|]. vm_compute. auto.
Qed.
Print Assumptions C73_read_after_close_refuted.
(** The goroutine of a Reader that is closed before the end stays blocked, for ever. *)
Theorem C73_leak_refuted : exists r s c, NewReader ex_arch = (Ok r, s) /\
  execution (conc_start [ONext; ONext; OClose] s) c /\ stuck c /\ cf_ops c = [] /\ cf_par c <> TDone.
Proof.
  eexists. exists after_magic, (play sched1 (conc_start [ONext; ONext; OClose] after_magic)).
  split; [vm_compute; reflexivity|]. split; [apply play_exec|]. split; [|split; [vm_compute; reflexivity|vm_compute; discriminate]].
  apply stuck_when; [vm_compute; reflexivity|vm_compute; reflexivity|]. right. right. left. eexists. vm_compute. reflexivity.
Qed.
Print Assumptions C73_leak_refuted.
(** A run to the end of the same archive, with the parser as eager as possible. *)
Definition whole : list rd_op := [ONext; ONext; ORead 3; ONext; ONext; OClose].
Definition eager : list bool := concat (map (fun _ => [true; false; false; false; false]) (seq 0 30)).
Example C73_nonvacuous : no_read_after_close whole /\
  exists r s c, NewReader ex_arch = (Ok r, s) /\ execution (conc_start whole s) c /\ stuck c /\
    cf_par c = TDone /\ In (SNext (Err EEOF)) (cf_seen c) /\ In (SRead (bs "hel") None) (cf_seen c) /\
    length (headers_of (cf_seen c)) = 3.
Proof.
  split.
  - intros l1 l2 n E I. unfold whole in E. do 6 (destruct l1 as [|? l1]; [injection E; intros; subst; try discriminate; destruct I|injection E as _ E]). destruct l1; discriminate.
  - eexists. exists after_magic, (play eager (conc_start whole after_magic)).
    split; [vm_compute; reflexivity|]. split; [apply play_exec|]. split; [apply stuck_when; [vm_compute; reflexivity..|left; vm_compute; reflexivity]|].
    vm_compute. auto 12.
Qed.
