(** Properties C38 and C39 of /repo/pkg/nar/dump.go. *)
From Verif Require Import Base.Bytes Base.BytesFacts Model.GoIO Model.GoStd Model.Wire Model.Nar
  Model.NarWriter Model.NarDump Spec.NarSpec Spec.NarWHist Spec.NarDumpSpec
  Proof.NarWriterComplete Proof.NarDumpProps.
Ltac Zify.zify_post_hook ::= idtac.

(** C38: dumping a readable tree to a writer that does not fail appends its
    archive, whatever the filter, the read fragmentation and the bytes already
    written.  [writable] excludes only names that begin with "..". *)
Theorem C38_dump_filter_partial : forall filter root o f t,
  fs_ok f -> intact (keep_of filter) root [] f -> tree_of (keep_of filter) root [] f = Some t -> writable t ->
  exists w, DumpPathFilter filter root (Sink o []) f = (WOk, w) /\ out w = o ++ nar t.
Proof. intros flt root o f t H1 H2 H3. pose proof (dump_perfect flt root o f H1 H2) as H. rewrite H3 in H. exact H. Qed.
Print Assumptions C38_dump_filter_partial.
Corollary C38_dump_partial : forall root o f t,
  fs_ok f -> intact (fun _ _ => true) root [] f -> tree_of (fun _ _ => true) root [] f = Some t -> writable t ->
  exists w, DumpPathFilter None root (Sink o []) f = (WOk, w) /\ out w = o ++ nar t.
Proof. intros root o f t. exact (C38_dump_filter_partial None root o f t). Qed.
Print Assumptions C38_dump_partial.
(** Exactly: a readable tree can be dumped if and only if it is [writable]. *)
Theorem C38_exact : forall filter root o f t,
  fs_ok f -> intact (keep_of filter) root [] f -> tree_of (keep_of filter) root [] f = Some t ->
  (writable t <-> exists w, DumpPathFilter filter root (Sink o []) f = (WOk, w)).
Proof.
  intros flt root o f t H1 H2 H3. split.
  - intros Hw. destruct (C38_dump_filter_partial flt root o f t H1 H2 H3 Hw) as (w & E & _). eauto.
  - intros (w & E). destruct (dump_success_w flt root _ f w H1 E) as (_ & t' & T1 & T2 & _). congruence.
Qed.
Print Assumptions C38_exact.
(** There is no archive of nothing: if the filter rejects the root, an error. *)
Theorem C38_root_rejected : forall filter root o f,
  fs_ok f -> intact (keep_of filter) root [] f -> tree_of (keep_of filter) root [] f = None ->
  exists e w, DumpPathFilter filter root (Sink o []) f = (WErr e, w).
Proof. intros flt root o f H1 H2 H3. pose proof (dump_perfect flt root o f H1 H2) as H. rewrite H3 in H. exact H. Qed.
Print Assumptions C38_root_rejected.
(** Missing from the full property: names that begin with "..", which Linux and
    the NAR format allow; dumping them fails. *)
Definition dotdot_fs : fs := FDir [(bs "..x", FReg 420 1 (Src [bs "a"] EEOF false))].
Theorem C38_dump_refuted :
  fs_ok dotdot_fs /\ intact (fun _ _ => true) (bs "/tmp/d") [] dotdot_fs /\
  tree_of (fun _ _ => true) (bs "/tmp/d") [] dotdot_fs = Some (Dir [(bs "..x", Reg false (bs "a"))]) /\
  exists e w, DumpPathFilter None (bs "/tmp/d") (Sink [] []) dotdot_fs = (WErr e, w).
Proof.
  split; [|split; [|split]].
  - constructor; [|exact I|]; repeat constructor; try discriminate; cbn [fst];
      intros H; repeat destruct H as [H|H]; try discriminate H; destruct H.
  - cbn. auto.
  - vm_compute. reflexivity.
  - eexists _, _. vm_compute. reflexivity.
Qed.
Print Assumptions C38_dump_refuted.

(** C39: success, on any writer, means the whole archive was written, and that
    everything kept was readable, of a known type and had its stat size. *)
Theorem C39_success_is_complete : forall filter root w0 f w,
  fs_ok f -> DumpPathFilter filter root w0 f = (WOk, w) ->
  intact (keep_of filter) root [] f /\
  exists t, tree_of (keep_of filter) root [] f = Some t /\ writable t /\ out w = out w0 ++ nar t.
Proof. intros flt root w0 f w. apply dump_success_w. Qed.
Print Assumptions C39_success_is_complete.

(** A tree with every kind of node, read in pieces, with a filter that drops a directory. *)
Definition ex_fs : fs :=
  FDir [ (bs "bin", FDir [(bs "sh", FReg 493 5 (Src [bs "#!"; []; bs "sh"; bs "x"] EEOF true))]);
         (bs "lib", FSym (bs "/usr/lib"));
         (bs "skip", FDir [(bs "dev", FSpecial)]);
         (bs "z", FReg 420 0 (Src [] EEOF false)) ].
Definition ex_filter : option (bytes -> bytes -> bool) :=
  Some (fun p t => negb (beq p (bs "/tmp/d/skip") && beq t (bs "directory"))).
Definition ex_fs_tree : node :=
  Dir [ (bs "bin", Dir [(bs "sh", Reg true (bs "#!shx"))]); (bs "lib", Sym (bs "/usr/lib")); (bs "z", Reg false []) ].
Lemma ex_names n : In n [bs "bin"; bs "sh"; bs "lib"; bs "skip"; bs "dev"; bs "z"] -> entry_name n /\ writer_name n.
Proof.
  intros Hin. repeat destruct Hin as [<-|Hin]; try destruct Hin; (split; [|discriminate]);
    repeat split; try discriminate; cbn; intuition discriminate.
Qed.
Example C38_nonvacuous :
  fs_ok ex_fs /\ intact (keep_of ex_filter) (bs "/tmp/d") [] ex_fs /\
  tree_of (keep_of ex_filter) (bs "/tmp/d") [] ex_fs = Some ex_fs_tree /\ writable ex_fs_tree.
Proof.
  split; [|split; [|split]].
  - repeat (constructor; cbn [fst snd]); try (apply ex_names; cbn; tauto); try discriminate; reflexivity.
  - vm_compute. repeat split; discriminate.
  - vm_compute. reflexivity.
  - repeat (constructor; cbn [fst snd]); try (apply ex_names; cbn; tauto); try discriminate; reflexivity.
Qed.
Example C38_root_rejected_nonvacuous :
  tree_of (keep_of (Some (fun _ _ => false))) (bs "/x") [] ex_fs = None /\
  intact (keep_of (Some (fun _ _ => false))) (bs "/x") [] ex_fs.
Proof. vm_compute. auto. Qed.
(** Failures C39 is about: a file that shrank, one that grew, a device, a full disk. *)
Example C39_nonvacuous :
  (exists w, DumpPathFilter ex_filter (bs "/tmp/d") (Sink [] [None; None]) ex_fs = (WOk, w)) /\
  Forall (fun p => fst (DumpPathFilter None (bs "/tmp/d") (snd p) (fst p)) <> WOk)
    [ (FReg 420 2 (Src [bs "a"] EEOF false), Sink [] []);
      (FReg 420 1 (Src [bs "ab"] EEOF false), Sink [] []);
      (FDir [(bs "dev", FSpecial)], Sink [] []);
      (ex_fs, Sink [] [None; None; None; None; None; None; Some 3]) ].
Proof.
  split; [eexists; vm_compute; reflexivity|].
  repeat constructor; vm_compute; discriminate.
Qed.
