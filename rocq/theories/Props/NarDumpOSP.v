(** Property C106 of /repo/pkg/nar/dump.go: dumping a tree that changes meanwhile. *)
From Verif Require Import Base.Bytes Base.BytesFacts Model.GoIO Model.GoStd Model.Wire Model.Nar
  Model.NarWriter Model.NarDump Model.NarDumpOS Spec.NarSpec Spec.NarWHist Spec.NarDumpSpec Spec.NarDumpOSSpec
  Proof.NarWriterComplete Proof.NarDumpProps Proof.NarDumpOSProps Props.NarDumpP.
Ltac Zify.zify_post_hook ::= idtac.

(** C106: whatever the file system answers to each system call, and whatever
    the writer does, success means that exactly one complete archive was
    written, of a valid tree every node of which the file system showed, in the
    order of the walk; no entry of a listed directory is missing except those
    the filter rejected as they were shown. *)
Theorem C106_success_was_seen : forall filter root W fuel w0 n w,
  os_ok W -> DumpOS filter root W fuel w0 = (WOk, (n, w)) ->
  exists t, sees (keep_of filter) root W 0 n [] t /\ writable t /\ out w = out w0 ++ nar t.
Proof. intros flt root W fuel w0 n w HW. apply os_success. exact HW. Qed.
Print Assumptions C106_success_was_seen.

(** Conversely a tree that was shown completely is dumped, by a writer that
    does not fail, as far down as it goes; [writable] excludes names that begin
    with "..", see C38. *)
Theorem C106_seen_is_dumped : forall filter root W o n t,
  os_ok W -> sees (keep_of filter) root W 0 n [] t -> writable t ->
  exists depth, forall fuel, depth <= fuel ->
    exists w, DumpOS filter root W fuel (Sink o []) = (WOk, (n, w)) /\ out w = o ++ nar t.
Proof. intros flt root W o n t HW. apply os_perfect. exact HW. Qed.
Print Assumptions C106_seen_is_dumped.

(** A file system that shows one tree and does not change gives what
    Model/NarDump.v gives: C38, C39 and C103 are about this dump, too. *)
Theorem C106_still_tree : forall filter root W f,
  fs_ok f -> still root W [] f ->
  exists depth, forall fuel w, depth <= fuel -> exists calls,
    DumpOS filter root W fuel w =
      (fst (DumpPathFilter filter root w f), (calls, snd (DumpPathFilter filter root w f))).
Proof. intros flt root W f. apply still_DumpOS. Qed.
Print Assumptions C106_still_tree.

(** * Examples *)
(** Two files are both rewritten between reading the one and looking at the
    other: the archive is of a tree that never existed. *)
Definition file_answer (c : bytes) : os_answer :=
  OA (LReg 420 (Z.of_nat (length c))) (inr (EIo 5)) (inr (EIo 5)) (inl (Src [c] EEOF false)).
Definition torn_world (k : nat) (p : bytes) : os_answer :=
  let now := if Nat.ltb k 4 then bs "old" else bs "newer" in
  if beq p (bs "/d") then OA LDir (inr (EIo 5)) (inl [bs "a"; bs "b"]) (inr (EIo 5))
  else if beq p (bs "/d/a") then file_answer now
  else if beq p (bs "/d/b") then file_answer now
  else OA (LErr (EIo 2)) (inr (EIo 5)) (inr (EIo 5)) (inr (EIo 5)).
Definition torn_tree : node := Dir [(bs "a", Reg false (bs "old")); (bs "b", Reg false (bs "newer"))].
Lemma torn_ok : os_ok torn_world.
Proof.
  intros k p. unfold torn_world, file_answer.
  assert (E : forall n, In n [bs "a"; bs "b"] -> entry_name n).
  { intros n H. repeat destruct H as [<-|H]; try destruct H; repeat split; try discriminate; cbn; intuition discriminate. }
  split.
  - intros m s. destruct (beq p (bs "/d")); [discriminate|]. destruct (beq p (bs "/d/a")); [|destruct (beq p (bs "/d/b"))];
      cbn [a_lstat]; intros H; try discriminate; injection H as _ <-; destruct (Nat.ltb k 4); split; reflexivity || discriminate.
  - intros ns. destruct (beq p (bs "/d")); [|destruct (beq p (bs "/d/a")); [|destruct (beq p (bs "/d/b"))]];
      cbn [a_readdir]; try discriminate. intros H. injection H as <-. split; [|split; [reflexivity|exact I]].
    repeat constructor; apply E; cbn; auto.
Qed.
Theorem C106_torn_dump : exists w,
  os_ok torn_world /\ DumpOS None (bs "/d") torn_world 9 (Sink [] []) = (WOk, (6, w)) /\
  sees (keep_of None) (bs "/d") torn_world 0 6 [] torn_tree /\ out w = nar torn_tree.
Proof.
  eexists. split; [exact torn_ok|]. split; [vm_compute; reflexivity|]. split; [|vm_compute; reflexivity].
  unfold torn_tree. eapply see_dir; [reflexivity|reflexivity|reflexivity|].
  apply (list_keep _ _ _ 2 4 6); [|apply (list_keep _ _ _ 4 6 6); [|constructor]].
  - apply (see_reg _ (bs "/d") torn_world 2 ([] ++ [bs "a"]) 420 3 (Src [bs "old"] EEOF false)); reflexivity.
  - apply (see_reg _ (bs "/d") torn_world 4 ([] ++ [bs "b"]) 420 5 (Src [bs "newer"] EEOF false)); reflexivity.
Qed.
Print Assumptions C106_torn_dump.
(** A file that grows between Lstat and the reads, one that vanishes after
    ReadDir, a directory that becomes a file before ReadDir: all errors. *)
Example C106_failures :
  let W1 k p := if beq p (bs "/d") then OA LDir (inr (EIo 5)) (inl [bs "a"]) (inr (EIo 5))
                else OA (LReg 420 2) (inr (EIo 5)) (inr (EIo 5)) (inl (Src [bs "ab"; bs "c"] EEOF false)) in
  let W2 k p := if beq p (bs "/d") then OA LDir (inr (EIo 5)) (inl [bs "a"]) (inr (EIo 5))
                else OA (LErr (EMsg "not exist")) (inr (EIo 5)) (inr (EIo 5)) (inr (EIo 5)) in
  let W3 (k : nat) (p : bytes) := match k with O => OA LDir (inr (EIo 5)) (inr (EIo 5)) (inr (EIo 5))
                   | _ => OA (LReg 420 0) (inr (EIo 5)) (inr (EIo 20)) (inr (EIo 5)) end in
  Forall (fun W : nat -> bytes -> os_answer => fst (DumpOS None (bs "/d") W 9 (Sink [] [])) <> WOk) [W1; W2; W3].
Proof. repeat constructor; vm_compute; discriminate. Qed.
(** [os_ok] is needed: if ReadDir lists an empty directory twice, the dump
    succeeds with something that is no archive (an entry named "."). *)
Definition twice_world (k : nat) (p : bytes) : os_answer :=
  if beq p (bs "/d") then OA LDir (inr (EIo 5)) (inl [bs "a"; bs "a"]) (inr (EIo 5))
  else OA LDir (inr (EIo 5)) (inl []) (inr (EIo 5)).
Example C106_needs_distinct_names : exists w,
  DumpOS None (bs "/d") twice_world 9 (Sink [] []) = (WOk, (6, w)) /\
  out w <> nar (Dir [(bs "a", Dir [])]) /\ out w = nar (Dir [(bs "a", Dir [(bs ".", Dir [])])]).
Proof. eexists. split; [vm_compute; reflexivity|]. split; [vm_compute; discriminate|vm_compute; reflexivity]. Qed.
(** The tree of Props/NarDumpP.v as a file system that does not change. *)
Definition still_world (k : nat) (p : bytes) : os_answer :=
  let at_ f := match f with
    | FReg m s d => OA (LReg m s) (inr (EIo 5)) (inr (EIo 5)) (inl d)
    | FSym t => OA LSym (inl t) (inr (EIo 5)) (inr (EIo 5))
    | FDir es => OA LDir (inr (EIo 5)) (inl (map fst es)) (inr (EIo 5))
    | FSpecial => OA LSpecial (inr (EIo 5)) (inr (EIo 5)) (inr (EIo 5))
    | _ => OA (LErr (EIo 2)) (inr (EIo 5)) (inr (EIo 5)) (inr (EIo 5))
    end in
  match ex_fs with
  | FDir [(_, FDir [(_, sh)] as bin); (_, lib); (_, FDir [(_, dev)] as skip); (_, z)] =>
      if beq p (bs "/tmp/d") then at_ ex_fs
      else if beq p (bs "/tmp/d/bin") then at_ bin
      else if beq p (bs "/tmp/d/bin/sh") then at_ sh
      else if beq p (bs "/tmp/d/lib") then at_ lib
      else if beq p (bs "/tmp/d/skip") then at_ skip
      else if beq p (bs "/tmp/d/skip/dev") then at_ dev
      else at_ z
  | _ => at_ ex_fs
  end.
Example C106_still_nonvacuous : still (bs "/tmp/d") still_world [] ex_fs /\ fs_ok ex_fs /\
  exists w, DumpOS ex_filter (bs "/tmp/d") still_world 4 (Sink [] []) = (WOk, (11, w)) /\ out w = nar ex_fs_tree.
Proof.
  split; [|split; [apply C38_nonvacuous|eexists; split; vm_compute; reflexivity]].
  assert (L : forall cs f, (forall es, f <> FDir es) -> (forall k, answers f (still_world k (full_path (bs "/tmp/d") cs))) ->
    still (bs "/tmp/d") still_world cs f).
  { intros cs f Hn Ha. constructor; [exact Ha|]. intros es ->. exfalso. eapply Hn. reflexivity. }
  constructor; [intros k; split; reflexivity|]. intros es H; inversion H; subst; clear H.
  repeat apply Forall_cons; try apply Forall_nil; cbn [fst snd].
  - constructor; [intros k; split; reflexivity|]. intros es H; inversion H; subst; clear H.
    repeat apply Forall_cons; try apply Forall_nil. apply L; [discriminate|intros k; split; reflexivity].
  - apply L; [discriminate|intros k; split; reflexivity].
  - constructor; [intros k; split; reflexivity|]. intros es H; inversion H; subst; clear H.
    repeat apply Forall_cons; try apply Forall_nil. apply L; [discriminate|intros k; reflexivity].
  - apply L; [discriminate|intros k; split; reflexivity].
Qed.
