(** Property C107 of pkg/nar/dump.go and pkg/derivation/store: calls return and
    leave nothing open or running. *)
From Verif Require Import Base.Bytes Base.BytesFacts Model.GoIO Model.GoStd Model.Wire Model.Nar
  Model.NarWriter Model.NarDump Model.NarDumpOS Model.Storepath Model.Derivation Model.DrvParser Model.StoreBackends Model.Handles
  Spec.NarSpec Spec.NarDumpSpec Spec.NarDumpOSSpec Spec.HandlesSpec
  Proof.PathFacts Proof.EntryPath Proof.HandlesProps Props.NarDumpP Props.NarDumpOSP.
Ltac Zify.zify_post_hook ::= idtac.

(** The traced functions are those of the other theorems. *)
Theorem C107_dump_trace : forall filter root W fuel w,
  fst (DumpEv filter root W fuel w) = DumpOS filter root W fuel w.
Proof. exact DumpEv_erase. Qed.
Print Assumptions C107_dump_trace.
Theorem C107_store_trace : forall json o ask dir base p,
  fst (fs_Get_ev json o dir p) = fs_Get json o dir p /\
  fst (http_Get_ev json ask base p) = http_Get json ask base p /\
  fst (http_Has_ev ask base p) = http_Has ask base p.
Proof. intros json o ask dir base p. split; [apply fs_Get_erase|]. split; [apply http_Get_erase|apply http_Has_erase]. Qed.
Print Assumptions C107_store_trace.

(** C107: a dump of any file system, changing or not, to any writer, returns
    nil or an error (no panic, no hang); the writer's goroutine has ended, and
    every file was closed again, before the next was opened.  ReadDir gives
    names without slashes (else the walk could leave the tree), and the
    directories are not nested without end. *)
Theorem C107_dump_returns : forall filter root W depth fuel w x calls w' events g,
  readdir_names W -> no_deeper root W depth -> depth < fuel ->
  DumpEv filter root W fuel w = ((x, (calls, w')), (events, g)) ->
  (x = WOk \/ exists e, x = WErr e) /\ g <> Running /\ one_at_a_time events.
Proof. intros flt root W d fuel w x k w' evs g H1 H2 H3 H4. exact (DumpEv_all flt root W d fuel w x k w' evs g H1 H2 H3 H4). Qed.
Print Assumptions C107_dump_returns.
(** The files, without these two assumptions. *)
Theorem C107_dump_closes : forall filter root W fuel w now,
  one_at_a_time (fst (snd (DumpEv filter root W fuel w))) /\
  open_files (fst (snd (DumpEv filter root W fuel w))) now = now.
Proof.
  intros flt root W fuel w now. destruct (DumpEv flt root W fuel w) as [[x [k w']] [evs g]] eqn:E.
  destruct (DumpEv_returns _ _ _ _ _ _ _ _ _ _ E) as [O _]. cbn [fst snd]. split; [exact O|apply oat_open; exact O].
Qed.
Print Assumptions C107_dump_closes.
(** The HTTP store closes every response body, whatever the status, the body
    and the result. *)
Theorem C107_http_closes : forall json ask base p now,
  open_files (snd (http_Get_ev json ask base p)) now = now /\ open_files (snd (http_Has_ev ask base p)) now = now.
Proof.
  intros json ask base p now. unfold http_Get_ev, http_Has_ev.
  destruct (ask _) as [r|e|m]; cbn [snd open_files]; rewrite ?close_one_head; auto.
Qed.
Print Assumptions C107_http_closes.
(** The file store does not: each Get of a file that can be opened leaves it
    open, whether or not it is a derivation (until the garbage collector finds
    it, on which the language gives no promise). *)
Theorem C107_file_store_refuted : forall json o dir ps,
  (forall p, In p ps -> exists s, os_open o (getFilepath dir p) = Ok s) ->
  length (open_files (snd (fs_Gets_ev json o dir ps)) []) = length ps.
Proof.
  intros json o dir ps H. rewrite fs_Gets_open by exact H. rewrite app_nil_r, rev_length, map_length. reflexivity.
Qed.
Print Assumptions C107_file_store_refuted.

(** * Examples *)
Lemma under_d c : entry_name c -> full_path (bs "/d") [c] = path_of [bs "d"; c].
Proof.
  intros Hn. unfold full_path, Join2. change (path_of [c]) with (slash :: c).
  change (Clean (slash :: (bs "d" ++ slash :: ([] ++ slash :: c))) = path_of [bs "d"; c]). rewrite Clean_rooted.
  rewrite split_app by (intros [H|[]]; discriminate). rewrite split_app by (intros []).
  rewrite split_nosep by (apply entry_name_noslash; exact Hn). cbn [clean_go].
  destruct (entry_name_plain _ Hn) as (P1 & P2 & P3). apply beq_neq in P1, P2, P3. rewrite P1, P2, P3. reflexivity.
Qed.
Lemma torn_shallow : no_deeper (bs "/d") torn_world 1.
Proof.
  intros k [|c [|]] Hc H; try discriminate H. inversion Hc as [|? ? Hn _]; subst. rewrite under_d by exact Hn. unfold torn_world.
  assert (E : beq (path_of [bs "d"; c]) (bs "/d") = false).
  { apply beq_neq. change (bs "/d") with (path_of [bs "d"]). intros E. apply (f_equal (@length byte)) in E.
    cbn in E. lia. }
  rewrite E. destruct (beq _ (bs "/d/a")); [discriminate|]. destruct (beq _ (bs "/d/b")); discriminate.
Qed.
(** The torn dump of C106, and the same to a full disk: both return, with two
    or one file opened and closed. *)
Example C107_nonvacuous :
  readdir_names torn_world /\ no_deeper (bs "/d") torn_world 1 /\
  snd (DumpEv None (bs "/d") torn_world 2 (Sink [] [])) =
    ([Opened (bs "/d/a"); Closed (bs "/d/a"); Opened (bs "/d/b"); Closed (bs "/d/b")], Ended) /\
  (exists e k w, DumpEv None (bs "/d") torn_world 2 (Sink [] (repeat None 40 ++ [Some 0])) =
    ((WErr e, (k, w)), ([Opened (bs "/d/a"); Closed (bs "/d/a")], Ended))).
Proof.
  split; [intros k p ns H; apply (proj2 (torn_ok k p)) in H; apply H|]. split; [exact torn_shallow|].
  split; [vm_compute; reflexivity|]. eexists _, _, _. vm_compute. reflexivity.
Qed.
(** The same file, which is no derivation, fetched three times. *)
Example C107_file_store_nonvacuous :
  open_files (snd (fs_Gets_ev (fun _ => Err (EMsg "json")) (Os (fun _ => LKind KRegular) (fun _ => Ok (Src [bs "x"] EEOF false)))
    (bs "/nix/store") (repeat (bs "/nix/store/a.drv") 3))) [] = repeat (bs "/nix/store/a.drv") 3.
Proof. vm_compute. reflexivity. Qed.
