(** Property C121: a content-addressed path names one file tree. *)
From Verif Require Import Base.Bytes Base.BytesFacts Model.GoIO Model.GoStd Model.Nar Model.NarWriter Model.NarDump Model.Nixhash Model.Storepath Model.Derivation
  Spec.StorePathSpec Spec.NarSpec Spec.NarDumpSpec Spec.DerivationSpec Spec.DrvIdSpec Spec.PipelineSpec Spec.ContentSpec
  Proof.PathFacts Proof.StorePathProps Proof.DrvEncode Proof.DrvHash Proof.PipelineProps Props.NarDumpP Props.DerivationP Props.IdentityP.
Ltac Zify.zify_post_hook ::= idtac.

(** The path is determined by the name and the digest alone, whatever else the derivation says. *)
Theorem C121_path : forall sha d repl paths o archive, wf_maps d -> In (bs "out", o) (d_outputs d) -> states sha archive o ->
  CalculateOutputPaths sha d repl = Ok paths ->
  exists c, path_digest sha (source_fp sha archive (drv_Name d)) = Ok c /\ length c = 20 /\ mget paths (bs "out") = Some (sp_Absolute (SP (drv_Name d) c)).
Proof.
  intros sha d repl paths o a W I (A & H) E. rewrite Calc_eq in E. destruct (drv_Name d) as [|c0 dn] eqn:DN; [discriminate|].
  assert (NO : NoDup (mkeys (d_outputs d))) by apply W.
  assert (OP : opath sha (c0 :: dn) (drv_bytes d true repl) (bs "out") o = Ok (sp_Absolute (SP (c0 :: dn) (fold20 (sha (source_fp sha a (c0 :: dn))))))).
  { unfold opath. rewrite A, H. reflexivity. }
  set (p := sp_Absolute _) in OP.
  assert (X : forall l (acc : amap bytes), NoDup (mkeys l) -> (In (bs "out", o) l \/ ~ In (bs "out") (mkeys l) /\ mget acc (bs "out") = Some p) ->
    opaths sha (c0 :: dn) (drv_bytes d true repl) acc l = Ok paths -> mget paths (bs "out") = Some p).
  { clear - OP. induction l as [|[n o1] l IH]; intros acc N J E; cbn [opaths] in E; [injection E as <-; destruct J as [[]|(_ & J)]; exact J|].
    destruct (opath sha (c0 :: dn) (drv_bytes d true repl) n o1) as [q|x|x] eqn:O; cbn [rbind] in E; try discriminate.
    unfold mkeys in N. cbn [map fst] in N. inversion N as [|? ? N1 N2]; subst. refine (IH _ N2 _ E). destruct J as [[J|J]|(J1 & J2)].
    - injection J as -> ->. right. split; [exact N1|]. rewrite mset_same. congruence.
    - left. exact J.
    - right. unfold mkeys in J1. cbn [map fst In] in J1. split; [intros K; apply J1; right; exact K|]. rewrite mset_other; [exact J2|]. intros K. apply J1. left. congruence. }
  exists (fold20 (sha (source_fp sha a (c0 :: dn)))). destruct (fold20_eq (sha (source_fp sha a (c0 :: dn)))) as (F1 & F2). split; [exact F1|]. split; [exact F2|].
  exact (X (d_outputs d) [] NO (or_introl I) E).
Qed.
Print Assumptions C121_path.

(** Dumping a tree and stating the digest of the archive: two such paths are equal only if the trees are. *)
Lemma dump_is_nar archive t : dump_of archive t -> archive = nar t.
Proof.
  intros (flt & root & f & w & FO & DU & TR & <-). destruct (C39_success_is_complete _ _ _ _ _ FO DU) as (_ & t' & TR' & _ & OUT). cbn [out app] in OUT. congruence.
Qed.
Theorem C121_one_tree : forall sha d e repl repl' paths paths' o o' archive archive' t u p, (forall b, length (sha b) = 32) -> wf_maps d -> wf_maps e ->
  name_text (drv_Name d) -> name_text (drv_Name e) -> go_sized t -> go_sized u ->
  dump_of archive t -> dump_of archive' u -> In (bs "out", o) (d_outputs d) -> In (bs "out", o') (d_outputs e) -> states sha archive o -> states sha archive' o' ->
  CalculateOutputPaths sha d repl = Ok paths -> CalculateOutputPaths sha e repl' = Ok paths' ->
  mget paths (bs "out") = Some p -> mget paths' (bs "out") = Some p ->
  drv_Name d = drv_Name e /\
  (t = u \/ collide sha archive archive' \/ collide (path_digest sha) (source_fp sha archive (drv_Name d)) (source_fp sha archive' (drv_Name e))).
Proof.
  intros sha d e repl repl' paths paths' o o' a a' t u p S W W' A A' G G' D D' I I' Q Q' C C' M M'.
  assert (NE : drv_Name d <> []) by (intros X; rewrite Calc_eq, X in C; discriminate C). assert (NE' : drv_Name e <> []) by (intros X; rewrite Calc_eq, X in C'; discriminate C').
  destruct (C121_path sha d repl paths o a W I Q C) as (c & F & L & P), (C121_path sha e repl' paths' o' a' W' I' Q' C') as (c' & F' & L' & P').
  assert (EQ : sp_Absolute (SP (drv_Name d) c) = sp_Absolute (SP (drv_Name e) c')) by congruence.
  destruct (Absolute_inj _ _ c c' L L' (conj NE A) (conj NE' A') EQ) as [NN <-]. split; [exact NN|].
  destruct (text_dec a a') as [E|E]; [left; apply nar_inj; [exact G|exact G'|]; apply dump_is_nar in D, D'; congruence|]. right.
  destruct (text_dec (source_fp sha a (drv_Name d)) (source_fp sha a' (drv_Name e))) as [Z|Z]; [|right; split; [exact Z|congruence]].
  left. split; [exact E|]. unfold source_fp in Z. rewrite NN in Z. apply app_inv_head in Z. apply app_inv_tail in Z. exact (hex_inj _ _ Z).
Qed.
Print Assumptions C121_one_tree.
(** The same tree under the same name has one path, whoever dumps it and whatever else the two derivations say. *)
Theorem C121_same_tree : forall sha d e repl repl' paths paths' o o' archive archive' t, wf_maps d -> wf_maps e -> drv_Name d = drv_Name e ->
  dump_of archive t -> dump_of archive' t -> In (bs "out", o) (d_outputs d) -> In (bs "out", o') (d_outputs e) -> states sha archive o -> states sha archive' o' ->
  CalculateOutputPaths sha d repl = Ok paths -> CalculateOutputPaths sha e repl' = Ok paths' ->
  exists p, mget paths (bs "out") = Some p /\ mget paths' (bs "out") = Some p.
Proof.
  intros sha d e repl repl' paths paths' o o' a a' t W W' N D D' I I' Q Q' C C'. apply dump_is_nar in D, D'. subst a a'.
  destruct (C121_path sha d repl paths o _ W I Q C) as (c & F & L & P), (C121_path sha e repl' paths' o' _ W' I' Q' C') as (c' & F' & L' & P').
  rewrite <- N in F', P'. rewrite F in F'. injection F' as <-. eauto.
Qed.
Print Assumptions C121_same_tree.
Definition tree_drv (archive : bytes) (srcs : list bytes) (builder : bytes) : drv :=
  Drv [] [(bs "out", Output [] (bs "r:sha256") (hex_encode (toy archive)))] srcs [] (bs "x86_64-linux") builder [] [(bs "name", bs "x")].
(** A filtered dump and a dump of a file: one path for each. *)
Lemma tree_dump : dump_of (nar ex_fs_tree) ex_fs_tree.
Proof.
  destruct (DumpPathFilter ex_filter (bs "/tmp/d") (Sink [] []) ex_fs) as [o w] eqn:D. exists ex_filter, (bs "/tmp/d"), ex_fs, w.
  split; [apply C38_nonvacuous|]. assert (O : o = WOk) by (apply (f_equal fst) in D; cbn [fst] in D; rewrite <- D; vm_compute; reflexivity). split; [congruence|].
  split; [vm_compute; reflexivity|]. apply (f_equal (fun p => out (snd p))) in D. cbn [snd] in D. rewrite <- D. vm_compute. reflexivity.
Qed.
Lemma file_dump : dump_of (nar (Reg true (bs "hi"))) (Reg true (bs "hi")).
Proof.
  destruct (DumpPathFilter None (bs "/tmp/f") (Sink [] []) (FReg 493 2 (Src [bs "h"; bs "i"] EEOF true))) as [o w] eqn:D. exists None, (bs "/tmp/f"), (FReg 493 2 (Src [bs "h"; bs "i"] EEOF true)), w.
  split; [constructor; cbn; try reflexivity; repeat constructor; discriminate|]. assert (O : o = WOk) by (apply (f_equal fst) in D; cbn [fst] in D; rewrite <- D; vm_compute; reflexivity). split; [congruence|].
  split; [vm_compute; reflexivity|]. apply (f_equal (fun p => out (snd p))) in D. cbn [snd] in D. rewrite <- D. vm_compute. reflexivity.
Qed.
Example C121_nonvacuous : exists p q,
  let d := tree_drv (nar ex_fs_tree) [] (bs "/bin/sh") in let e := tree_drv (nar ex_fs_tree) [p1] (bs "/bin/bash") in let f := tree_drv (nar (Reg true (bs "hi"))) [] (bs "/bin/sh") in
  dump_of (nar ex_fs_tree) ex_fs_tree /\ dump_of (nar (Reg true (bs "hi"))) (Reg true (bs "hi")) /\ go_sized ex_fs_tree /\ go_sized (Reg true (bs "hi")) /\
  wf_maps d /\ wf_maps e /\ wf_maps f /\ drv_Name d = bs "x" /\ drv_Name f = bs "x" /\ name_text (bs "x") /\
  states toy (nar ex_fs_tree) (Output [] (bs "r:sha256") (hex_encode (toy (nar ex_fs_tree)))) /\
  CalculateOutputPaths toy d [] = Ok [(bs "out", p)] /\ CalculateOutputPaths toy e [(p2, [])] = Ok [(bs "out", p)] /\ CalculateOutputPaths toy f [] = Ok [(bs "out", q)] /\
  Validate p = Ok tt /\ Validate q = Ok tt /\ p <> q.
Proof.
  assert (W : forall a s b, wf_maps (tree_drv a s b)). { intros. repeat split; try (cbn; repeat constructor; intuition discriminate). }
  assert (H : match CalculateOutputPaths toy (tree_drv (nar ex_fs_tree) [] (bs "/bin/sh")) [], CalculateOutputPaths toy (tree_drv (nar ex_fs_tree) [p1] (bs "/bin/bash")) [(p2, [])], CalculateOutputPaths toy (tree_drv (nar (Reg true (bs "hi"))) [] (bs "/bin/sh")) [] with
    | Ok [(a, p)], Ok [(b, p')], Ok [(c, q)] => beq a (bs "out") && beq b (bs "out") && beq c (bs "out") && beq p p' && negb (beq p q) && is_ok (Validate p) && is_ok (Validate q) | _, _, _ => false end = true) by (vm_compute; reflexivity).
  destruct (CalculateOutputPaths toy (tree_drv (nar ex_fs_tree) [] (bs "/bin/sh")) []) as [[|[a p] [|]]|x|x] eqn:E1; try discriminate. destruct (CalculateOutputPaths toy (tree_drv (nar ex_fs_tree) [p1] (bs "/bin/bash")) [(p2, [])]) as [[|[b p'] [|]]|x|x] eqn:E2; try discriminate.
  destruct (CalculateOutputPaths toy (tree_drv (nar (Reg true (bs "hi"))) [] (bs "/bin/sh")) []) as [[|[c q] [|]]|x|x] eqn:E3; try discriminate.
  rewrite !andb_true_iff, !negb_true_iff in H. destruct H as ((((((H1 & H2) & H3) & H4) & H5) & H6) & H7). apply beq_eq in H1, H2, H3, H4. apply beq_neq in H5. subst a b c p'.
  exists p, q. cbn zeta. split; [exact tree_dump|]. split; [exact file_dump|]. split; [repeat (constructor; cbn [fst snd]); vm_compute; reflexivity|]. split; [repeat constructor|].
  do 3 (split; [apply W|]). split; [reflexivity|]. split; [reflexivity|]. split; [apply alpha_dec; vm_compute; reflexivity|]. split; [split; reflexivity|].
  split; [exact E1|]. split; [exact E2|]. split; [exact E3|]. destruct (Validate p) as [[]|x|x], (Validate q) as [[]|y|y]; try discriminate. auto.
Qed.
