(** C96: the BadgerStore used from several goroutines. *)
From Verif Require Import Base.Bytes Base.BytesFacts Model.GoIO Model.Derivation Model.DrvParser Model.DrvStore
  Spec.StorePathSpec Spec.DerivationSpec Spec.StoreSpec Proof.DrvHash Proof.StoreBadger Proof.StoreLin Props.DerivationP Props.StoreP.
Ltac Zify.zify_post_hook ::= idtac.

(** Every call that returned took effect at one instant [e] between its start and
    its end: a Put running alone there has the same result and the same effect on
    the database. *)
Theorem C96_linearizable : forall sha es1 d es2 r, let es := es1 ++ EPut d :: es2 in let call := length (snd (after sha es1)) in
  Forall wf_maps (puts es) -> one_drv_a_path sha (puts es) -> no_crash es2 ->
  nth_error (snd (after sha es)) call = Some (PReturned r) ->
  exists before e rest commits, EPut d :: es2 = before ++ e :: rest /\ (before = [] /\ e = EPut d \/ e = EStep call commits) /\
    badger_Put sha (fst (after sha (es1 ++ before))) d commits = (r, fst (after sha (es1 ++ before ++ [e]))).
Proof.
  intros sha es1 d es2 r es call W N NCR E. destruct (linear sha (puts es) W N es1 d es2) as (c & E' & C); [apply Forall_forall; auto|exact NCR|].
  fold es call in E'. rewrite E in E'. injection E' as <-. exact C.
Qed.
Print Assumptions C96_linearizable.
(** No other step changes the database. *)
Theorem C96_only_there : forall sha es e, let b := fst (after sha es) in let b' := fst (after sha (es ++ [e])) in
  (forall n, e <> ECrash n) ->
  b' = b \/ exists call commits c p, e = EStep call commits /\ nth_error (snd (after sha es)) call = Some c /\ (forall r, c <> PReturned r) /\
    nth_error (snd (after sha (es ++ [e]))) call = Some (PReturned (Ok p)).
Proof.
  intros sha es e b b' NCR. subst b b'. rewrite after_snoc. assert (R : reachable sha (after sha es)) by (exists es; reflexivity). destruct (reach_good sha _ R) as (_ & F).
  destruct (after sha es) as [b calls]. cbn [fst snd] in F. destruct e as [d|i commits|n]; [left; reflexivity| |exfalso; exact (NCR n eq_refl)]. cbn [world_step].
  destruct (nth_error calls i) as [c|] eqn:E; [|left; reflexivity]. pose proof (Forall_nth_error _ _ _ _ F E) as G. destruct (put_step sha b commits c) as [c' b'] eqn:S.
  destruct (step_cases sha b commits c c' b' S G) as [(EB & _)|(p & t & x & EB & C & _)]; [left; exact EB|right].
  exists i, commits, c, p. split; [reflexivity|]. split; [exact E|]. split; [|cbn [snd]; rewrite (set_nth_same _ _ _ _ E), C; reflexivity].
  intros r ->. cbn [put_step] in S. assert (X : b' = b) by congruence. rewrite X in EB. apply (f_equal (@length txn)) in EB. rewrite app_length in EB. cbn [length] in EB. lia.
Qed.
Print Assumptions C96_only_there.
(** The database is what some of the calls leave, made one after the other; also after crashes. *)
Theorem C96_sequential : forall sha es, Forall wf_maps (puts es) -> one_drv_a_path sha (puts es) ->
  exists h, Forall (fun d => In d (puts es)) h /\ fst (after sha es) = badger_run sha h.
Proof.
  intros sha es W N. destruct (after_lin sha (puts es) W N es) as ((l & S) & _); [apply Forall_forall; auto|]. destruct (seq_run _ _ _ _ S) as (E & F). exists l. auto.
Qed.
Print Assumptions C96_sequential.
(** A call returns after at most three steps more than it has inputs, whatever the other calls do. *)
Theorem C96_wait_free : forall sha es1 d es2, no_crash es2 -> let call := length (snd (after sha es1)) in
  length (d_inputs d) + 3 <= steps_of call es2 -> exists r, nth_error (snd (after sha (es1 ++ EPut d :: es2))) call = Some (PReturned r).
Proof.
  intros sha es1 d es2 NCR call L. unfold after, world_run in *. rewrite fold_left_app. cbn [fold_left]. destruct (fold_left (world_step sha) es1 ([], [])) as [b calls] eqn:A. cbn [world_step snd] in *.
  assert (E : nth_error (calls ++ [put_start d]) call = Some (put_start d)) by (subst call; rewrite nth_error_app2 by lia; rewrite Nat.sub_diag; reflexivity).
  destruct (left_run sha es2 b (calls ++ [put_start d]) call _ NCR E) as (c' & E' & LE). exists (match c' with PReturned r => r | _ => Ok [] end). unfold world_run in E'. rewrite E'. f_equal.
  assert (LS : left_of (put_start d) <= length (d_inputs d) + 3). { unfold put_start. destruct (drv_Validate d); cbn [left_of]; [unfold mkeys; rewrite map_length; lia|lia|lia]. }
  destruct c' as [d1 todo|d1|d1 repl|r]; cbn [left_of] in LE; [lia..|reflexivity].
Qed.
Print Assumptions C96_wait_free.
(** The derivation b needs a; the check of b's input overlaps with the Put of a. *)
Definition overlap : list event := [EPut da; EStep 0 true; EPut db_; EStep 0 true; EStep 0 true; EStep 1 true] ++ run1 1 3.
Example C96_nonvacuous : Forall wf_maps (puts overlap) /\ one_drv_a_path sha0 (puts overlap) /\ no_crash overlap /\
  snd (after sha0 overlap) = [PReturned (Ok (zpath "a.drv")); PReturned (Ok (zpath "b.drv"))] /\ length (fst (after sha0 overlap)) = 2.
Proof.
  split; [pose proof hist_wf as HW; unfold hist in HW; inversion HW as [|? ? W1 HW1]; subst; inversion HW1 as [|? ? W2 HW2]; subst; apply Forall_cons; [exact W1|]; apply Forall_cons; [exact W2|apply Forall_nil]|].
  split. { intros d e [<-|[<-|[]]] [<-|[<-|[]]] P; try (vm_compute in P; discriminate); (repeat split; apply Permutation_refl). }
  split; [repeat (apply Forall_cons; [exact I|]); apply Forall_nil|]. split; vm_compute; reflexivity.
Qed.
