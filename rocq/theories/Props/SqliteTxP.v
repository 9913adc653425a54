(** C115: transactions over the SQLite databases of /repo/pkg/sqlite. *)
From Verif Require Import Base.Bytes Base.BytesFacts Model.GoIO Model.Sqlite Model.SqliteTx Spec.SqliteSpec Spec.SqliteTxSpec Proof.SqliteTxProps Props.SqliteP.
Ltac Zify.zify_post_hook ::= idtac.

(** Whatever the interleaving of statements, queries, Begins, Commits, Rollbacks,
    failures and crashes: the database is what the statements outside of transactions
    and those of the committed transactions make of it, each transaction's in one
    piece when it was committed, and each statement returned what it returns in that
    order. *)
Theorem C115_serial_partial : forall (D O R : Type) (step : O -> D -> R * D) es d,
  let tr := fst (tx_run step es d) in let w := snd (tx_run step es d) in
  stops_at_failure tr -> replays step d (effects tr) (w_db w).
Proof. intros D O R step es d tr w ST. apply (i_db step d tr w). exact (tx_run_inv step d es ST). Qed.
Print Assumptions C115_serial_partial.

(** A query through New(db) sees exactly that; one through WithTx sees it as it was
    at some moment since the transaction began, and what the transaction has done
    itself. *)
Theorem C115_sees_partial : forall (D O R : Type) (step : O -> D -> R * D) es d tx seen,
  let tr := fst (tx_run step es d) in let w := snd (tx_run step es d) in
  stops_at_failure tr -> sees (q_db (handle tx)) w = Some seen ->
  match tx with
  | None => replays step d (effects tr) seen
  | Some n => (forall o f, ~ In (EExec (Some n) o f, Failed) tr) ->
      exists tr1 tr2, tr = tr1 ++ tr2 /\ n < begins tr1 /\ replays step d (effects tr1 ++ own n tr) seen
  end.
Proof.
  intros D O R step es d tx seen tr w ST H. pose proof (tx_run_inv step d es ST) as I. fold tr w in I. destruct tx as [n|]; cbn [handle WithTx New q_db sees] in H.
  - intros NF. destruct (nth_error (w_txs w) n) as [t|] eqn:E; [|discriminate]. destruct (t_open t) eqn:T; cbn [negb] in H; [|discriminate].
    destruct (t_alive t) eqn:A; cbn [negb] in H.
    + pose proof (snap_ok step d tr w n t I E T A) as S. destruct (snap t w) as [v x]. cbn [snd] in H. injection H as <-. destruct S as (_ & _ & tr1 & tr2 & EQ & NB & RP & _).
      exists tr1, tr2. auto.
    + destruct (i_tx _ _ _ _ I n t E T) as [_ HD]. destruct (HD A) as (o & f & F). destruct (NF o f F).
  - injection H as <-. exact (i_db _ _ _ _ I).
Qed.
Print Assumptions C115_sees_partial.

(** New(tx) and WithTx(tx), from whatever queries, are the same handle: statements and
    queries through them return the same and leave the same behind. *)
Theorem C115_handles : forall (D O R : Type) (step : O -> D -> R * D) (q : queries) n o f (w : world D),
  exec step (q_db (New (OnTx n))) o f w = happen step (EExec (Some n) o f) w /\ exec step (q_db (WithTx q n)) o f w = happen step (EExec (Some n) o f) w /\
  query (q_db (New (OnTx n))) w = happen step (EQuery (Some n)) w /\ query (q_db (WithTx q n)) w = happen step (EQuery (Some n)) w /\
  sees (q_db (New (OnTx n))) w = sees (q_db (handle (Some n))) w /\ sees (q_db (WithTx q n)) w = sees (q_db (handle (Some n))) w.
Proof. intros. repeat split. Qed.
Print Assumptions C115_handles.

(** What a transaction does, nobody else sees before Commit. *)
Theorem C115_invisible_partial : forall (D O R : Type) (step : O -> D -> R * D) es d n o f,
  stops_at_failure (fst (tx_run step (es ++ [EExec (Some n) o f]) d)) ->
  sees (q_db (handle None)) (snd (tx_run step (es ++ [EExec (Some n) o f]) d)) = sees (q_db (handle None)) (snd (tx_run step es d)).
Proof.
  intros D O R step es d n o f ST. cbn [handle New q_db sees]. f_equal. rewrite run_snoc in *. set (w := snd (tx_run step es d)) in *. set (tr := fst (tx_run step es d)) in *.
  destruct (happen step (EExec (Some n) o f) w) as [out w'] eqn:H. cbn [fst snd] in *. pose proof (tx_run_inv step d es (stops_prefix _ _ ST)) as I. fold tr w in I.
  pose proof (happen_inv step d tr w _ out w' I H ST) as I'. pose proof (i_db _ _ _ _ I) as A. pose proof (i_db _ _ _ _ I') as B. rewrite effects_snoc in B. cbn [contrib] in B. rewrite app_nil_r in B.
  revert A B. generalize (w_db w) (w_db w') d. induction (effects tr) as [|[o' r] l IH]; intros a b d1; cbn [replays]; [congruence|].
  intros (x & Sx & A) (y & Sy & B). rewrite Sx in Sy. injection Sy as <-. exact (IH a b x A B).
Qed.
Print Assumptions C115_invisible_partial.

(** After Commit or Rollback, whatever they returned, a transaction's statements
    return sql.ErrTxDone and do nothing. *)
Theorem C115_done : forall (D O R : Type) (step : O -> D -> R * D) es1 es2 d n fin o f,
  n < begins (fst (tx_run step es1 d)) -> (exists c, fin = ECommit n c) \/ fin = ERollback n ->
  let w := snd (tx_run step (es1 ++ fin :: es2) d) in
  happen step (EExec (Some n) o f) w = (ErrTxDone, w) /\ happen step (EQuery (Some n)) w = (ErrTxDone, w) /\ happen step (ECommit n f) w = (ErrTxDone, w).
Proof.
  intros D O R step es1 es2 d n fin o f B F w. rewrite begins_run in B.
  assert (C : closed n w).
  { unfold w. replace (es1 ++ fin :: es2) with ((es1 ++ [fin]) ++ es2) by (rewrite <- app_assoc; reflexivity). apply run_closed. rewrite run_snoc.
    destruct (happen step fin (snd (tx_run step es1 d))) as [out w'] eqn:H. cbn [snd]. exact (finish_closed step n fin _ out w' F B H). }
  destruct C as (t & E & T). cbn [happen handle WithTx New q_db exec query]. unfold commit. rewrite E, T. auto.
Qed.
Print Assumptions C115_done.

(** * The four databases
    So what C75-C81 say about histories of statements holds of [effects]. *)
Lemma nx_replays fk : forall l ev d d', replays (nx_step fk) d l d' ->
  fold_left (fun (s : list (nx_op * res unit) * nxdb) (x : nx_op * bool) =>
     let '(r, d') := if snd x then nx_step fk (fst x) (snd s) else (Err ErrEnv, snd s) in
     (fst s ++ [(fst x, r)], d')) (map (fun e => (fst e, true)) l) (ev, d) = (ev ++ l, d').
Proof.
  induction l as [|[o r] l IH]; intros ev d d' H; cbn [replays map fold_left fst snd] in *; [subst; rewrite app_nil_r; reflexivity|].
  destruct H as (d1 & -> & H). rewrite (IH _ _ _ H), <- app_assoc. reflexivity.
Qed.
Theorem C115_nix_partial : forall fk es, let tr := fst (tx_run (nx_step fk) es nx_empty) in let w := snd (tx_run (nx_step fk) es nx_empty) in
  stops_at_failure tr -> nx_run fk (map (fun e => (fst e, true)) (effects tr)) = (effects tr, w_db w).
Proof. intros fk es tr w ST. apply (nx_replays fk (effects tr) []). exact (C115_serial_partial _ _ _ (nx_step fk) es nx_empty ST). Qed.
Print Assumptions C115_nix_partial.
(** For instance: *)
Theorem C115_path_info_partial : forall fk es p r, let tr := fst (tx_run (nx_step fk) es nx_empty) in let w := snd (tx_run (nx_step fk) es nx_empty) in
  stops_at_failure tr -> nx_QueryPathInfo p (w_db w) r ->
  match nx_expect p (effects tr) with
  | None => r = Err ErrNoRows
  | Some info => exists i, r = Ok (i, info)
  end.
Proof.
  intros fk es p r tr w ST Q. pose proof (C115_nix_partial fk es ST) as E. fold tr w in E. pose proof (C78_path_info fk (map (fun e => (fst e, true)) (effects tr)) p r) as H.
  rewrite E in H. exact (H Q).
Qed.
Print Assumptions C115_path_info_partial.
Lemma bc_replays fk : forall l ev d d', replays (bc_step fk) d l d' ->
  fold_left (fun (s : list (bc_op * res Z) * bcdb) (x : bc_op * bool) =>
     let '(r, d') := if snd x then bc_step fk (fst x) (snd s) else (Err ErrEnv, snd s) in
     (fst s ++ [(fst x, r)], d')) (map (fun e => (fst e, true)) l) (ev, d) = (ev ++ l, d').
Proof.
  induction l as [|[o r] l IH]; intros ev d d' H; cbn [replays map fold_left fst snd] in *; [subst; rewrite app_nil_r; reflexivity|].
  destruct H as (d1 & -> & H). rewrite (IH _ _ _ H), <- app_assoc. reflexivity.
Qed.
Theorem C115_binary_cache_partial : forall fk es, let tr := fst (tx_run (bc_step fk) es bc_empty) in let w := snd (tx_run (bc_step fk) es bc_empty) in
  stops_at_failure tr -> bc_run fk (map (fun e => (fst e, true)) (effects tr)) = (effects tr, w_db w).
Proof. intros fk es tr w ST. apply (bc_replays fk (effects tr) []). exact (C115_serial_partial _ _ _ (bc_step fk) es bc_empty ST). Qed.
Print Assumptions C115_binary_cache_partial.
Definition fc_step (r : fc_row) (t : list fc_row) : unit * list fc_row := (tt, fc_UpsertCache r t).
Definition ec_step (o : ec_op) (t : list ec_row) : unit * list ec_row :=
  (tt, match o with EInsert p n ty v => ec_InsertAttribute p n ty v t | EInsertC p n ty v c => ec_InsertAttributeWithContext p n ty v c t end).
Theorem C115_fetcher_partial : forall es, let tr := fst (tx_run fc_step es []) in let w := snd (tx_run fc_step es []) in
  stops_at_failure tr -> fc_run (map (fun e => (fst e, true)) (effects tr)) = w_db w.
Proof.
  intros es tr w ST. pose proof (C115_serial_partial _ _ _ fc_step es [] ST) as H. fold tr w in H. unfold fc_run. revert H. generalize (@nil fc_row). induction (effects tr) as [|[o []] l IH]; intros t H; cbn [replays map fold_left fst snd] in *; [auto|].
  destruct H as (d1 & E & H). injection E as <-. exact (IH _ H).
Qed.
Print Assumptions C115_fetcher_partial.
Theorem C115_eval_partial : forall es, let tr := fst (tx_run ec_step es []) in let w := snd (tx_run ec_step es []) in
  stops_at_failure tr -> ec_run (map (fun e => (fst e, true)) (effects tr)) = w_db w.
Proof.
  intros es tr w ST. pose proof (C115_serial_partial _ _ _ ec_step es [] ST) as H. fold tr w in H. unfold ec_run. revert H. generalize (@nil ec_row). induction (effects tr) as [|[o []] l IH]; intros t H; cbn [replays map fold_left fst snd] in *; [auto|].
  destruct H as (d1 & E & H). injection E as <-. exact (IH _ H).
Qed.
Print Assumptions C115_eval_partial.

(** Two transactions and a statement on its own: the first writes, so the other two
    must wait; the second, which looked before, cannot write any more; a third is lost
    in a crash. *)
Definition c115_info : path_info := PI [x68] 1 None None None None None.
Definition reg (p : byte) : nx_op := NRegister [p] c115_info 0.
Definition c115_events : list (event nx_op) :=
  [EBegin; EBegin; EQuery (Some 1); EExec (Some 0) (reg x61) Fine; EExec None (reg x62) Fine; EExec (Some 0) (NAddRef 1 1) Fine; EExec (Some 0) (reg x61) Fine; ECommit 0 Fine;
   EExec None (reg x63) Fine; EExec (Some 1) (reg x64) Fine; ERollback 1; EBegin; EExec (Some 2) (reg x65) Fine; ECrash].
Lemma stops_dec (tr : list (event nx_op * outcome (res unit))) :
  forallb (fun k => match nth_error tr k with
                    | Some (EExec (Some n) _ _, Failed) => forallb (fun x => match fst x with EExec (Some m) _ _ => negb (m =? n) | _ => true end) (skipn (S k) tr)
                    | _ => true end) (seq 0 (length tr)) = true -> stops_at_failure tr.
Proof.
  intros H tr1 tr2 n o f o' f' out E I. rewrite forallb_forall in H. specialize (H (length tr1)). subst tr. rewrite nth_error_app2, Nat.sub_diag in H by lia. cbn [nth_error] in H.
  rewrite (forallb_forall) in H. rewrite app_length in H. cbn [length] in H. assert (X : In (length tr1) (seq 0 (length tr1 + S (length tr2)))) by (apply in_seq; lia).
  specialize (H X (EExec (Some n) o' f', out)). replace (S (length tr1)) with (length tr1 + 1) in H by lia. rewrite skipn_app in H. replace (length tr1 + 1 - length tr1) with 1 in H by lia.
  cbn [skipn fst] in H. specialize (H (in_or_app _ _ _ (or_intror I))). rewrite Nat.eqb_refl in H. discriminate.
Qed.
Example C115_nonvacuous : let tr := fst (tx_run (nx_step true) c115_events nx_empty) in stops_at_failure tr /\
  effects tr = [(reg x61, Ok tt); (NAddRef 1 1, Ok tt); (reg x61, Err ErrConstraint); (reg x63, Ok tt)] /\
  map snd tr = [Done; Done; Done; Ran (Ok tt); Failed; Ran (Ok tt); Ran (Err ErrConstraint); Done; Ran (Ok tt); Failed; Done; Done; Ran (Ok tt); Done] /\
  map vp_path (n_paths (w_db (snd (tx_run (nx_step true) c115_events nx_empty)))) = [[x63]; [x61]].
Proof. cbn zeta. split; [apply stops_dec; vm_compute; reflexivity|]. split; [vm_compute; reflexivity|]. split; vm_compute; reflexivity. Qed.
(** Going on after a failure for which SQLite rolled the transaction back: Commit
    fails, and yet the last statement is in the database. *)
Theorem C115_refuted : let es := [EBegin; EExec (Some 0) (reg x61) Fine; EExec (Some 0) (reg x62) FailsAndRollsBack; EExec (Some 0) (reg x63) Fine; ECommit 0 Fine] in
  let tr := fst (tx_run (nx_step true) es nx_empty) in
  map snd tr = [Done; Ran (Ok tt); Failed; Ran (Ok tt); Failed] /\ effects tr = [] /\
  map vp_path (n_paths (w_db (snd (tx_run (nx_step true) es nx_empty)))) = [[x63]].
Proof. split; [vm_compute; reflexivity|]. split; vm_compute; reflexivity. Qed.
Print Assumptions C115_refuted.
