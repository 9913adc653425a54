(** Generated by /verif/tools/sqlite_tx_fixtures.py (SQLite 3.46.0): random interleavings
    of transactions run on a real SQLite file; the model of the transactions
    (Model/SqliteTx.v) agrees.  These are tests of the model, not part of any proof. *)
From Verif Require Import Base.Bytes Model.GoIO Model.Sqlite Model.SqliteTx Spec.SqliteSpec.
Definition paths (d : nxdb) : list bytes := sort_strings (map vp_path (n_paths d)).
(** What each query saw. *)
Definition views (es : list (event nx_op)) : list (option (list bytes)) :=
  map (fun k => let w := snd (tx_run (nx_step true) (firstn k es) nx_empty) in
                match nth_error es k with Some (EQuery tx) => option_map paths (sees (q_db (handle tx)) w) | _ => None end) (seq 0 (length es)).

Example delete_0 : let es := [EExec None (NInvalidate (bs "c")) Fine; ECrash; EQuery None; ECrash; EBegin; EQuery None; EExec (Some 0) (NRegister (bs "c") (PI (bs "h") 1 None None None None None) 0) Fine; EExec (Some 0) (NInvalidate (bs "c")) Fine; EBegin] in
  map snd (fst (tx_run (nx_step true) es nx_empty)) = [Ran (Ok tt); Done; Done; Done; Done; Done; Ran (Ok tt); Ran (Ok tt); Done] /\
  views es = [None; None; (Some []); None; None; (Some []); None; None; None] /\
  paths (w_db (snd (tx_run (nx_step true) es nx_empty))) = [].
Proof. vm_compute. repeat split. Qed.
Example wal_1 : let es := [EExec None (NRegister (bs "c") (PI (bs "h") 1 None None None None None) 0) Fine; EBegin] in
  map snd (fst (tx_run (nx_step true) es nx_empty)) = [Ran (Ok tt); Done] /\
  views es = [None; None] /\
  paths (w_db (snd (tx_run (nx_step true) es nx_empty))) = [(bs "c")].
Proof. vm_compute. repeat split. Qed.
Example delete_2 : let es := [EExec None (NInvalidate (bs "b")) Fine; EBegin; EExec None (NRegister (bs "d") (PI (bs "h") 1 None None None None None) 0) Fine; EExec (Some 0) (NRegister (bs "d") (PI (bs "h") 1 None None None None None) 0) Fine; EExec (Some 0) (NRegister (bs "b") (PI (bs "h") 1 None None None None None) 0) Fine; EExec (Some 0) (NRegister (bs "a") (PI (bs "h") 1 None None None None None) 0) Fine; ERollback 0; EExec (Some 0) (NInvalidate (bs "b")) Fine; EExec (Some 0) (NInvalidate (bs "b")) Fine; ECommit 0 Fine; EExec (Some 0) (NInvalidate (bs "a")) Fine; EQuery (Some 0); EQuery (Some 0); EExec (Some 0) (NRegister (bs "d") (PI (bs "h") 1 None None None None None) 0) Fine; ERollback 0; EExec (Some 0) (NInvalidate (bs "c")) Fine; EExec (Some 0) (NInvalidate (bs "d")) Fine; EExec (Some 0) (NRegister (bs "b") (PI (bs "h") 1 None None None None None) 0) Fine; EExec (Some 0) (NRegister (bs "d") (PI (bs "h") 1 None None None None None) 0) Fine; EQuery (Some 0); EExec None (NInvalidate (bs "c")) Fine; EExec (Some 0) (NInvalidate (bs "a")) Fine; ECommit 0 Fine; EBegin; EQuery (Some 1); ECommit 0 Fine; EQuery (Some 1); EExec (Some 0) (NRegister (bs "c") (PI (bs "h") 1 None None None None None) 0) Fine; EExec (Some 1) (NRegister (bs "c") (PI (bs "h") 1 None None None None None) 0) Fine; EExec (Some 1) (NInvalidate (bs "b")) Fine; ECommit 1 Fine; EExec (Some 1) (NRegister (bs "b") (PI (bs "h") 1 None None None None None) 0) Fine; EQuery None; EExec (Some 0) (NInvalidate (bs "b")) Fine; ECommit 1 Fine; EBegin; EBegin; EExec None (NRegister (bs "a") (PI (bs "h") 1 None None None None None) 0) Fine] in
  map snd (fst (tx_run (nx_step true) es nx_empty)) = [Ran (Ok tt); Done; Ran (Ok tt); Ran (Err ErrConstraint); Ran (Ok tt); Ran (Ok tt); Done; ErrTxDone; ErrTxDone; ErrTxDone; ErrTxDone; ErrTxDone; ErrTxDone; ErrTxDone; ErrTxDone; ErrTxDone; ErrTxDone; ErrTxDone; ErrTxDone; ErrTxDone; Ran (Ok tt); ErrTxDone; ErrTxDone; Done; Done; ErrTxDone; Done; ErrTxDone; Ran (Ok tt); Ran (Ok tt); Done; ErrTxDone; Done; ErrTxDone; ErrTxDone; Done; Done; Ran (Ok tt)] /\
  views es = [None; None; None; None; None; None; None; None; None; None; None; None; None; None; None; None; None; None; None; None; None; None; None; None; (Some [(bs "d")]); None; (Some [(bs "d")]); None; None; None; None; None; (Some [(bs "c"); (bs "d")]); None; None; None; None; None] /\
  paths (w_db (snd (tx_run (nx_step true) es nx_empty))) = [(bs "a"); (bs "c"); (bs "d")].
Proof. vm_compute. repeat split. Qed.
Example wal_3 : let es := [EExec None (NRegister (bs "d") (PI (bs "h") 1 None None None None None) 0) Fine; EBegin; EExec (Some 0) (NRegister (bs "a") (PI (bs "h") 1 None None None None None) 0) Fine; EQuery (Some 0); EExec (Some 0) (NRegister (bs "a") (PI (bs "h") 1 None None None None None) 0) Fine; EExec (Some 0) (NInvalidate (bs "b")) Fine; ECrash; ECommit 0 Fine; EQuery None; EExec (Some 0) (NInvalidate (bs "a")) Fine; EQuery (Some 0); EExec (Some 0) (NRegister (bs "a") (PI (bs "h") 1 None None None None None) 0) Fine; ERollback 0; EQuery (Some 0); EExec (Some 0) (NInvalidate (bs "d")) Fine; EQuery (Some 0); EQuery (Some 0); EQuery None; EExec (Some 0) (NInvalidate (bs "a")) Fine; EExec (Some 0) (NRegister (bs "c") (PI (bs "h") 1 None None None None None) 0) Fine; EBegin; EExec None (NRegister (bs "a") (PI (bs "h") 1 None None None None None) 0) Fine; EExec (Some 1) (NRegister (bs "d") (PI (bs "h") 1 None None None None None) 0) Fine; EQuery (Some 0); EExec (Some 0) (NRegister (bs "d") (PI (bs "h") 1 None None None None None) 0) Fine; ECommit 1 Fine] in
  map snd (fst (tx_run (nx_step true) es nx_empty)) = [Ran (Ok tt); Done; Ran (Ok tt); Done; Ran (Err ErrConstraint); Ran (Ok tt); Done; ErrTxDone; Done; ErrTxDone; ErrTxDone; ErrTxDone; ErrTxDone; ErrTxDone; ErrTxDone; ErrTxDone; ErrTxDone; Done; ErrTxDone; ErrTxDone; Done; Ran (Ok tt); Ran (Err ErrConstraint); ErrTxDone; ErrTxDone; Done] /\
  views es = [None; None; None; (Some [(bs "a"); (bs "d")]); None; None; None; None; (Some [(bs "d")]); None; None; None; None; None; None; None; None; (Some [(bs "d")]); None; None; None; None; None; None; None; None] /\
  paths (w_db (snd (tx_run (nx_step true) es nx_empty))) = [(bs "a"); (bs "d")].
Proof. vm_compute. repeat split. Qed.
Example delete_4 : let es := [EExec None (NRegister (bs "a") (PI (bs "h") 1 None None None None None) 0) Fine; EBegin; EExec (Some 0) (NInvalidate (bs "d")) Fine; EQuery (Some 0); ERollback 0; EQuery (Some 0); EQuery (Some 0); EExec None (NInvalidate (bs "b")) Fine; ECommit 0 Fine; ECommit 0 Fine; EExec (Some 0) (NRegister (bs "b") (PI (bs "h") 1 None None None None None) 0) Fine; EQuery (Some 0); ECommit 0 Fine; EExec (Some 0) (NRegister (bs "b") (PI (bs "h") 1 None None None None None) 0) Fine; EExec (Some 0) (NRegister (bs "a") (PI (bs "h") 1 None None None None None) 0) Fine; ECommit 0 Fine; ECommit 0 Fine; EExec (Some 0) (NRegister (bs "a") (PI (bs "h") 1 None None None None None) 0) Fine; EBegin; ERollback 1; EExec (Some 1) (NRegister (bs "a") (PI (bs "h") 1 None None None None None) 0) Fine; ECommit 1 Fine; EQuery (Some 0); EBegin; EBegin; ECommit 1 Fine; ERollback 1; EQuery None; EExec (Some 3) (NRegister (bs "d") (PI (bs "h") 1 None None None None None) 0) Fine; EExec (Some 2) (NRegister (bs "c") (PI (bs "h") 1 None None None None None) 0) Fails; EExec None (NInvalidate (bs "c")) Fails; ECrash; EExec (Some 0) (NRegister (bs "d") (PI (bs "h") 1 None None None None None) 0) Fine; EBegin; ECommit 1 Fine] in
  map snd (fst (tx_run (nx_step true) es nx_empty)) = [Ran (Ok tt); Done; Ran (Ok tt); Done; Done; ErrTxDone; ErrTxDone; Ran (Ok tt); ErrTxDone; ErrTxDone; ErrTxDone; ErrTxDone; ErrTxDone; ErrTxDone; ErrTxDone; ErrTxDone; ErrTxDone; ErrTxDone; Done; Done; ErrTxDone; ErrTxDone; ErrTxDone; Done; Done; ErrTxDone; ErrTxDone; Done; Ran (Ok tt); Failed; Failed; Done; ErrTxDone; Done; ErrTxDone] /\
  views es = [None; None; None; (Some [(bs "a")]); None; None; None; None; None; None; None; None; None; None; None; None; None; None; None; None; None; None; None; None; None; None; None; (Some [(bs "a")]); None; None; None; None; None; None; None] /\
  paths (w_db (snd (tx_run (nx_step true) es nx_empty))) = [(bs "a")].
Proof. vm_compute. repeat split. Qed.
Example wal_5 : let es := [EExec None (NInvalidate (bs "c")) Fine; EBegin; EExec (Some 0) (NInvalidate (bs "d")) Fine; EQuery (Some 0); ERollback 0; ECommit 0 Fine; ECommit 0 Fine; EQuery (Some 0); EExec None (NRegister (bs "b") (PI (bs "h") 1 None None None None None) 0) Fine; EQuery (Some 0); ECommit 0 Fine; ERollback 0; EExec None (NRegister (bs "a") (PI (bs "h") 1 None None None None None) 0) Fine; EExec (Some 0) (NRegister (bs "b") (PI (bs "h") 1 None None None None None) 0) Fine; EQuery (Some 0); EExec (Some 0) (NRegister (bs "a") (PI (bs "h") 1 None None None None None) 0) Fine; EExec (Some 0) (NInvalidate (bs "d")) Fine; EQuery None] in
  map snd (fst (tx_run (nx_step true) es nx_empty)) = [Ran (Ok tt); Done; Ran (Ok tt); Done; Done; ErrTxDone; ErrTxDone; ErrTxDone; Ran (Ok tt); ErrTxDone; ErrTxDone; ErrTxDone; Ran (Ok tt); ErrTxDone; ErrTxDone; ErrTxDone; ErrTxDone; Done] /\
  views es = [None; None; None; (Some []); None; None; None; None; None; None; None; None; None; None; None; None; None; (Some [(bs "a"); (bs "b")])] /\
  paths (w_db (snd (tx_run (nx_step true) es nx_empty))) = [(bs "a"); (bs "b")].
Proof. vm_compute. repeat split. Qed.
Example delete_6 : let es := [EBegin; EExec None (NRegister (bs "c") (PI (bs "h") 1 None None None None None) 0) Fine; EExec (Some 0) (NRegister (bs "b") (PI (bs "h") 1 None None None None None) 0) Fine; EQuery (Some 0); EExec (Some 0) (NInvalidate (bs "a")) Fine; EBegin; ECommit 0 Fine; ERollback 0; EExec (Some 0) (NRegister (bs "b") (PI (bs "h") 1 None None None None None) 0) Fine; EQuery (Some 0); EExec (Some 0) (NRegister (bs "c") (PI (bs "h") 1 None None None None None) 0) Fine; EQuery (Some 1); ECommit 0 Fine; EQuery (Some 0); EQuery (Some 1); EExec None (NInvalidate (bs "b")) Fails; ERollback 1; EExec (Some 1) (NInvalidate (bs "d")) Fine; EQuery None] in
  map snd (fst (tx_run (nx_step true) es nx_empty)) = [Done; Ran (Ok tt); Ran (Ok tt); Done; Ran (Ok tt); Done; Done; ErrTxDone; ErrTxDone; ErrTxDone; ErrTxDone; Done; ErrTxDone; ErrTxDone; Done; Failed; Done; ErrTxDone; Done] /\
  views es = [None; None; None; (Some [(bs "b"); (bs "c")]); None; None; None; None; None; None; None; (Some [(bs "b"); (bs "c")]); None; None; (Some [(bs "b"); (bs "c")]); None; None; None; (Some [(bs "b"); (bs "c")])] /\
  paths (w_db (snd (tx_run (nx_step true) es nx_empty))) = [(bs "b"); (bs "c")].
Proof. vm_compute. repeat split. Qed.
Example wal_7 : let es := [EBegin; EExec (Some 0) (NInvalidate (bs "d")) Fine; EQuery (Some 0); EExec None (NInvalidate (bs "c")) Fails; EExec (Some 0) (NRegister (bs "d") (PI (bs "h") 1 None None None None None) 0) Fine; EExec (Some 0) (NInvalidate (bs "a")) Fine; ECommit 0 Fine; EExec (Some 0) (NRegister (bs "c") (PI (bs "h") 1 None None None None None) 0) Fine; EExec None (NRegister (bs "c") (PI (bs "h") 1 None None None None None) 0) Fine; EExec None (NRegister (bs "c") (PI (bs "h") 1 None None None None None) 0) Fine; ECommit 0 Fine; ECommit 0 Fine; EBegin] in
  map snd (fst (tx_run (nx_step true) es nx_empty)) = [Done; Ran (Ok tt); Done; Failed; Ran (Ok tt); Ran (Ok tt); Done; ErrTxDone; Ran (Ok tt); Ran (Err ErrConstraint); ErrTxDone; ErrTxDone; Done] /\
  views es = [None; None; (Some []); None; None; None; None; None; None; None; None; None; None] /\
  paths (w_db (snd (tx_run (nx_step true) es nx_empty))) = [(bs "c"); (bs "d")].
Proof. vm_compute. repeat split. Qed.
Example delete_8 : let es := [EBegin; EExec (Some 0) (NRegister (bs "a") (PI (bs "h") 1 None None None None None) 0) Fine; ERollback 0; EBegin; EQuery (Some 0); EBegin; EExec None (NInvalidate (bs "a")) Fine; EExec (Some 1) (NRegister (bs "d") (PI (bs "h") 1 None None None None None) 0) Fine; ECommit 1 Fine; EQuery (Some 0); EExec (Some 2) (NInvalidate (bs "c")) Fine] in
  map snd (fst (tx_run (nx_step true) es nx_empty)) = [Done; Ran (Ok tt); Done; Done; ErrTxDone; Done; Ran (Ok tt); Ran (Ok tt); Done; ErrTxDone; Ran (Ok tt)] /\
  views es = [None; None; None; None; None; None; None; None; None; None; None] /\
  paths (w_db (snd (tx_run (nx_step true) es nx_empty))) = [(bs "d")].
Proof. vm_compute. repeat split. Qed.
Example wal_9 : let es := [EBegin; EExec None (NInvalidate (bs "b")) Fine; EExec None (NRegister (bs "c") (PI (bs "h") 1 None None None None None) 0) Fine; EExec (Some 0) (NRegister (bs "b") (PI (bs "h") 1 None None None None None) 0) Fine; EQuery None; EQuery (Some 0); ECommit 0 Fine; EExec (Some 0) (NRegister (bs "d") (PI (bs "h") 1 None None None None None) 0) Fine; EExec (Some 0) (NRegister (bs "b") (PI (bs "h") 1 None None None None None) 0) Fine; ERollback 0; EExec (Some 0) (NRegister (bs "a") (PI (bs "h") 1 None None None None None) 0) Fine; EExec None (NRegister (bs "a") (PI (bs "h") 1 None None None None None) 0) Fine; EExec (Some 0) (NRegister (bs "c") (PI (bs "h") 1 None None None None None) 0) Fine; ECommit 0 Fine; ECommit 0 Fine; EBegin; EExec (Some 1) (NRegister (bs "c") (PI (bs "h") 1 None None None None None) 0) Fine; EBegin; EQuery (Some 0); ECrash; EExec (Some 1) (NRegister (bs "a") (PI (bs "h") 1 None None None None None) 0) Fine; EQuery None; EExec (Some 1) (NInvalidate (bs "d")) Fine; EQuery None; EExec (Some 2) (NInvalidate (bs "a")) Fine; ECommit 0 Fine; EExec (Some 1) (NRegister (bs "d") (PI (bs "h") 1 None None None None None) 0) Fine; EExec (Some 2) (NRegister (bs "a") (PI (bs "h") 1 None None None None None) 0) Fine; ERollback 1; EExec None (NRegister (bs "a") (PI (bs "h") 1 None None None None None) 0) Fine; EBegin; EExec None (NRegister (bs "d") (PI (bs "h") 1 None None None None None) 0) Fine; EExec (Some 2) (NRegister (bs "a") (PI (bs "h") 1 None None None None None) 0) Fine; ECommit 1 Fine] in
  map snd (fst (tx_run (nx_step true) es nx_empty)) = [Done; Ran (Ok tt); Ran (Ok tt); Ran (Ok tt); Done; Done; Done; ErrTxDone; ErrTxDone; ErrTxDone; ErrTxDone; Ran (Ok tt); ErrTxDone; ErrTxDone; ErrTxDone; Done; Ran (Err ErrConstraint); Done; ErrTxDone; Done; ErrTxDone; Done; ErrTxDone; Done; ErrTxDone; ErrTxDone; ErrTxDone; ErrTxDone; ErrTxDone; Ran (Err ErrConstraint); Done; Ran (Ok tt); ErrTxDone; ErrTxDone] /\
  views es = [None; None; None; None; (Some [(bs "c")]); (Some [(bs "b"); (bs "c")]); None; None; None; None; None; None; None; None; None; None; None; None; None; None; None; (Some [(bs "a"); (bs "b"); (bs "c")]); None; (Some [(bs "a"); (bs "b"); (bs "c")]); None; None; None; None; None; None; None; None; None; None] /\
  paths (w_db (snd (tx_run (nx_step true) es nx_empty))) = [(bs "a"); (bs "b"); (bs "c"); (bs "d")].
Proof. vm_compute. repeat split. Qed.
Example delete_10 : let es := [EQuery None] in
  map snd (fst (tx_run (nx_step true) es nx_empty)) = [Done] /\
  views es = [(Some [])] /\
  paths (w_db (snd (tx_run (nx_step true) es nx_empty))) = [].
Proof. vm_compute. repeat split. Qed.
Example wal_11 : let es := [EQuery None; EBegin; ECommit 0 Fine; EExec (Some 0) (NRegister (bs "d") (PI (bs "h") 1 None None None None None) 0) Fine; ECommit 0 Fine; EExec (Some 0) (NRegister (bs "a") (PI (bs "h") 1 None None None None None) 0) Fine; EQuery (Some 0); ECommit 0 Fine; EExec (Some 0) (NRegister (bs "d") (PI (bs "h") 1 None None None None None) 0) Fine; EExec (Some 0) (NInvalidate (bs "d")) Fine; EQuery (Some 0); EBegin; EBegin; EExec (Some 0) (NInvalidate (bs "d")) Fine] in
  map snd (fst (tx_run (nx_step true) es nx_empty)) = [Done; Done; Done; ErrTxDone; ErrTxDone; ErrTxDone; ErrTxDone; ErrTxDone; ErrTxDone; ErrTxDone; ErrTxDone; Done; Done; ErrTxDone] /\
  views es = [(Some []); None; None; None; None; None; None; None; None; None; None; None; None; None] /\
  paths (w_db (snd (tx_run (nx_step true) es nx_empty))) = [].
Proof. vm_compute. repeat split. Qed.
Example delete_12 : let es := [EBegin; EQuery None; EExec (Some 0) (NInvalidate (bs "a")) Fine; EQuery (Some 0); EQuery (Some 0); ERollback 0; EExec (Some 0) (NInvalidate (bs "c")) Fine; EExec (Some 0) (NRegister (bs "c") (PI (bs "h") 1 None None None None None) 0) Fine; EExec (Some 0) (NRegister (bs "d") (PI (bs "h") 1 None None None None None) 0) Fine; ERollback 0; EExec (Some 0) (NRegister (bs "c") (PI (bs "h") 1 None None None None None) 0) Fine; EQuery (Some 0); EExec (Some 0) (NRegister (bs "c") (PI (bs "h") 1 None None None None None) 0) Fine; EExec (Some 0) (NRegister (bs "b") (PI (bs "h") 1 None None None None None) 0) Fine; ERollback 0; EExec (Some 0) (NInvalidate (bs "d")) Fine; EQuery (Some 0); ERollback 0; EExec (Some 0) (NRegister (bs "a") (PI (bs "h") 1 None None None None None) 0) Fine; ECommit 0 Fine; ECommit 0 Fine] in
  map snd (fst (tx_run (nx_step true) es nx_empty)) = [Done; Done; Ran (Ok tt); Done; Done; Done; ErrTxDone; ErrTxDone; ErrTxDone; ErrTxDone; ErrTxDone; ErrTxDone; ErrTxDone; ErrTxDone; ErrTxDone; ErrTxDone; ErrTxDone; ErrTxDone; ErrTxDone; ErrTxDone; ErrTxDone] /\
  views es = [None; (Some []); None; (Some []); (Some []); None; None; None; None; None; None; None; None; None; None; None; None; None; None; None; None] /\
  paths (w_db (snd (tx_run (nx_step true) es nx_empty))) = [].
Proof. vm_compute. repeat split. Qed.
Example wal_13 : let es := [EExec None (NRegister (bs "b") (PI (bs "h") 1 None None None None None) 0) Fine; EExec None (NRegister (bs "a") (PI (bs "h") 1 None None None None None) 0) Fine; ECrash; EBegin; EBegin; ECommit 1 Fine; EExec (Some 0) (NRegister (bs "d") (PI (bs "h") 1 None None None None None) 0) Fine; EExec (Some 1) (NRegister (bs "c") (PI (bs "h") 1 None None None None None) 0) Fine; ERollback 0; ECommit 0 Fine; EExec (Some 0) (NRegister (bs "a") (PI (bs "h") 1 None None None None None) 0) Fine; EExec (Some 1) (NRegister (bs "a") (PI (bs "h") 1 None None None None None) 0) Fine; EBegin; ECommit 1 Fine; ECommit 1 Fine; EQuery None] in
  map snd (fst (tx_run (nx_step true) es nx_empty)) = [Ran (Ok tt); Ran (Ok tt); Done; Done; Done; Done; Ran (Ok tt); ErrTxDone; Done; ErrTxDone; ErrTxDone; ErrTxDone; Done; ErrTxDone; ErrTxDone; Done] /\
  views es = [None; None; None; None; None; None; None; None; None; None; None; None; None; None; None; (Some [(bs "a"); (bs "b")])] /\
  paths (w_db (snd (tx_run (nx_step true) es nx_empty))) = [(bs "a"); (bs "b")].
Proof. vm_compute. repeat split. Qed.
Example delete_14 : let es := [EExec None (NInvalidate (bs "a")) Fine; EQuery None] in
  map snd (fst (tx_run (nx_step true) es nx_empty)) = [Ran (Ok tt); Done] /\
  views es = [None; (Some [])] /\
  paths (w_db (snd (tx_run (nx_step true) es nx_empty))) = [].
Proof. vm_compute. repeat split. Qed.
Example wal_15 : let es := [EBegin; ECommit 0 Fine; EExec (Some 0) (NInvalidate (bs "d")) Fine; EQuery (Some 0); EBegin; EExec (Some 1) (NRegister (bs "c") (PI (bs "h") 1 None None None None None) 0) Fine; EBegin; EExec (Some 2) (NRegister (bs "a") (PI (bs "h") 1 None None None None None) 0) Fails; ERollback 1; EExec (Some 0) (NRegister (bs "b") (PI (bs "h") 1 None None None None None) 0) Fine; EQuery (Some 1); EQuery (Some 0); ECommit 0 Fine; EExec (Some 2) (NInvalidate (bs "c")) Fine; EQuery (Some 0); EBegin; EBegin; EQuery (Some 4); EQuery None; ERollback 1; EExec (Some 0) (NRegister (bs "b") (PI (bs "h") 1 None None None None None) 0) Fine; ERollback 4; EQuery None; EBegin; EExec (Some 2) (NInvalidate (bs "b")) Fine; EExec None (NRegister (bs "a") (PI (bs "h") 1 None None None None None) 0) Fails; EExec (Some 0) (NInvalidate (bs "b")) Fine; EExec (Some 0) (NRegister (bs "b") (PI (bs "h") 1 None None None None None) 0) Fine; EQuery (Some 0); EExec None (NInvalidate (bs "b")) Fails; EQuery None; EQuery (Some 1)] in
  map snd (fst (tx_run (nx_step true) es nx_empty)) = [Done; Done; ErrTxDone; ErrTxDone; Done; Ran (Ok tt); Done; Failed; Done; ErrTxDone; ErrTxDone; ErrTxDone; ErrTxDone; Ran (Ok tt); ErrTxDone; Done; Done; Done; Done; ErrTxDone; ErrTxDone; Done; Done; Done; Ran (Ok tt); Failed; ErrTxDone; ErrTxDone; ErrTxDone; Failed; Done; ErrTxDone] /\
  views es = [None; None; None; None; None; None; None; None; None; None; None; None; None; None; None; None; None; (Some []); (Some []); None; None; None; (Some []); None; None; None; None; None; None; None; (Some []); None] /\
  paths (w_db (snd (tx_run (nx_step true) es nx_empty))) = [].
Proof. vm_compute. repeat split. Qed.
Example delete_16 : let es := [EExec None (NInvalidate (bs "d")) Fine; EQuery None; EQuery None; EBegin; EExec (Some 0) (NRegister (bs "a") (PI (bs "h") 1 None None None None None) 0) Fine; EExec (Some 0) (NRegister (bs "c") (PI (bs "h") 1 None None None None None) 0) Fine; EExec (Some 0) (NInvalidate (bs "b")) Fine; EExec (Some 0) (NRegister (bs "a") (PI (bs "h") 1 None None None None None) 0) Fine; ECrash; EQuery None; EQuery None; EExec None (NRegister (bs "a") (PI (bs "h") 1 None None None None None) 0) Fine; EExec (Some 0) (NInvalidate (bs "b")) Fine; EExec (Some 0) (NRegister (bs "d") (PI (bs "h") 1 None None None None None) 0) Fine; EExec None (NRegister (bs "d") (PI (bs "h") 1 None None None None None) 0) Fine; EExec (Some 0) (NRegister (bs "a") (PI (bs "h") 1 None None None None None) 0) Fine; ERollback 0; ECommit 0 Fine] in
  map snd (fst (tx_run (nx_step true) es nx_empty)) = [Ran (Ok tt); Done; Done; Done; Ran (Ok tt); Ran (Ok tt); Ran (Ok tt); Ran (Err ErrConstraint); Done; Done; Done; Ran (Ok tt); ErrTxDone; ErrTxDone; Ran (Ok tt); ErrTxDone; ErrTxDone; ErrTxDone] /\
  views es = [None; (Some []); (Some []); None; None; None; None; None; None; (Some []); (Some []); None; None; None; None; None; None; None] /\
  paths (w_db (snd (tx_run (nx_step true) es nx_empty))) = [(bs "a"); (bs "d")].
Proof. vm_compute. repeat split. Qed.
Example wal_17 : let es := [EBegin; ECommit 0 Fine; ECommit 0 Fine; EQuery None; EExec (Some 0) (NRegister (bs "c") (PI (bs "h") 1 None None None None None) 0) Fine; EExec (Some 0) (NRegister (bs "a") (PI (bs "h") 1 None None None None None) 0) Fine; ECommit 0 Fine; EQuery (Some 0)] in
  map snd (fst (tx_run (nx_step true) es nx_empty)) = [Done; Done; ErrTxDone; Done; ErrTxDone; ErrTxDone; ErrTxDone; ErrTxDone] /\
  views es = [None; None; None; (Some []); None; None; None; None] /\
  paths (w_db (snd (tx_run (nx_step true) es nx_empty))) = [].
Proof. vm_compute. repeat split. Qed.
Example delete_18 : let es := [ECrash; EBegin; EExec (Some 0) (NRegister (bs "d") (PI (bs "h") 1 None None None None None) 0) Fine; EExec (Some 0) (NInvalidate (bs "d")) Fine; EExec (Some 0) (NRegister (bs "c") (PI (bs "h") 1 None None None None None) 0) Fine; EExec (Some 0) (NRegister (bs "c") (PI (bs "h") 1 None None None None None) 0) Fine; EExec None (NInvalidate (bs "b")) Fails; EExec (Some 0) (NRegister (bs "d") (PI (bs "h") 1 None None None None None) 0) Fine; ECommit 0 Fine; EExec None (NInvalidate (bs "a")) Fine; EExec (Some 0) (NRegister (bs "b") (PI (bs "h") 1 None None None None None) 0) Fine; EExec None (NRegister (bs "c") (PI (bs "h") 1 None None None None None) 0) Fine; EBegin; ERollback 0; EQuery (Some 1); ERollback 0; ECommit 0 Fine; EExec (Some 0) (NRegister (bs "a") (PI (bs "h") 1 None None None None None) 0) Fine; EBegin; EExec (Some 2) (NRegister (bs "d") (PI (bs "h") 1 None None None None None) 0) Fine; EExec (Some 1) (NRegister (bs "c") (PI (bs "h") 1 None None None None None) 0) Fails; ERollback 0; EExec (Some 1) (NInvalidate (bs "a")) Fails; EExec (Some 2) (NRegister (bs "d") (PI (bs "h") 1 None None None None None) 0) Fine; ERollback 1; EExec (Some 0) (NInvalidate (bs "a")) Fine; EQuery None] in
  map snd (fst (tx_run (nx_step true) es nx_empty)) = [Done; Done; Ran (Ok tt); Ran (Ok tt); Ran (Ok tt); Ran (Err ErrConstraint); Failed; Ran (Ok tt); Done; Ran (Ok tt); ErrTxDone; Ran (Err ErrConstraint); Done; ErrTxDone; Done; ErrTxDone; ErrTxDone; ErrTxDone; Done; Ran (Err ErrConstraint); Failed; ErrTxDone; Failed; Ran (Err ErrConstraint); Done; ErrTxDone; Done] /\
  views es = [None; None; None; None; None; None; None; None; None; None; None; None; None; None; (Some [(bs "c"); (bs "d")]); None; None; None; None; None; None; None; None; None; None; None; (Some [(bs "c"); (bs "d")])] /\
  paths (w_db (snd (tx_run (nx_step true) es nx_empty))) = [(bs "c"); (bs "d")].
Proof. vm_compute. repeat split. Qed.
Example wal_19 : let es := [EBegin; EExec (Some 0) (NInvalidate (bs "c")) Fine; ECommit 0 Fine; ERollback 0; EExec (Some 0) (NRegister (bs "d") (PI (bs "h") 1 None None None None None) 0) Fine; EExec (Some 0) (NRegister (bs "c") (PI (bs "h") 1 None None None None None) 0) Fine; EExec None (NRegister (bs "c") (PI (bs "h") 1 None None None None None) 0) Fine; EBegin; EExec None (NInvalidate (bs "d")) Fine; EExec (Some 1) (NInvalidate (bs "d")) Fine; EExec None (NRegister (bs "b") (PI (bs "h") 1 None None None None None) 0) Fails; EExec (Some 1) (NRegister (bs "d") (PI (bs "h") 1 None None None None None) 0) Fine; EExec None (NRegister (bs "c") (PI (bs "h") 1 None None None None None) 0) Fails; EExec (Some 0) (NRegister (bs "c") (PI (bs "h") 1 None None None None None) 0) Fine; EExec (Some 0) (NRegister (bs "d") (PI (bs "h") 1 None None None None None) 0) Fine; ECommit 1 Fine; ECommit 0 Fine; EBegin; EExec None (NRegister (bs "c") (PI (bs "h") 1 None None None None None) 0) Fine; EQuery (Some 2); EExec None (NRegister (bs "c") (PI (bs "h") 1 None None None None None) 0) Fine] in
  map snd (fst (tx_run (nx_step true) es nx_empty)) = [Done; Ran (Ok tt); Done; ErrTxDone; ErrTxDone; ErrTxDone; Ran (Ok tt); Done; Ran (Ok tt); Ran (Ok tt); Failed; Ran (Ok tt); Failed; ErrTxDone; ErrTxDone; Done; ErrTxDone; Done; Ran (Err ErrConstraint); Done; Ran (Err ErrConstraint)] /\
  views es = [None; None; None; None; None; None; None; None; None; None; None; None; None; None; None; None; None; None; None; (Some [(bs "c"); (bs "d")]); None] /\
  paths (w_db (snd (tx_run (nx_step true) es nx_empty))) = [(bs "c"); (bs "d")].
Proof. vm_compute. repeat split. Qed.
Example delete_20 : let es := [ECrash; EExec None (NRegister (bs "b") (PI (bs "h") 1 None None None None None) 0) Fine; EBegin; EExec (Some 0) (NRegister (bs "d") (PI (bs "h") 1 None None None None None) 0) Fine; EExec (Some 0) (NRegister (bs "b") (PI (bs "h") 1 None None None None None) 0) Fine; EExec (Some 0) (NRegister (bs "b") (PI (bs "h") 1 None None None None None) 0) Fine; EQuery (Some 0); EBegin; EExec (Some 0) (NInvalidate (bs "d")) Fine; EExec (Some 0) (NInvalidate (bs "a")) Fine; EQuery (Some 0); ECommit 0 Fine; ERollback 1; EQuery (Some 0)] in
  map snd (fst (tx_run (nx_step true) es nx_empty)) = [Done; Ran (Ok tt); Done; Ran (Ok tt); Ran (Err ErrConstraint); Ran (Err ErrConstraint); Done; Done; Ran (Ok tt); Ran (Ok tt); Done; Done; Done; ErrTxDone] /\
  views es = [None; None; None; None; None; None; (Some [(bs "b"); (bs "d")]); None; None; None; (Some [(bs "b")]); None; None; None] /\
  paths (w_db (snd (tx_run (nx_step true) es nx_empty))) = [(bs "b")].
Proof. vm_compute. repeat split. Qed.
Example wal_21 : let es := [EQuery None; EExec None (NInvalidate (bs "c")) Fine; EBegin; EQuery (Some 0); ECommit 0 Fine; EExec (Some 0) (NRegister (bs "c") (PI (bs "h") 1 None None None None None) 0) Fine; ERollback 0; ECommit 0 Fine; EExec (Some 0) (NRegister (bs "c") (PI (bs "h") 1 None None None None None) 0) Fine; EBegin; EExec None (NRegister (bs "c") (PI (bs "h") 1 None None None None None) 0) Fine; EExec (Some 1) (NRegister (bs "b") (PI (bs "h") 1 None None None None None) 0) Fine; EQuery None; ECommit 0 Fine; EQuery (Some 0); EExec None (NInvalidate (bs "b")) Fails; EExec (Some 1) (NRegister (bs "b") (PI (bs "h") 1 None None None None None) 0) Fine; ERollback 0; EQuery None; EExec (Some 1) (NInvalidate (bs "b")) Fine; EExec (Some 0) (NRegister (bs "b") (PI (bs "h") 1 None None None None None) 0) Fine; EQuery (Some 1)] in
  map snd (fst (tx_run (nx_step true) es nx_empty)) = [Done; Ran (Ok tt); Done; Done; Done; ErrTxDone; ErrTxDone; ErrTxDone; ErrTxDone; Done; Ran (Ok tt); Ran (Ok tt); Done; ErrTxDone; ErrTxDone; Failed; Ran (Err ErrConstraint); ErrTxDone; Done; Ran (Ok tt); ErrTxDone; Done] /\
  views es = [(Some []); None; None; (Some []); None; None; None; None; None; None; None; None; (Some [(bs "c")]); None; None; None; None; None; (Some [(bs "c")]); None; None; (Some [(bs "c")])] /\
  paths (w_db (snd (tx_run (nx_step true) es nx_empty))) = [(bs "c")].
Proof. vm_compute. repeat split. Qed.
Example delete_22 : let es := [EExec None (NRegister (bs "a") (PI (bs "h") 1 None None None None None) 0) Fine; EExec None (NRegister (bs "d") (PI (bs "h") 1 None None None None None) 0) Fine; EBegin; EExec (Some 0) (NRegister (bs "a") (PI (bs "h") 1 None None None None None) 0) Fine; ECommit 0 Fine; EExec (Some 0) (NInvalidate (bs "a")) Fine; EQuery None; EExec (Some 0) (NRegister (bs "c") (PI (bs "h") 1 None None None None None) 0) Fine; ECommit 0 Fine; EExec (Some 0) (NInvalidate (bs "c")) Fine; EExec None (NInvalidate (bs "b")) Fine; EExec None (NInvalidate (bs "d")) Fine; EExec (Some 0) (NRegister (bs "a") (PI (bs "h") 1 None None None None None) 0) Fine; ECommit 0 Fine; ERollback 0; EQuery (Some 0); ECommit 0 Fine; EQuery None; EExec (Some 0) (NRegister (bs "a") (PI (bs "h") 1 None None None None None) 0) Fine; EExec (Some 0) (NRegister (bs "b") (PI (bs "h") 1 None None None None None) 0) Fine; EExec (Some 0) (NRegister (bs "d") (PI (bs "h") 1 None None None None None) 0) Fine] in
  map snd (fst (tx_run (nx_step true) es nx_empty)) = [Ran (Ok tt); Ran (Ok tt); Done; Ran (Err ErrConstraint); Done; ErrTxDone; Done; ErrTxDone; ErrTxDone; ErrTxDone; Ran (Ok tt); Ran (Ok tt); ErrTxDone; ErrTxDone; ErrTxDone; ErrTxDone; ErrTxDone; Done; ErrTxDone; ErrTxDone; ErrTxDone] /\
  views es = [None; None; None; None; None; None; (Some [(bs "a"); (bs "d")]); None; None; None; None; None; None; None; None; None; None; (Some [(bs "a")]); None; None; None] /\
  paths (w_db (snd (tx_run (nx_step true) es nx_empty))) = [(bs "a")].
Proof. vm_compute. repeat split. Qed.
Example wal_23 : let es := [EQuery None; EExec None (NInvalidate (bs "d")) Fine; EQuery None; EBegin; EQuery None; EExec (Some 0) (NInvalidate (bs "d")) Fine; EBegin; EExec None (NRegister (bs "b") (PI (bs "h") 1 None None None None None) 0) Fails; EExec (Some 0) (NInvalidate (bs "b")) Fine; EExec (Some 0) (NRegister (bs "c") (PI (bs "h") 1 None None None None None) 0) Fine; EQuery (Some 0); EQuery (Some 0); ECommit 1 Fine; EBegin; EBegin] in
  map snd (fst (tx_run (nx_step true) es nx_empty)) = [Done; Ran (Ok tt); Done; Done; Done; Ran (Ok tt); Done; Failed; Ran (Ok tt); Ran (Ok tt); Done; Done; Done; Done; Done] /\
  views es = [(Some []); None; (Some []); None; (Some []); None; None; None; None; None; (Some [(bs "c")]); (Some [(bs "c")]); None; None; None] /\
  paths (w_db (snd (tx_run (nx_step true) es nx_empty))) = [].
Proof. vm_compute. repeat split. Qed.
Example delete_24 : let es := [EQuery None; EQuery None; EQuery None] in
  map snd (fst (tx_run (nx_step true) es nx_empty)) = [Done; Done; Done] /\
  views es = [(Some []); (Some []); (Some [])] /\
  paths (w_db (snd (tx_run (nx_step true) es nx_empty))) = [].
Proof. vm_compute. repeat split. Qed.
Example wal_25 : let es := [EQuery None; EQuery None; EQuery None; ECrash; EBegin; ECommit 0 Fine; EExec (Some 0) (NRegister (bs "c") (PI (bs "h") 1 None None None None None) 0) Fine; EExec (Some 0) (NRegister (bs "b") (PI (bs "h") 1 None None None None None) 0) Fine; EExec (Some 0) (NRegister (bs "c") (PI (bs "h") 1 None None None None None) 0) Fine; ECommit 0 Fine; ECommit 0 Fine; EQuery (Some 0); EExec (Some 0) (NInvalidate (bs "c")) Fine; ECommit 0 Fine; EExec (Some 0) (NRegister (bs "a") (PI (bs "h") 1 None None None None None) 0) Fine; EExec (Some 0) (NInvalidate (bs "a")) Fine; EExec (Some 0) (NInvalidate (bs "c")) Fine; EQuery (Some 0); EQuery (Some 0); ECommit 0 Fine; EExec (Some 0) (NInvalidate (bs "a")) Fine; EQuery (Some 0); EExec None (NRegister (bs "d") (PI (bs "h") 1 None None None None None) 0) Fine; EBegin; EQuery (Some 0); ECommit 0 Fine; EExec (Some 0) (NRegister (bs "d") (PI (bs "h") 1 None None None None None) 0) Fine; EQuery None; ECommit 0 Fine; EExec (Some 0) (NRegister (bs "d") (PI (bs "h") 1 None None None None None) 0) Fine; EQuery (Some 1); EQuery (Some 0); ERollback 0; ECrash; EExec (Some 0) (NRegister (bs "a") (PI (bs "h") 1 None None None None None) 0) Fine; EExec (Some 1) (NRegister (bs "c") (PI (bs "h") 1 None None None None None) 0) Fine; EQuery None] in
  map snd (fst (tx_run (nx_step true) es nx_empty)) = [Done; Done; Done; Done; Done; Done; ErrTxDone; ErrTxDone; ErrTxDone; ErrTxDone; ErrTxDone; ErrTxDone; ErrTxDone; ErrTxDone; ErrTxDone; ErrTxDone; ErrTxDone; ErrTxDone; ErrTxDone; ErrTxDone; ErrTxDone; ErrTxDone; Ran (Ok tt); Done; ErrTxDone; ErrTxDone; ErrTxDone; Done; ErrTxDone; ErrTxDone; Done; ErrTxDone; ErrTxDone; Done; ErrTxDone; ErrTxDone; Done] /\
  views es = [(Some []); (Some []); (Some []); None; None; None; None; None; None; None; None; None; None; None; None; None; None; None; None; None; None; None; None; None; None; None; None; (Some [(bs "d")]); None; None; (Some [(bs "d")]); None; None; None; None; None; (Some [(bs "d")])] /\
  paths (w_db (snd (tx_run (nx_step true) es nx_empty))) = [(bs "d")].
Proof. vm_compute. repeat split. Qed.
Example delete_26 : let es := [EBegin; EQuery (Some 0); EExec None (NInvalidate (bs "d")) Fails; EExec None (NRegister (bs "d") (PI (bs "h") 1 None None None None None) 0) Fails; EExec (Some 0) (NRegister (bs "d") (PI (bs "h") 1 None None None None None) 0) Fine; EExec (Some 0) (NInvalidate (bs "c")) Fine; EExec (Some 0) (NInvalidate (bs "c")) Fine; EExec (Some 0) (NInvalidate (bs "b")) Fine; ECommit 0 Fine; EExec (Some 0) (NRegister (bs "c") (PI (bs "h") 1 None None None None None) 0) Fine; ECrash; EExec None (NRegister (bs "d") (PI (bs "h") 1 None None None None None) 0) Fine; EExec (Some 0) (NRegister (bs "b") (PI (bs "h") 1 None None None None None) 0) Fine; EExec (Some 0) (NRegister (bs "b") (PI (bs "h") 1 None None None None None) 0) Fine; ECrash; ECommit 0 Fine; EBegin; EExec (Some 1) (NRegister (bs "d") (PI (bs "h") 1 None None None None None) 0) Fine; ECommit 0 Fine; EBegin; EExec (Some 2) (NRegister (bs "a") (PI (bs "h") 1 None None None None None) 0) Fails; EBegin; ECommit 1 Fine; EExec (Some 0) (NRegister (bs "a") (PI (bs "h") 1 None None None None None) 0) Fine; EQuery None; EExec (Some 3) (NRegister (bs "c") (PI (bs "h") 1 None None None None None) 0) Fine; EExec None (NRegister (bs "d") (PI (bs "h") 1 None None None None None) 0) Fails; EBegin; EExec (Some 0) (NRegister (bs "a") (PI (bs "h") 1 None None None None None) 0) Fine; EQuery (Some 2); EQuery (Some 3); EQuery (Some 3); EExec (Some 1) (NInvalidate (bs "b")) Fine; EQuery (Some 2); EQuery (Some 2); ECommit 4 Fine] in
  map snd (fst (tx_run (nx_step true) es nx_empty)) = [Done; Done; Failed; Failed; Ran (Ok tt); Ran (Ok tt); Ran (Ok tt); Ran (Ok tt); Done; ErrTxDone; Done; Ran (Err ErrConstraint); ErrTxDone; ErrTxDone; Done; ErrTxDone; Done; Ran (Err ErrConstraint); ErrTxDone; Done; Failed; Done; Done; ErrTxDone; Done; Ran (Ok tt); Failed; Done; ErrTxDone; Done; Done; Done; ErrTxDone; Done; Done; Done] /\
  views es = [None; (Some []); None; None; None; None; None; None; None; None; None; None; None; None; None; None; None; None; None; None; None; None; None; None; (Some [(bs "d")]); None; None; None; None; (Some [(bs "d")]); (Some [(bs "c"); (bs "d")]); (Some [(bs "c"); (bs "d")]); None; (Some [(bs "d")]); (Some [(bs "d")]); None] /\
  paths (w_db (snd (tx_run (nx_step true) es nx_empty))) = [(bs "d")].
Proof. vm_compute. repeat split. Qed.
Example wal_27 : let es := [EExec None (NInvalidate (bs "d")) Fine; EBegin; EQuery (Some 0); ECommit 0 Fine; ECommit 0 Fine; EQuery (Some 0); ECommit 0 Fine; ECommit 0 Fine; EExec (Some 0) (NInvalidate (bs "c")) Fine; EExec (Some 0) (NRegister (bs "d") (PI (bs "h") 1 None None None None None) 0) Fine; ERollback 0; EQuery (Some 0); EExec (Some 0) (NRegister (bs "a") (PI (bs "h") 1 None None None None None) 0) Fine; ERollback 0; EExec (Some 0) (NRegister (bs "b") (PI (bs "h") 1 None None None None None) 0) Fine; EBegin] in
  map snd (fst (tx_run (nx_step true) es nx_empty)) = [Ran (Ok tt); Done; Done; Done; ErrTxDone; ErrTxDone; ErrTxDone; ErrTxDone; ErrTxDone; ErrTxDone; ErrTxDone; ErrTxDone; ErrTxDone; ErrTxDone; ErrTxDone; Done] /\
  views es = [None; None; (Some []); None; None; None; None; None; None; None; None; None; None; None; None; None] /\
  paths (w_db (snd (tx_run (nx_step true) es nx_empty))) = [].
Proof. vm_compute. repeat split. Qed.
Example delete_28 : let es := [EQuery None; EBegin; EQuery (Some 0); EQuery None; ECommit 0 Fine; EExec (Some 0) (NRegister (bs "a") (PI (bs "h") 1 None None None None None) 0) Fine] in
  map snd (fst (tx_run (nx_step true) es nx_empty)) = [Done; Done; Done; Done; Done; ErrTxDone] /\
  views es = [(Some []); None; (Some []); (Some []); None; None] /\
  paths (w_db (snd (tx_run (nx_step true) es nx_empty))) = [].
Proof. vm_compute. repeat split. Qed.
Example wal_29 : let es := [EExec None (NRegister (bs "d") (PI (bs "h") 1 None None None None None) 0) Fine; EQuery None; EExec None (NRegister (bs "b") (PI (bs "h") 1 None None None None None) 0) Fine; EBegin; ECrash; ERollback 0; EExec None (NInvalidate (bs "c")) Fine; EQuery None; EQuery (Some 0); EExec (Some 0) (NInvalidate (bs "b")) Fine; EQuery (Some 0); ECommit 0 Fine; ERollback 0; EBegin; EExec None (NRegister (bs "c") (PI (bs "h") 1 None None None None None) 0) Fine] in
  map snd (fst (tx_run (nx_step true) es nx_empty)) = [Ran (Ok tt); Done; Ran (Ok tt); Done; Done; ErrTxDone; Ran (Ok tt); Done; ErrTxDone; ErrTxDone; ErrTxDone; ErrTxDone; ErrTxDone; Done; Ran (Ok tt)] /\
  views es = [None; (Some [(bs "d")]); None; None; None; None; None; (Some [(bs "b"); (bs "d")]); None; None; None; None; None; None; None] /\
  paths (w_db (snd (tx_run (nx_step true) es nx_empty))) = [(bs "b"); (bs "c"); (bs "d")].
Proof. vm_compute. repeat split. Qed.
Example delete_30 : let es := [EQuery None; EExec None (NRegister (bs "c") (PI (bs "h") 1 None None None None None) 0) Fine; EExec None (NInvalidate (bs "a")) Fine; EQuery None; EExec None (NInvalidate (bs "c")) Fine; EQuery None; EBegin; EExec (Some 0) (NRegister (bs "c") (PI (bs "h") 1 None None None None None) 0) Fine; EQuery (Some 0); EExec (Some 0) (NRegister (bs "c") (PI (bs "h") 1 None None None None None) 0) Fine; EQuery (Some 0); EQuery (Some 0)] in
  map snd (fst (tx_run (nx_step true) es nx_empty)) = [Done; Ran (Ok tt); Ran (Ok tt); Done; Ran (Ok tt); Done; Done; Ran (Ok tt); Done; Ran (Err ErrConstraint); Done; Done] /\
  views es = [(Some []); None; None; (Some [(bs "c")]); None; (Some []); None; None; (Some [(bs "c")]); None; (Some [(bs "c")]); (Some [(bs "c")])] /\
  paths (w_db (snd (tx_run (nx_step true) es nx_empty))) = [].
Proof. vm_compute. repeat split. Qed.
Example wal_31 : let es := [EExec None (NRegister (bs "a") (PI (bs "h") 1 None None None None None) 0) Fine; EBegin; EQuery (Some 0); EExec (Some 0) (NRegister (bs "b") (PI (bs "h") 1 None None None None None) 0) Fine; EQuery (Some 0); EExec (Some 0) (NRegister (bs "b") (PI (bs "h") 1 None None None None None) 0) Fine; EQuery (Some 0); EQuery (Some 0); EExec (Some 0) (NRegister (bs "d") (PI (bs "h") 1 None None None None None) 0) Fine; EExec (Some 0) (NInvalidate (bs "d")) Fine; EQuery None; EQuery None; ECrash; EExec (Some 0) (NInvalidate (bs "a")) Fine; EQuery (Some 0); EExec (Some 0) (NRegister (bs "a") (PI (bs "h") 1 None None None None None) 0) Fine] in
  map snd (fst (tx_run (nx_step true) es nx_empty)) = [Ran (Ok tt); Done; Done; Ran (Ok tt); Done; Ran (Err ErrConstraint); Done; Done; Ran (Ok tt); Ran (Ok tt); Done; Done; Done; ErrTxDone; ErrTxDone; ErrTxDone] /\
  views es = [None; None; (Some [(bs "a")]); None; (Some [(bs "a"); (bs "b")]); None; (Some [(bs "a"); (bs "b")]); (Some [(bs "a"); (bs "b")]); None; None; (Some [(bs "a")]); (Some [(bs "a")]); None; None; None; None] /\
  paths (w_db (snd (tx_run (nx_step true) es nx_empty))) = [(bs "a")].
Proof. vm_compute. repeat split. Qed.
Example delete_32 : let es := [EExec None (NRegister (bs "c") (PI (bs "h") 1 None None None None None) 0) Fine; EExec None (NRegister (bs "a") (PI (bs "h") 1 None None None None None) 0) Fine; ECrash; EExec None (NRegister (bs "b") (PI (bs "h") 1 None None None None None) 0) Fine; EExec None (NRegister (bs "c") (PI (bs "h") 1 None None None None None) 0) Fine; EExec None (NRegister (bs "b") (PI (bs "h") 1 None None None None None) 0) Fine] in
  map snd (fst (tx_run (nx_step true) es nx_empty)) = [Ran (Ok tt); Ran (Ok tt); Done; Ran (Ok tt); Ran (Err ErrConstraint); Ran (Err ErrConstraint)] /\
  views es = [None; None; None; None; None; None] /\
  paths (w_db (snd (tx_run (nx_step true) es nx_empty))) = [(bs "a"); (bs "b"); (bs "c")].
Proof. vm_compute. repeat split. Qed.
Example wal_33 : let es := [EBegin; ERollback 0; EExec (Some 0) (NRegister (bs "d") (PI (bs "h") 1 None None None None None) 0) Fine; EQuery (Some 0); EQuery None; ECommit 0 Fine; EQuery (Some 0); EQuery (Some 0); EExec (Some 0) (NRegister (bs "b") (PI (bs "h") 1 None None None None None) 0) Fine; ERollback 0; EQuery (Some 0); EExec (Some 0) (NInvalidate (bs "a")) Fine; EExec (Some 0) (NInvalidate (bs "a")) Fine; EExec None (NInvalidate (bs "c")) Fine; EExec (Some 0) (NRegister (bs "d") (PI (bs "h") 1 None None None None None) 0) Fine; EExec None (NRegister (bs "a") (PI (bs "h") 1 None None None None None) 0) Fine; EQuery (Some 0); EExec (Some 0) (NRegister (bs "b") (PI (bs "h") 1 None None None None None) 0) Fine; EExec (Some 0) (NRegister (bs "c") (PI (bs "h") 1 None None None None None) 0) Fine; EExec (Some 0) (NRegister (bs "c") (PI (bs "h") 1 None None None None None) 0) Fine; ECommit 0 Fine; EBegin; EExec None (NInvalidate (bs "d")) Fine; EBegin; EExec None (NRegister (bs "d") (PI (bs "h") 1 None None None None None) 0) Fine; ERollback 0; ECommit 0 Fine; EQuery None; ECommit 1 Fine; EQuery (Some 2); ECommit 1 Fine] in
  map snd (fst (tx_run (nx_step true) es nx_empty)) = [Done; Done; ErrTxDone; ErrTxDone; Done; ErrTxDone; ErrTxDone; ErrTxDone; ErrTxDone; ErrTxDone; ErrTxDone; ErrTxDone; ErrTxDone; Ran (Ok tt); ErrTxDone; Ran (Ok tt); ErrTxDone; ErrTxDone; ErrTxDone; ErrTxDone; ErrTxDone; Done; Ran (Ok tt); Done; Ran (Ok tt); ErrTxDone; ErrTxDone; Done; Done; Done; ErrTxDone] /\
  views es = [None; None; None; None; (Some []); None; None; None; None; None; None; None; None; None; None; None; None; None; None; None; None; None; None; None; None; None; None; (Some [(bs "a"); (bs "d")]); None; (Some [(bs "a"); (bs "d")]); None] /\
  paths (w_db (snd (tx_run (nx_step true) es nx_empty))) = [(bs "a"); (bs "d")].
Proof. vm_compute. repeat split. Qed.
Example delete_34 : let es := [EExec None (NRegister (bs "d") (PI (bs "h") 1 None None None None None) 0) Fine; EBegin; EExec (Some 0) (NRegister (bs "d") (PI (bs "h") 1 None None None None None) 0) Fine] in
  map snd (fst (tx_run (nx_step true) es nx_empty)) = [Ran (Ok tt); Done; Ran (Err ErrConstraint)] /\
  views es = [None; None; None] /\
  paths (w_db (snd (tx_run (nx_step true) es nx_empty))) = [(bs "d")].
Proof. vm_compute. repeat split. Qed.
Example wal_35 : let es := [EQuery None] in
  map snd (fst (tx_run (nx_step true) es nx_empty)) = [Done] /\
  views es = [(Some [])] /\
  paths (w_db (snd (tx_run (nx_step true) es nx_empty))) = [].
Proof. vm_compute. repeat split. Qed.
Example delete_36 : let es := [EExec None (NRegister (bs "a") (PI (bs "h") 1 None None None None None) 0) Fine] in
  map snd (fst (tx_run (nx_step true) es nx_empty)) = [Ran (Ok tt)] /\
  views es = [None] /\
  paths (w_db (snd (tx_run (nx_step true) es nx_empty))) = [(bs "a")].
Proof. vm_compute. repeat split. Qed.
Example wal_37 : let es := [EExec None (NRegister (bs "a") (PI (bs "h") 1 None None None None None) 0) Fine; ECrash; EQuery None; EQuery None; EQuery None; EQuery None; EExec None (NRegister (bs "c") (PI (bs "h") 1 None None None None None) 0) Fine; EQuery None; ECrash; EExec None (NRegister (bs "d") (PI (bs "h") 1 None None None None None) 0) Fine; EExec None (NRegister (bs "a") (PI (bs "h") 1 None None None None None) 0) Fine; ECrash; EBegin; ECommit 0 Fine; ECommit 0 Fine; ECommit 0 Fine; ECommit 0 Fine; EExec (Some 0) (NRegister (bs "d") (PI (bs "h") 1 None None None None None) 0) Fine; ECommit 0 Fine] in
  map snd (fst (tx_run (nx_step true) es nx_empty)) = [Ran (Ok tt); Done; Done; Done; Done; Done; Ran (Ok tt); Done; Done; Ran (Ok tt); Ran (Err ErrConstraint); Done; Done; Done; ErrTxDone; ErrTxDone; ErrTxDone; ErrTxDone; ErrTxDone] /\
  views es = [None; None; (Some [(bs "a")]); (Some [(bs "a")]); (Some [(bs "a")]); (Some [(bs "a")]); None; (Some [(bs "a"); (bs "c")]); None; None; None; None; None; None; None; None; None; None; None] /\
  paths (w_db (snd (tx_run (nx_step true) es nx_empty))) = [(bs "a"); (bs "c"); (bs "d")].
Proof. vm_compute. repeat split. Qed.
Example delete_38 : let es := [EExec None (NInvalidate (bs "c")) Fine; EBegin; EExec (Some 0) (NRegister (bs "a") (PI (bs "h") 1 None None None None None) 0) Fine; EExec (Some 0) (NRegister (bs "d") (PI (bs "h") 1 None None None None None) 0) Fine; EQuery None; ECrash; EQuery (Some 0); ECommit 0 Fine; EExec (Some 0) (NRegister (bs "a") (PI (bs "h") 1 None None None None None) 0) Fine; ECommit 0 Fine; EBegin; EExec (Some 0) (NRegister (bs "c") (PI (bs "h") 1 None None None None None) 0) Fine; EExec (Some 0) (NRegister (bs "c") (PI (bs "h") 1 None None None None None) 0) Fine; EQuery None; EExec (Some 0) (NRegister (bs "b") (PI (bs "h") 1 None None None None None) 0) Fine; EExec (Some 1) (NRegister (bs "a") (PI (bs "h") 1 None None None None None) 0) Fine; EExec (Some 1) (NInvalidate (bs "c")) Fine; ECommit 1 Fine; EBegin; EExec (Some 2) (NRegister (bs "c") (PI (bs "h") 1 None None None None None) 0) Fine; EQuery (Some 2); EExec (Some 2) (NRegister (bs "b") (PI (bs "h") 1 None None None None None) 0) Fine; ERollback 2; ERollback 1; EExec (Some 1) (NRegister (bs "c") (PI (bs "h") 1 None None None None None) 0) Fine; EQuery (Some 1); EExec (Some 2) (NRegister (bs "b") (PI (bs "h") 1 None None None None None) 0) Fine; EExec (Some 1) (NInvalidate (bs "d")) Fine; EExec (Some 0) (NInvalidate (bs "b")) Fine; EExec (Some 2) (NRegister (bs "b") (PI (bs "h") 1 None None None None None) 0) Fine; ECrash; EExec (Some 2) (NInvalidate (bs "a")) Fine; EExec (Some 0) (NRegister (bs "b") (PI (bs "h") 1 None None None None None) 0) Fine] in
  map snd (fst (tx_run (nx_step true) es nx_empty)) = [Ran (Ok tt); Done; Ran (Ok tt); Ran (Ok tt); Done; Done; ErrTxDone; ErrTxDone; ErrTxDone; ErrTxDone; Done; ErrTxDone; ErrTxDone; Done; ErrTxDone; Ran (Ok tt); Ran (Ok tt); Done; Done; Ran (Ok tt); Done; Ran (Ok tt); Done; ErrTxDone; ErrTxDone; ErrTxDone; ErrTxDone; ErrTxDone; ErrTxDone; ErrTxDone; Done; ErrTxDone; ErrTxDone] /\
  views es = [None; None; None; None; (Some []); None; None; None; None; None; None; None; None; (Some []); None; None; None; None; None; None; (Some [(bs "a"); (bs "c")]); None; None; None; None; None; None; None; None; None; None; None; None] /\
  paths (w_db (snd (tx_run (nx_step true) es nx_empty))) = [(bs "a")].
Proof. vm_compute. repeat split. Qed.
Example wal_39 : let es := [EExec None (NRegister (bs "a") (PI (bs "h") 1 None None None None None) 0) Fine; EQuery None; EExec None (NInvalidate (bs "c")) Fine; EQuery None] in
  map snd (fst (tx_run (nx_step true) es nx_empty)) = [Ran (Ok tt); Done; Ran (Ok tt); Done] /\
  views es = [None; (Some [(bs "a")]); None; (Some [(bs "a")])] /\
  paths (w_db (snd (tx_run (nx_step true) es nx_empty))) = [(bs "a")].
Proof. vm_compute. repeat split. Qed.
