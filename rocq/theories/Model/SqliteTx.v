(** Models New and WithTx of /repo/pkg/sqlite/{binary_cache_v6,eval_cache_v5,fetcher_cache_v2,nix_v10}/db.go,
    which are the same in the four packages, over transactions as database/sql and SQLite
    provide them.  The statements themselves (query.sql.go) are those of Model/Sqlite.v,
    here a parameter [step]. *)
From Verif Require Import Base.Bytes Model.GoIO.

(** What a DBTX is: the database itself ( *sql.DB, every statement on its own) or the
    n-th transaction begun ( *sql.Tx).  db.go:12-17 *)
Inductive dbtx := OnDB | OnTx (n : nat).
(** type Queries struct.  db.go:23-25 *)
Record queries := Queries { q_db : dbtx }.
(** func New.  db.go:19-21 *)
Definition New (db : dbtx) : queries := Queries db.
(** func WithTx.  db.go:27-31 *)
Definition WithTx (q : queries) (tx : nat) : queries := Queries (OnTx tx).

(** * Trusted: database/sql and SQLite
    A transaction sees the database as it was at its first statement, and its own
    changes; only one transaction can write at a time, and only if nobody has written
    since it looked; a statement that cannot have the lock fails.  Besides, any
    statement may fail for reasons of its own, and then SQLite may roll back the whole
    transaction (disk full, I/O error, interrupt); database/sql does not know, and later
    statements of the transaction run on their own.  A failing Commit rolls back
    (mattn/go-sqlite3 does so explicitly).  In-memory databases, of which each
    connection has its own, are not covered. *)
Section Tx.
Context {D O R : Type} (step : O -> D -> R * D).
(** The database behind the DBTX of db.go:12-17. *)
Inductive fault := Fine | Fails | FailsAndRollsBack.
(** [t_open]: neither Commit nor Rollback has been called.  [t_alive]: SQLite still has the
    transaction.  [t_snap]: after the first statement, the number of writes the database
    had seen then and the database as the transaction sees it.
    The database behind the DBTX of db.go:12-17. *)
Record txn := Txn { t_open : bool; t_alive : bool; t_dirty : bool; t_snap : option (nat * D) }.
(** The database behind the DBTX of db.go:12-17. *)
Record world := World { w_db : D; w_writes : nat; w_txs : list txn }.
(** The database behind the DBTX of db.go:12-17. *)
Definition begun : txn := Txn true true false None.
(** The database behind the DBTX of db.go:12-17. *)
Inductive outcome :=
| Ran (r : R)      (* the statement was executed and returned this, possibly a constraint error *)
| Failed           (* the statement or the commit failed, SQLite says why *)
| ErrTxDone        (* "sql: transaction has already been committed or rolled back" *)
| Done.            (* Begin, Commit, Rollback or a query succeeded *)

(** The database behind the DBTX of db.go:12-17. *)
Fixpoint set_nth {A} (n : nat) (x : A) (l : list A) : list A :=
  match l, n with [], _ => [] | _ :: t, 0 => x :: t | a :: t, S m => a :: set_nth m x t end.
(** The database behind the DBTX of db.go:12-17. *)
Definition holds_lock (t : txn) : bool := t_open t && t_alive t && t_dirty t.
(** The database behind the DBTX of db.go:12-17. *)
Definition others_lock (n : nat) (w : world) : bool :=
  existsb (fun mt => negb (fst mt =? n) && holds_lock (snd mt)) (combine (seq 0 (length (w_txs w))) (w_txs w)).
(** The database behind the DBTX of db.go:12-17. *)
Definition with_tx (n : nat) (t : txn) (w : world) : world := World (w_db w) (w_writes w) (set_nth n t (w_txs w)).
(** A statement on its own.  The database behind the DBTX of db.go:12-17. *)
Definition alone (o : O) (f : fault) (w : world) : outcome * world :=
  match f with
  | Fine => if existsb holds_lock (w_txs w) then (Failed, w)
            else let '(r, d') := step o (w_db w) in (Ran r, World d' (S (w_writes w)) (w_txs w))
  | _ => (Failed, w)
  end.
(** What the transaction sees, and since when.
    The database behind the DBTX of db.go:12-17. *)
Definition snap (t : txn) (w : world) : nat * D := match t_snap t with Some s => s | None => (w_writes w, w_db w) end.
(** ExecContext / QueryRowContext of a statement that writes.  db.go:13, 16. *)
Definition exec (db : dbtx) (o : O) (f : fault) (w : world) : outcome * world :=
  match db with
  | OnDB => alone o f w
  | OnTx n =>
      match nth_error (w_txs w) n with
      | None => (ErrTxDone, w)
      | Some t =>
          if negb (t_open t) then (ErrTxDone, w)
          else if negb (t_alive t) then alone o f w
          else match f with
               | Fine =>
                   let '(v, d) := snap t w in
                   if others_lock n w || negb (v =? w_writes w) then (Failed, with_tx n (Txn true true (t_dirty t) (Some (v, d))) w)
                   else let '(r, d') := step o d in (Ran r, with_tx n (Txn true true true (Some (v, d'))) w)
               | Fails => (Failed, w)
               | FailsAndRollsBack => (Failed, with_tx n (Txn true false false None) w)
               end
      end
  end.
(** QueryContext: what a query through the handle looks at.  db.go:15-16. *)
Definition sees (db : dbtx) (w : world) : option D :=
  match db with
  | OnDB => Some (w_db w)
  | OnTx n => match nth_error (w_txs w) n with
              | Some t => if negb (t_open t) then None else if negb (t_alive t) then Some (w_db w) else Some (snd (snap t w))
              | None => None
              end
  end.
(** db.go:15-16. *)
Definition query (db : dbtx) (w : world) : outcome * world :=
  match db with
  | OnDB => (Done, w)
  | OnTx n => match nth_error (w_txs w) n with
              | Some t => if negb (t_open t) then (ErrTxDone, w) else if negb (t_alive t) then (Done, w)
                          else (Done, with_tx n (Txn true true (t_dirty t) (Some (snap t w))) w)
              | None => (ErrTxDone, w)
              end
  end.
(** Tx.Commit  The database behind the DBTX of db.go:12-17. *)
Definition commit (n : nat) (f : fault) (w : world) : outcome * world :=
  match nth_error (w_txs w) n with
  | None => (ErrTxDone, w)
  | Some t =>
      let closed := Txn false false false None in
      if negb (t_open t) then (ErrTxDone, w)
      else if negb (t_alive t) then (Failed, with_tx n closed w)
      else match f with
           | Fine => if t_dirty t then (Done, World (snd (snap t w)) (S (w_writes w)) (set_nth n closed (w_txs w)))
                     else (Done, with_tx n closed w)
           | _ => (Failed, with_tx n closed w)
           end
  end.
(** Tx.Rollback, also when the context of BeginTx ends.
    The database behind the DBTX of db.go:12-17. *)
Definition rollback (n : nat) (w : world) : outcome * world :=
  match nth_error (w_txs w) n with
  | Some t => if t_open t then (Done, with_tx n (Txn false false false None) w) else (ErrTxDone, w)
  | None => (ErrTxDone, w)
  end.

(** * Programs: any interleaving of calls by any number of goroutines
    Statements and queries go through the package, [None] through New(db), [Some n]
    through New(db).WithTx(tx). *)
(** The database behind the DBTX of db.go:12-17. *)
Inductive event :=
| EBegin
| EExec (tx : option nat) (o : O) (f : fault)
| EQuery (tx : option nat)
| ECommit (n : nat) (f : fault)
| ERollback (n : nat)
| ECrash.          (* of the process or the machine: open transactions are lost *)
(** The database behind the DBTX of db.go:12-17. *)
Definition handle (tx : option nat) : queries := match tx with None => New OnDB | Some n => WithTx (New OnDB) n end.
(** The database behind the DBTX of db.go:12-17. *)
Definition happen (e : event) (w : world) : outcome * world :=
  match e with
  | EBegin => (Done, World (w_db w) (w_writes w) (w_txs w ++ [begun]))
  | EExec tx o f => exec (q_db (handle tx)) o f w
  | EQuery tx => query (q_db (handle tx)) w
  | ECommit n f => commit n f w
  | ERollback n => rollback n w
  | ECrash => (Done, World (w_db w) (w_writes w) (map (fun _ => Txn false false false None) (w_txs w)))
  end.
(** The database behind the DBTX of db.go:12-17. *)
Definition tx_run (es : list event) (d : D) : list (event * outcome) * world :=
  fold_left (fun (s : list (event * outcome) * world) e => let '(out, w') := happen e (snd s) in (fst s ++ [(e, out)], w')) es ([], World d 0 []).
End Tx.
Arguments event : clear implicits.
Arguments outcome : clear implicits.
Arguments world : clear implicits.
