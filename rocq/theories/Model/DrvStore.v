(** Model of /repo/pkg/derivation/store: util.go, map.go, badger.go.

    Simplifications.  The Go maps inside a derivation are association lists in
    one iteration order per Put call (Go may use a different order in every
    loop; C52 and C53 say when the order matters).  The MapStore keeps the
    caller's pointer; here it keeps the value, i.e. the caller is taken not to
    modify a derivation after storing it (Model/DrvStorePtr.v has the pointers).  The context argument is not used by
    the code. *)
From Verif Require Import Base.Bytes Base.BytesFacts Model.GoIO Model.GoStd Model.Derivation Model.DrvParser.

(** * util.go *)
(** util.go:23-32: the loop over the input derivations, calling the store's Has. *)
Fixpoint check_inputs (has : bytes -> res bool) (l : list bytes) : res unit :=
  match l with
  | [] => Ok tt
  | p :: l' =>
      match has p with
      | Panic w => Panic w
      | Err _ => Err (EMsg "error checking if input derivation exists")
      | Ok false => Err (EMsg "unable to find referred input drv path")
      | Ok true => check_inputs has l'
      end
  end.
(** util.go:12-35 validateDerivationInStore. *)
Definition validateDerivationInStore (d : drv) (has : bytes -> res bool) : res unit :=
  match drv_Validate d with
  | Panic w => Panic w
  | Err _ => Err (EMsg "unable to validate derivation")
  | Ok _ => check_inputs has (mkeys (d_inputs d))
  end.

Section Stores.
(** SHA-256, and json.Unmarshal of the "__json" variable (see Model/DrvParser.v). *)
Variable sha : bytes -> bytes.
Variable json : bytes -> res (option bytes).

(** util.go:48-55: compare the calculated paths with the ones in the derivation.
    A missing output would be a nil pointer. *)
Fixpoint compare_paths (outs : amap output) (l : list (bytes * bytes)) : res unit :=
  match l with
  | [] => Ok tt
  | (n, p) :: l' =>
      match mget outs n with
      | None => Panic "nil pointer dereference"
      | Some o => if beq p (o_path o) then compare_paths outs l'
                  else Err (EMsg "calculated output path doesn't match sent output path")
      end
  end.
(** util.go:39-58 checkOutputPaths. *)
Definition checkOutputPaths (d : drv) (repl : amap bytes) : res unit :=
  match CalculateOutputPaths sha d repl with
  | Panic w => Panic w
  | Err _ => Err (EMsg "unable to calculate output paths")
  | Ok paths => compare_paths (d_outputs d) paths
  end.

(** * map.go *)
(** map.go:23-29. *)
Record mstore := MStore { ms_drvs : amap drv; ms_repl : amap bytes }.
(** map.go:13-18 NewMapStore. *)
Definition NewMapStore : mstore := MStore [] [].
(** map.go:64-70 Get. *)
Definition map_Get (s : mstore) (p : bytes) : res drv :=
  match mget (ms_drvs s) p with
  | Some d => Ok d
  | None => Err (EMsg "derivation path not found")
  end.
(** map.go:73-79 Has. *)
Definition map_Has (s : mstore) (p : bytes) : res bool :=
  match mget (ms_drvs s) p with Some _ => Ok true | None => Ok false end.
(** map.go:32-61 Put. *)
Definition map_Put (s : mstore) (d : drv) : res bytes * mstore :=
  match validateDerivationInStore d (map_Has s) with
  | Err e => (Err e, s)
  | Panic w => (Panic w, s)
  | Ok _ =>
      match checkOutputPaths d (ms_repl s) with
      | Err e => (Err e, s)
      | Panic w => (Panic w, s)
      | Ok _ =>
          match DrvPath sha d with
          | Err e => (Err e, s)
          | Panic w => (Panic w, s)
          | Ok p =>
              (* ms.drvs[drvPath] = drv comes before the replacement is calculated *)
              let s1 := MStore (mset (ms_drvs s) p d) (ms_repl s) in
              match CalculateDrvReplacement sha d (ms_repl s1) with
              | Err _ => (Err (EMsg "unable to calculate drv replacement"), s1)
              | Panic w => (Panic w, s1)
              | Ok r => (Ok p, MStore (ms_drvs s1) (mset (ms_repl s1) p r))
              end
          end
      end
  end.

(** * badger.go
    The database (github.com/dgraph-io/badger) is modelled as the log of its
    committed transactions, each a list of key/value entries; the content is the
    log replayed.  Transactions are atomic and isolated; a crash can lose the
    most recent ones (badger does not sync every commit by default) but never
    a part of one. *)
(** badger.go:49-51. *)
Definition txn := list (bytes * bytes).
(** badger.go:49-51. *)
Definition db := list txn.
(** badger.go:107-131. *)
Fixpoint apply_txn (m : amap bytes) (t : txn) : amap bytes :=
  match t with
  | [] => m
  | (k, v) :: t' => apply_txn (mset m k v) t'
  end.
Definition content (b : db) : amap bytes := fold_left apply_txn b [].
(** badger.go:109, 123, 64, 144: []byte("drv:" + path), []byte("replacement:" + path). *)
Definition drv_key (p : bytes) : bytes := bs "drv:" ++ p.
(** badger.go:123. *)
Definition repl_key (p : bytes) : bytes := bs "replacement:" ++ p.

(** badger.go:172-202 Has: seek to the key and walk over all the keys from there. *)
Definition badger_Has (b : db) (p : bytes) : res bool :=
  let key := drv_key p in
  Ok (existsb (fun k => beq k key) (filter (fun k => negb (blt k key)) (sort_strings (mkeys (content b))))).
(** badger.go:140-168 Get. *)
Definition badger_Get (b : db) (p : bytes) : res drv :=
  match mget (content b) (drv_key p) with
  | None => Err (EMsg "derivation path not found")
  | Some t => ReadDerivation json (Src [t] EEOF false)
  end.
(** badger.go:59-86: the read transaction.  The function given to View returns
    after the first input derivation. *)
Definition load_replacements (b : db) (l : list bytes) : res (amap bytes) :=
  match l with
  | [] => Ok []
  | p :: _ =>
      match mget (content b) (repl_key p) with
      | None => Err (EMsg "unable to get input derivations")
      | Some v => Ok [(p, v)]
      end
  end.
(** badger.go:107-131: the function given to Update: the entries it sets, or an error. *)
Definition put_entries (d : drv) (repl : amap bytes) (p text : bytes) : res txn :=
  match CalculateDrvReplacement sha d repl with
  | Panic w => Panic w
  | Err _ => Err (EMsg "unable to calculate replacement string")
  | Ok r => Ok [(drv_key p, text); (repl_key p, r)]
  end.
(** badger.go:88-136: from checkOutputPaths to the end of Put.  [commits] is the
    database's answer to the commit: anything but success (conflict, full disk,
    transaction too big, ...) is an error and leaves the database alone. *)
Definition badger_finish (b : db) (d : drv) (repl : amap bytes) (commits : bool) : res bytes * db :=
  match checkOutputPaths d repl with
  | Err e => (Err e, b)
  | Panic w => (Panic w, b)
  | Ok _ =>
      match DrvPath sha d with
      | Err e => (Err e, b)
      | Panic w => (Panic w, b)
      | Ok p =>
          match WriteDerivation d (Sink [] []) with
          | (Err e, _) => (Err e, b)
          | (Panic w, _) => (Panic w, b)
          | (Ok _, buf) =>
              match put_entries d repl p (out buf) with
              | Err e => (Err e, b)
              | Panic w => (Panic w, b)
              | Ok t => if commits then (Ok p, b ++ [t]) else (Err (EIo 1), b)
              end
          end
      end
  end.
(** badger.go:54-137 Put, running alone. *)
Definition badger_Put (b : db) (d : drv) (commits : bool) : res bytes * db :=
  match validateDerivationInStore d (badger_Has b) with
  | Err e => (Err e, b)
  | Panic w => (Panic w, b)
  | Ok _ =>
      match load_replacements b (mkeys (d_inputs d)) with
      | Err e => (Err e, b)
      | Panic w => (Panic w, b)
      | Ok repl => badger_finish b d repl commits
      end
  end.

(** Put calls running concurrently: each database transaction is one step
    (badger.go: every Has is a View, then the View at 60, then the Update at 103;
    the calculations between them do not touch the database).  badger.go:54-137. *)
Inductive put_state :=
| PChecking (d : drv) (todo : list bytes)        (* Has still to be asked for these inputs *)
| PLoading (d : drv)
| PCommitting (d : drv) (repl : amap bytes)
| PReturned (r : res bytes).
(** badger.go:54-137. *)
Definition put_start (d : drv) : put_state :=
  match drv_Validate d with
  | Panic w => PReturned (Panic w)
  | Err _ => PReturned (Err (EMsg "unable to validate derivation"))
  | Ok _ => PChecking d (mkeys (d_inputs d))
  end.
(** badger.go:54-137. *)
Definition put_step (b : db) (commits : bool) (c : put_state) : put_state * db :=
  match c with
  | PChecking d [] => (PLoading d, b)
  | PChecking d (p :: l) =>
      match badger_Has b p with
      | Panic w => (PReturned (Panic w), b)
      | Err _ => (PReturned (Err (EMsg "error checking if input derivation exists")), b)
      | Ok false => (PReturned (Err (EMsg "unable to find referred input drv path")), b)
      | Ok true => (PChecking d l, b)
      end
  | PLoading d =>
      match load_replacements b (mkeys (d_inputs d)) with
      | Panic w => (PReturned (Panic w), b)
      | Err e => (PReturned (Err e), b)
      | Ok repl => (PCommitting d repl, b)
      end
  | PCommitting d repl => let '(r, b') := badger_finish b d repl commits in (PReturned r, b')
  | PReturned r => (PReturned r, b)
  end.
(** A process using the store: any number of running Put calls.
    badger.go:22-31, 54-137. *)
Inductive event :=
| EPut (d : drv)                        (* a new call *)
| EStep (i : nat) (commits : bool)      (* the i-th call takes a step *)
| ECrash (n : nat).                     (* the process dies; the first n transactions survive *)
(** badger.go:22-31, 54-137. *)
Definition set_nth {A} (l : list A) (i : nat) (x : A) : list A := firstn i l ++ [x] ++ skipn (S i) l.
(** badger.go:22-31, 54-137. *)
Definition world := (db * list put_state)%type.
(** badger.go:22-31, 54-137. *)
Definition world_step (w : world) (e : event) : world :=
  let '(b, calls) := w in
  match e with
  | EPut d => (b, calls ++ [put_start d])
  | EStep i commits =>
      match nth_error calls i with
      | None => w
      | Some c => let '(c', b') := put_step b commits c in (b', set_nth calls i c')
      end
  | ECrash n => (firstn n b, [])
  end.
(** badger.go:22-31, 54-137. *)
Definition world_run (w : world) (es : list event) : world := fold_left world_step es w.
End Stores.
