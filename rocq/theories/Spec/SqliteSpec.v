(** Histories of statements on the databases of /repo/pkg/sqlite, and what the
    queries should return after them. *)
From Verif Require Import Base.Bytes Model.GoIO Model.Sqlite.

(** Something that started it happened, and since then nothing but what leaves it
    alone. *)
Definition since {E} (start : E -> Prop) (leaves : E -> Prop) (h : list E) : Prop :=
  exists h1 e h2, h = h1 ++ e :: h2 /\ start e /\ Forall leaves h2.
(** The environment makes a statement fail: nothing changes. *)
Definition ErrEnv : error := EIo 7.

(** * fetcher_cache_v2: the upserts, each with whether it succeeded. *)
Definition fc_run (h : list (fc_row * bool)) : list fc_row :=
  fold_left (fun t (e : fc_row * bool) => if snd e then fc_UpsertCache (fst e) t else t) h [].
Definition fc_writes (d k : bytes) (e : fc_row * bool) : Prop :=
  snd e = true /\ fc_domain (fst e) = d /\ fc_key (fst e) = k.

(** * eval_cache_v5 *)
Inductive ec_op :=
| EInsert (parent : Z) (name : option bytes) (ty : Z) (value : option bytes)
| EInsertC (parent : Z) (name : option bytes) (ty : Z) (value context : option bytes).
Definition ec_run (h : list (ec_op * bool)) : list ec_row :=
  fold_left (fun t (e : ec_op * bool) => if snd e then
     match fst e with
     | EInsert p n ty v => ec_InsertAttribute p n ty v t
     | EInsertC p n ty v c => ec_InsertAttributeWithContext p n ty v c t
     end else t) h [].
Definition ec_writes (p : Z) (n : option bytes) (e : ec_op * bool) : Prop :=
  snd e = true /\ match fst e with EInsert p' n' _ _ | EInsertC p' n' _ _ _ => p' = p /\ n' = n end.
(** The statement writes these values. *)
Definition ec_sets (p : Z) (n : option bytes) (x : Z * option bytes * option bytes) (e : ec_op * bool) : Prop :=
  snd e = true /\ (fst e = EInsert p n (fst (fst x)) (snd (fst x)) /\ snd x = None \/
                   fst e = EInsertC p n (fst (fst x)) (snd (fst x)) (snd x)).

(** * binary_cache_v6 *)
Inductive bc_op :=
| BInsertCache (url : bytes) (ts : Z) (dir : bytes) (mass prio : Z) (gap : N)
| BInsertNar (cache : Z) (hash : bytes) (i : nar_info) (ts : Z)
| BInsertMissing (cache : Z) (hash : bytes) (ts : Z)
| BInsertReal (cache : Z) (o : bytes) (content : option bytes) (ts : Z)
| BInsertMissingReal (cache : Z) (o : bytes) (ts : Z)
| BUpdatePurge (v : option Z)
| BPurge (t0 t1 : Z).
Definition exec_ok (x : res unit * bcdb) : res Z * bcdb :=
  (match fst x with Ok _ => Ok 0%Z | Err e => Err e | Panic m => Panic m end, snd x).
(** Ok 0 stands for a nil error of the statements that return nothing else. *)
Definition bc_step (fk : bool) (o : bc_op) (d : bcdb) : res Z * bcdb :=
  match o with
  | BInsertCache u ts dir m p gap => bc_InsertCache u ts dir m p gap d
  | BInsertNar c hs i ts => exec_ok (bc_InsertNar fk c hs i ts d)
  | BInsertMissing c hs ts => exec_ok (bc_InsertMissingNAR fk c hs ts d)
  | BInsertReal c x ct ts => exec_ok (bc_InsertRealisation fk c x ct ts d)
  | BInsertMissingReal c x ts => exec_ok (bc_InsertMissingRealisation fk c x ts d)
  | BUpdatePurge v => (Ok 0%Z, bc_UpdateLastPurge v d)
  | BPurge t0 t1 => (Ok 0%Z, bc_PurgeNars t0 t1 d)
  end.
Definition bc_empty : bcdb := BDB [] 0 [] [] [].
(** What was called and returned, and the database. *)
Definition bc_run (fk : bool) (h : list (bc_op * bool)) : list (bc_op * res Z) * bcdb :=
  fold_left (fun (s : list (bc_op * res Z) * bcdb) (x : bc_op * bool) =>
     let '(r, d') := if snd x then bc_step fk (fst x) (snd s) else (Err ErrEnv, snd s) in
     (fst s ++ [(fst x, r)], d')) h ([], bc_empty).
(** The row a call stored: cache, hash part, present, the other columns, timestamp. *)
Definition nar_stored (e : bc_op * res Z) (c : Z) (hs : bytes) (present : Z) (i : nar_info) (ts : Z) : Prop :=
  (exists n, snd e = Ok n) /\
  (fst e = BInsertNar c hs i ts /\ present = 1%Z \/ fst e = BInsertMissing c hs ts /\ present = 0%Z /\ i = no_info).
(** The call left a row for (c, hs) with this flag and time alone. *)
Definition nar_kept (c : Z) (hs : bytes) (present ts : Z) (e : bc_op * res Z) : Prop :=
  (forall p i t, ~ nar_stored e c hs p i t) /\
  (forall t0 t1 n, e = (BPurge t0 t1, Ok n) -> ((if present =? 0 then t0 else t1) <= ts)%Z).
Definition real_stored (e : bc_op * res Z) (c : Z) (o : bytes) (content : option bytes) (ts : Z) : Prop :=
  (exists n, snd e = Ok n) /\
  (fst e = BInsertReal c o content ts \/ fst e = BInsertMissingReal c o ts /\ content = None).
Definition real_kept (c : Z) (o : bytes) (e : bc_op * res Z) : Prop := forall ct t, ~ real_stored e c o ct t.
Definition cache_stored (u : bytes) (i ts : Z) (dir : bytes) (m p : Z) (e : bc_op * res Z) : Prop :=
  exists gap, e = (BInsertCache u ts dir m p gap, Ok i).
Definition cache_kept (u : bytes) (e : bc_op * res Z) : Prop :=
  forall i ts dir m p, ~ cache_stored u i ts dir m p e.

(** * nix_v10 *)
Inductive nx_op :=
| NRegister (p : bytes) (i : path_info) (gap : N)
| NUpdate (narSize : option Z) (hash : bytes) (ultimate : option Z) (sigs ca : option bytes) (p : bytes)
| NAddRef (a b : Z)
| NAddOut (drv : Z) (o p : bytes)
| NInvalidate (p : bytes).
Definition nx_step (fk : bool) (o : nx_op) (d : nxdb) : res unit * nxdb :=
  match o with
  | NRegister p i gap => nx_RegisterValidPath p i gap d
  | NUpdate n hs u s c p => (Ok tt, nx_UpdatePathInfo n hs u s c p d)
  | NAddRef a b => nx_AddReference fk a b d
  | NAddOut i o p => nx_AddDerivationOutput fk i o p d
  | NInvalidate p => nx_InvalidatePath fk p d
  end.
Definition nx_empty : nxdb := NDB [] 0 [] [].
Definition nx_run (fk : bool) (h : list (nx_op * bool)) : list (nx_op * res unit) * nxdb :=
  fold_left (fun (s : list (nx_op * res unit) * nxdb) (x : nx_op * bool) =>
     let '(r, d') := if snd x then nx_step fk (fst x) (snd s) else (Err ErrEnv, snd s) in
     (fst s ++ [(fst x, r)], d')) h ([], nx_empty).
(** What is known about a path after these calls and results. *)
Definition nx_expect (p : bytes) (ev : list (nx_op * res unit)) : option path_info :=
  fold_left (fun (cur : option path_info) (e : nx_op * res unit) =>
    match e with
    | (NRegister q i _, Ok _) => if beq q p then Some i else cur
    | (NUpdate n hs u s c q, Ok _) =>
        if beq q p then option_map (fun i => PI hs (pi_time i) (pi_deriver i) n u s c) cur else cur
    | (NInvalidate q, Ok _) => if beq q p then None else cur
    | _ => cur
    end) ev None.
(** The path is valid and has this id. *)
Definition valid_as (p : bytes) (i : Z) (d : nxdb) : Prop := exists info, nx_QueryPathInfo p d (Ok (i, info)).
Definition out_stored (i : Z) (o p : bytes) (e : nx_op * res unit) : Prop := e = (NAddOut i o p, Ok tt).
