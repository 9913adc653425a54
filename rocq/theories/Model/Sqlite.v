(** Model of /repo/pkg/sqlite: the queries that sqlc generated (query.sql.go) over
    the schemas (schema.sql).

    Trusted: SQLite runs each statement as its manual says.  A table is the list
    of its rows; a select without "order by" returns the matching rows in any
    order, so a query is a relation between the database, its arguments and its
    results ([rows_of], [one_of]).  A statement that fails changes nothing.  That
    a statement can fail for a reason outside of the model (I/O, a lock, the
    context) is part of the histories in Spec/SqliteSpec.v.

    Whether foreign keys are enforced is a property of the connection, which the
    caller chooses with the DSN (sqlite.go:15-49 passes it on; SQLite's default is
    off): the argument [fk]. *)
From Coq Require Import Permutation.
From Verif Require Import Base.Bytes Model.GoIO.

(** db.go:12-17 (what the driver returns). *)
Definition ErrNoRows : error := EMsg "sql: no rows in result set".
(** db.go:12-17 (what the driver returns). *)
Definition ErrConstraint : error := EMsg "constraint failed".
(** db.go:12-17 (what the driver returns). *)
Definition ErrFull : error := EMsg "database or disk is full".
(** rows.Next/Scan until the end (all the :many queries).  DBTX.QueryContext, db.go:15. *)
Definition rows_of {A} (matching : list A) (result : list A) : Prop := Permutation matching result.
(** QueryRowContext(..).Scan: the first row, or sql.ErrNoRows.
    DBTX.QueryRowContext, db.go:16. *)
Definition one_of {A} (matching : list A) (result : res A) : Prop :=
  match matching with
  | [] => result = Err ErrNoRows
  | _ => exists a, In a matching /\ result = Ok a
  end.
(** "insert or replace": the rows that are in conflict with the new one go.
    binary_cache_v6/schema.sql:1-40. *)
Definition replace_into {A} (conflict : A -> A -> bool) (r : A) (t : list A) : list A :=
  r :: filter (fun x => negb (conflict r x)) t.
(** A new value for an "integer primary key autoincrement" column: larger than any
    value used before; [gap] lets the database skip some.
    binary_cache_v6/schema.sql:2, nix_v10/schema.sql:2. *)
Definition next_id (seq : Z) (gap : N) : res Z :=
  let i := (seq + 1 + Z.of_N gap)%Z in if (2 ^ 63 - 1 <? i)%Z then Err ErrFull else Ok i.

(** * fetcher_cache_v2 *)
(** fetcher_cache_v2/schema.sql, models.go:7-12. *)
Record fc_row := FC { fc_domain : bytes; fc_key : bytes; fc_value : bytes; fc_ts : Z }.
Definition fc_same (a b : fc_row) : bool := beq (fc_domain a) (fc_domain b) && beq (fc_key a) (fc_key b).
(** fetcher_cache_v2/query.sql.go:49-68. *)
Definition fc_UpsertCache (r : fc_row) (t : list fc_row) : list fc_row := replace_into fc_same r t.
(** fetcher_cache_v2/query.sql.go:12-47. *)
Definition fc_QueryCache (domain key : bytes) (t : list fc_row) (result : list (bytes * Z)) : Prop :=
  rows_of (map (fun r => (fc_value r, fc_ts r)) (filter (fun r => beq (fc_domain r) domain && beq (fc_key r) key) t)) result.

(** * eval_cache_v5 *)
(** eval_cache_v5/schema.sql, models.go:11-17. *)
Record ec_row := EC { ec_parent : Z; ec_name : option bytes; ec_type : Z; ec_value : option bytes; ec_context : option bytes }.
(** The primary key is (parent, name); NULL is not equal to NULL. *)
Definition ec_same (a b : ec_row) : bool :=
  (ec_parent a =? ec_parent b)%Z &&
  match ec_name a, ec_name b with Some x, Some y => beq x y | _, _ => false end.
(** eval_cache_v5/query.sql.go:13-32: context is not given, so it is NULL. *)
Definition ec_InsertAttribute (parent : Z) (name : option bytes) (ty : Z) (value : option bytes) (t : list ec_row) : list ec_row :=
  replace_into ec_same (EC parent name ty value None) t.
(** eval_cache_v5/query.sql.go:34-55. *)
Definition ec_InsertAttributeWithContext (parent : Z) (name : option bytes) (ty : Z) (value context : option bytes) (t : list ec_row) : list ec_row :=
  replace_into ec_same (EC parent name ty value context) t.
(** eval_cache_v5/query.sql.go:57-78: "name = ?" is never true of NULL. *)
Definition ec_QueryAttribute (parent : Z) (name : option bytes) (t : list ec_row) (result : res (Z * option bytes * option bytes)) : Prop :=
  one_of (map (fun r => (ec_type r, ec_value r, ec_context r))
    (filter (fun r => (ec_parent r =? parent)%Z && match ec_name r, name with Some x, Some y => beq x y | _, _ => false end) t)) result.
(** eval_cache_v5/query.sql.go:80-105. *)
Definition ec_QueryAttributes (parent : Z) (t : list ec_row) (result : list (option bytes)) : Prop :=
  rows_of (map ec_name (filter (fun r => (ec_parent r =? parent)%Z) t)) result.

(** * binary_cache_v6 *)
(** binary_cache_v6/schema.sql, models.go.  binary_cache_v6/schema.sql:1-8. *)
Record bc_cache := BC { bc_id : Z; bc_url : bytes; bc_ts : Z; bc_storeDir : bytes; bc_mass : Z; bc_prio : Z }.
(** The nullable columns of NARs.  binary_cache_v6/schema.sql:10-28. *)
Record nar_info := NI { ni_name : option bytes; ni_url : option bytes; ni_compression : option bytes; ni_fileHash : option bytes;
  ni_fileSize : option Z; ni_narHash : option bytes; ni_narSize : option Z; ni_refs : option bytes; ni_deriver : option bytes;
  ni_sigs : option bytes; ni_ca : option bytes }.
(** binary_cache_v6/schema.sql:10-28. *)
Definition no_info : nar_info := NI None None None None None None None None None None None.
(** binary_cache_v6/schema.sql:10-28. *)
Record bc_nar := BN { bn_cache : Z; bn_hash : bytes; bn_info : nar_info; bn_ts : Z; bn_present : Z }.
(** binary_cache_v6/schema.sql:29-36. *)
Record bc_real := BR { br_cache : Z; br_output : bytes; br_content : option bytes; br_ts : Z }.
(** binary_cache_v6/schema.sql:1-40. *)
Record bcdb := BDB { b_caches : list bc_cache; b_seq : Z; b_nars : list bc_nar; b_reals : list bc_real;
  b_purge : list (bytes * option Z) }.
(** binary_cache_v6/schema.sql:10-28. *)
Definition bn_same (a b : bc_nar) : bool := (bn_cache a =? bn_cache b)%Z && beq (bn_hash a) (bn_hash b).
(** binary_cache_v6/schema.sql:29-36. *)
Definition br_same (a b : bc_real) : bool := (br_cache a =? br_cache b)%Z && beq (br_output a) (br_output b).
Definition known_cache (c : Z) (d : bcdb) : bool := existsb (fun x => (bc_id x =? c)%Z) (b_caches d).
(** binary_cache_v6/query.sql.go:13-40: an upsert that returns the row's id. *)
Definition bc_InsertCache (url : bytes) (ts : Z) (dir : bytes) (mass prio : Z) (gap : N) (d : bcdb) : res Z * bcdb :=
  match find (fun x => beq (bc_url x) url) (b_caches d) with
  | Some x =>
      (Ok (bc_id x), BDB (map (fun y => if beq (bc_url y) url then BC (bc_id y) url ts dir mass prio else y) (b_caches d))
                         (b_seq d) (b_nars d) (b_reals d) (b_purge d))
  | None =>
      match next_id (b_seq d) gap with
      | Ok i => (Ok i, BDB (BC i url ts dir mass prio :: b_caches d) i (b_nars d) (b_reals d) (b_purge d))
      | Err e => (Err e, d)
      | Panic m => (Panic m, d)
      end
  end.
Definition put_nar (fk : bool) (r : bc_nar) (d : bcdb) : res unit * bcdb :=
  if fk && negb (known_cache (bn_cache r) d) then (Err ErrConstraint, d)
  else (Ok tt, BDB (b_caches d) (b_seq d) (replace_into bn_same r (b_nars d)) (b_reals d) (b_purge d)).
(** binary_cache_v6/query.sql.go:73-115. *)
Definition bc_InsertNar (fk : bool) (cache : Z) (hash : bytes) (i : nar_info) (ts : Z) (d : bcdb) : res unit * bcdb :=
  put_nar fk (BN cache hash i ts 1) d.
(** binary_cache_v6/query.sql.go:42-55. *)
Definition bc_InsertMissingNAR (fk : bool) (cache : Z) (hash : bytes) (ts : Z) (d : bcdb) : res unit * bcdb :=
  put_nar fk (BN cache hash no_info ts 0) d.
Definition put_real (fk : bool) (r : bc_real) (d : bcdb) : res unit * bcdb :=
  if fk && negb (known_cache (br_cache r) d) then (Err ErrConstraint, d)
  else (Ok tt, BDB (b_caches d) (b_seq d) (b_nars d) (replace_into br_same r (b_reals d)) (b_purge d)).
(** binary_cache_v6/query.sql.go:117-137: a nil slice is NULL. *)
Definition bc_InsertRealisation (fk : bool) (cache : Z) (o : bytes) (content : option bytes) (ts : Z) (d : bcdb) : res unit * bcdb :=
  put_real fk (BR cache o content ts) d.
(** binary_cache_v6/query.sql.go:57-71. *)
Definition bc_InsertMissingRealisation (fk : bool) (cache : Z) (o : bytes) (ts : Z) (d : bcdb) : res unit * bcdb :=
  put_real fk (BR cache o None ts) d.
(** binary_cache_v6/query.sql.go:320-327. *)
Definition bc_UpdateLastPurge (v : option Z) (d : bcdb) : bcdb :=
  BDB (b_caches d) (b_seq d) (b_nars d) (b_reals d) (replace_into (fun a b => beq (fst a) (fst b)) ([], v) (b_purge d)).
(** binary_cache_v6/query.sql.go:139-151. *)
Definition bc_PurgeNars (t0 t1 : Z) (d : bcdb) : bcdb :=
  BDB (b_caches d) (b_seq d)
    (filter (fun r => negb (((bn_present r =? 0) && (bn_ts r <? t0)) || ((bn_present r =? 1) && (bn_ts r <? t1)))%Z) (b_nars d))
    (b_reals d) (b_purge d).
(** binary_cache_v6/query.sql.go:153-195. *)
Definition bc_QueryCache (url : bytes) (t : Z) (d : bcdb) (result : list (Z * bytes * Z * Z)) : Prop :=
  rows_of (map (fun r => (bc_id r, bc_storeDir r, bc_mass r, bc_prio r))
    (filter (fun r => beq (bc_url r) url && (t <? bc_ts r)%Z) (b_caches d))) result.
(** binary_cache_v6/query.sql.go:208-274. *)
Definition bc_QueryNar (cache : Z) (hash : bytes) (t0 t1 : Z) (d : bcdb) (result : list (Z * nar_info)) : Prop :=
  rows_of (map (fun r => (bn_present r, bn_info r))
    (filter (fun r => (bn_cache r =? cache)%Z && beq (bn_hash r) hash &&
       (((bn_present r =? 0) && (t0 <? bn_ts r)) || ((bn_present r =? 1) && (t1 <? bn_ts r)))%Z) (b_nars d))) result.
(** binary_cache_v6/query.sql.go:276-318. *)
Definition bc_QueryRealisation (cache : Z) (o : bytes) (t0 t1 : Z) (d : bcdb) (result : list (option bytes)) : Prop :=
  rows_of (map br_content
    (filter (fun r => (br_cache r =? cache)%Z && beq (br_output r) o &&
       match br_content r with None => (t0 <? br_ts r)%Z | Some _ => (t1 <? br_ts r)%Z end) (b_reals d))) result.
(** binary_cache_v6/query.sql.go:197-206. *)
Definition bc_QueryLastPurge (d : bcdb) (result : res (option Z)) : Prop := one_of (map snd (b_purge d)) result.

(** * nix_v10 *)
(** nix_v10/schema.sql, models.go.  nix_v10/schema.sql:1-11. *)
Record path_info := PI { pi_hash : bytes; pi_time : Z; pi_deriver : option bytes; pi_narSize : option Z; pi_ultimate : option Z;
  pi_sigs : option bytes; pi_ca : option bytes }.
(** nix_v10/schema.sql:1-11. *)
Record vpath := VP { vp_id : Z; vp_path : bytes; vp_info : path_info }.
(** nix_v10/schema.sql:13-19. *)
Record nxref := NR { nr_referrer : Z; nr_reference : Z }.
(** nix_v10/schema.sql:26-32. *)
Record nxout := NO { no_drv : Z; no_id : bytes; no_path : bytes }.
(** nix_v10/schema.sql:1-33. *)
Record nxdb := NDB { n_paths : list vpath; n_seq : Z; n_refs : list nxref; n_outs : list nxout }.
(** nix_v10/schema.sql:13-19. *)
Definition nr_same (a b : nxref) : bool := ((nr_referrer a =? nr_referrer b) && (nr_reference a =? nr_reference b))%Z.
(** nix_v10/schema.sql:26-32. *)
Definition no_same (a b : nxout) : bool := (no_drv a =? no_drv b)%Z && beq (no_id a) (no_id b).
Definition known_id (i : Z) (d : nxdb) : bool := existsb (fun v => (vp_id v =? i)%Z) (n_paths d).
(** nix_v10/query.sql.go:210-238: path is unique. *)
Definition nx_RegisterValidPath (p : bytes) (i : path_info) (gap : N) (d : nxdb) : res unit * nxdb :=
  if existsb (fun v => beq (vp_path v) p) (n_paths d) then (Err ErrConstraint, d)
  else match next_id (n_seq d) gap with
       | Ok n => (Ok tt, NDB (VP n p i :: n_paths d) n (n_refs d) (n_outs d))
       | Err e => (Err e, d)
       | Panic m => (Panic m, d)
       end.
(** nix_v10/query.sql.go:240-263. *)
Definition nx_UpdatePathInfo (narSize : option Z) (hash : bytes) (ultimate : option Z) (sigs ca : option bytes) (p : bytes) (d : nxdb) : nxdb :=
  NDB (map (fun v => if beq (vp_path v) p
                     then VP (vp_id v) (vp_path v) (PI hash (pi_time (vp_info v)) (pi_deriver (vp_info v)) narSize ultimate sigs ca)
                     else v) (n_paths d)) (n_seq d) (n_refs d) (n_outs d).
(** nix_v10/query.sql.go:28-40. *)
Definition nx_AddReference (fk : bool) (a b : Z) (d : nxdb) : res unit * nxdb :=
  if fk && negb (known_id a d && known_id b d) then (Err ErrConstraint, d)
  else (Ok tt, NDB (n_paths d) (n_seq d) (replace_into nr_same (NR a b) (n_refs d)) (n_outs d)).
(** nix_v10/query.sql.go:13-26. *)
Definition nx_AddDerivationOutput (fk : bool) (drv : Z) (o p : bytes) (d : nxdb) : res unit * nxdb :=
  if fk && negb (known_id drv d) then (Err ErrConstraint, d)
  else (Ok tt, NDB (n_paths d) (n_seq d) (n_refs d) (replace_into no_same (NO drv o p) (n_outs d))).
(** nix_v10/query.sql.go:42-49 with the trigger DeleteSelfRefs and, if they are
    enforced, the foreign keys of Refs and DerivationOutputs (schema.sql): delete
    restrict for the reference, delete cascade for the referrer and the drv. *)
Definition nx_InvalidatePath (fk : bool) (p : bytes) (d : nxdb) : res unit * nxdb :=
  match find (fun v => beq (vp_path v) p) (n_paths d) with
  | None => (Ok tt, d)
  | Some v =>
      let i := vp_id v in
      let refs := filter (fun r => negb ((nr_referrer r =? i) && (nr_reference r =? i))%Z) (n_refs d) in
      let paths := filter (fun v => negb (beq (vp_path v) p)) (n_paths d) in
      if fk then
        if existsb (fun r => (nr_reference r =? i)%Z) refs then (Err ErrConstraint, d)
        else (Ok tt, NDB paths (n_seq d) (filter (fun r => negb (nr_referrer r =? i)%Z) refs)
                         (filter (fun o => negb (no_drv o =? i)%Z) (n_outs d)))
      else (Ok tt, NDB paths (n_seq d) refs (n_outs d))
  end.
(** nix_v10/query.sql.go:93-122. *)
Definition nx_QueryPathInfo (p : bytes) (d : nxdb) (result : res (Z * path_info)) : Prop :=
  one_of (map (fun v => (vp_id v, vp_info v)) (filter (fun v => beq (vp_path v) p) (n_paths d))) result.
(** nix_v10/query.sql.go:124-149. *)
Definition nx_QueryReferences (a : Z) (d : nxdb) (result : list bytes) : Prop :=
  rows_of (flat_map (fun r => map vp_path (filter (fun v => (nr_reference r =? vp_id v)%Z) (n_paths d)))
             (filter (fun r => (nr_referrer r =? a)%Z) (n_refs d))) result.
(** nix_v10/query.sql.go:151-176; the inner select gives NULL if there is no such path. *)
Definition nx_QueryReferrers (p : bytes) (d : nxdb) (result : list bytes) : Prop :=
  match find (fun v => beq (vp_path v) p) (n_paths d) with
  | None => result = []
  | Some w =>
      rows_of (flat_map (fun r => map vp_path (filter (fun v => (nr_referrer r =? vp_id v)%Z) (n_paths d)))
                 (filter (fun r => (nr_reference r =? vp_id w)%Z) (n_refs d))) result
  end.
(** nix_v10/query.sql.go:178-208. *)
Definition nx_QueryValidDerivers (p : bytes) (d : nxdb) (result : list (Z * bytes)) : Prop :=
  rows_of (flat_map (fun o => map (fun v => (vp_id v, vp_path v)) (filter (fun v => (no_drv o =? vp_id v)%Z) (n_paths d)))
             (filter (fun o => beq (no_path o) p) (n_outs d))) result.
(** nix_v10/query.sql.go:51-81. *)
Definition nx_QueryDerivationOutputs (drv : Z) (d : nxdb) (result : list (bytes * bytes)) : Prop :=
  rows_of (map (fun o => (no_id o, no_path o)) (filter (fun o => (no_drv o =? drv)%Z) (n_outs d))) result.
(** nix_v10/query.sql.go:83-91: "limit 1" of the rows in any order; text is
    compared bytewise. *)
Definition nx_QueryPathFromHashPart (p : bytes) (d : nxdb) (result : res bytes) : Prop :=
  one_of (map vp_path (filter (fun v => negb (blt (vp_path v) p)) (n_paths d))) result.
