(** Model of /repo/pkg/storepath/references/refs.go. *)
From Verif Require Import Base.Bytes Model.Nixbase32 Model.Storepath.

(** refs.go:12-15. *)
Definition storePrefixLength : nat := length StoreDir + 1.
(** refs.go:14. *)
Definition refLength : nat := length Alphabet.

(** refs.go:18-30.  [rs_buf] is buf[:n], the valid part of the partial hit (the
    array keeps stale bytes beyond n, never read before being overwritten: the
    full buffer is only read when n = refLength).  hits is a set of hashes. *)
Record scanner := Scanner {
  rs_hashes : amap bytes;
  rs_hits : amap unit;
  rs_buf : bytes
}.

(** refs.go:37-48: the loop building the hashes map. *)
Fixpoint build_hashes (cands : list bytes) (m : amap bytes) : res (amap bytes) :=
  match cands with
  | [] => Ok m
  | p :: rest =>
      if negb (has_prefix p StoreDir) then Err (EMsg "missing store path prefix")
      else if length p <? length StoreDir + refLength + 3 then Err (EMsg "invalid store path length")
      else
        let* h := slice p storePrefixLength (storePrefixLength + refLength) in
        build_hashes rest (mset m h p)
  end.

(** refs.go:32-56 NewReferenceScanner. *)
Definition NewReferenceScanner (cands : list bytes) : res scanner :=
  let* m := build_hashes cands [] in Ok (Scanner m [] []).

(** refs.go:74-92: the loop body of Write for one byte. *)
Definition scan_byte (r : scanner) (c : byte) : scanner :=
  if negb (Is c) then Scanner (rs_hashes r) (rs_hits r) []
  else
    let buf := rs_buf r ++ [c] in
    if Nat.eqb (length buf) refLength then
      Scanner (rs_hashes r)
              (if mhas (rs_hashes r) buf then mset (rs_hits r) buf tt else rs_hits r) []
    else Scanner (rs_hashes r) (rs_hits r) buf.

(** refs.go:73-95 Write: the scanner after the call and the returned count. *)
Definition rs_Write (r : scanner) (s : bytes) : scanner * nat :=
  (fold_left scan_byte s r, length s).

(** refs.go:58-71 References: r.hashes[hash] is "" for a missing key. *)
Definition References (r : scanner) : list bytes :=
  sort_strings (map (fun h => match mget (rs_hashes r) h with Some p => p | None => [] end)
                    (mkeys (rs_hits r))).
