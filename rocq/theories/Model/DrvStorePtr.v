(** /repo/pkg/derivation/store once more, with the caller's *Derivation pointers:
    the MapStore keeps the pointer it is given (map.go:49) and Get returns it
    (map.go:66); the BadgerStore keeps text (badger.go:98-109, 151). *)
From Verif Require Import Base.Bytes Model.GoIO Model.Derivation Model.DrvParser Model.DrvStore.

(** The caller's Derivation structs, with everything they point to.
    map.go:32 (the argument drv), map.go:64-70 (the result). *)
Definition dptr := nat.
(** map.go:32 (the argument drv), map.go:64-70 (the result). *)
Definition dheap := dptr -> drv.
(** map.go:32 (the argument drv), map.go:64-70 (the result). *)
Definition dassign (m : dheap) (p : dptr) (d : drv) : dheap := fun q => if q =? p then d else m q.

Section Stores.
Variable sha : bytes -> bytes.
(** map.go:23-29. *)
Record pstore := PStore { ps_drvs : amap dptr; ps_repl : amap bytes }.
(** map.go:13-18 NewMapStore. *)
Definition PNewMapStore : pstore := PStore [] [].
(** map.go:64-70 Get: the pointer. *)
Definition pmap_Get (s : pstore) (path : bytes) : res dptr :=
  match mget (ps_drvs s) path with
  | Some p => Ok p
  | None => Err (EMsg "derivation path not found")
  end.
(** map.go:73-79 Has. *)
Definition pmap_Has (s : pstore) (path : bytes) : res bool :=
  match mget (ps_drvs s) path with Some _ => Ok true | None => Ok false end.
(** map.go:32-61 Put. *)
Definition pmap_Put (m : dheap) (s : pstore) (p : dptr) : res bytes * pstore :=
  let d := m p in
  match validateDerivationInStore d (pmap_Has s) with
  | Err e => (Err e, s)
  | Panic w => (Panic w, s)
  | Ok _ =>
      match checkOutputPaths sha d (ps_repl s) with
      | Err e => (Err e, s)
      | Panic w => (Panic w, s)
      | Ok _ =>
          match DrvPath sha d with
          | Err e => (Err e, s)
          | Panic w => (Panic w, s)
          | Ok path =>
              let s1 := PStore (mset (ps_drvs s) path p) (ps_repl s) in
              match CalculateDrvReplacement sha d (ps_repl s1) with
              | Err _ => (Err (EMsg "unable to calculate drv replacement"), s1)
              | Panic w => (Panic w, s1)
              | Ok r => (Ok path, PStore (ps_drvs s1) (mset (ps_repl s1) path r))
              end
          end
      end
  end.
End Stores.
(** What a caller does: assign to a Derivation, or call the store.  map.go:32, 64, 73. *)
Inductive d_op := DSet (p : dptr) (d : drv) | DPut (p : dptr) | DGet (path : bytes) | DHas (path : bytes).
