(** Callers that keep Derivation structs and change them between calls (C105). *)
From Verif Require Import Base.Bytes Model.GoIO Model.Derivation Model.DrvParser Model.DrvStore Model.DrvStorePtr.

(** What a call returns; of the pointer that Get returns, what it points to then. *)
Inductive d_seen := SPut (r : res bytes) | SGot (r : res drv) | SHas (r : res bool).
Section S.
Variable sha : bytes -> bytes.
Variable json : bytes -> res (option bytes).
Definition point (m : dheap) (r : res dptr) : res drv :=
  match r with Ok p => Ok (m p) | Err e => Err e | Panic w => Panic w end.
(** A history on a MapStore: what the calls return, and the structs and the store at the end. *)
Fixpoint d_run (ops : list d_op) (m : dheap) (s : pstore) : list d_seen * (dheap * pstore) :=
  match ops with
  | [] => ([], (m, s))
  | DSet p d :: ops' => d_run ops' (dassign m p d) s
  | DPut p :: ops' => let '(r, s1) := pmap_Put sha m s p in let '(l, x) := d_run ops' m s1 in (SPut r :: l, x)
  | DGet path :: ops' => let '(l, x) := d_run ops' m s in (SGot (point m (pmap_Get s path)) :: l, x)
  | DHas path :: ops' => let '(l, x) := d_run ops' m s in (SHas (pmap_Has s path) :: l, x)
  end.
(** The same on a store that keeps values: each Put with the derivation as it is at the call. *)
Fixpoint v_run (ops : list d_op) (m : dheap) (s : mstore) : list d_seen * mstore :=
  match ops with
  | [] => ([], s)
  | DSet p d :: ops' => v_run ops' (dassign m p d) s
  | DPut p :: ops' => let '(r, s1) := map_Put sha s (m p) in let '(l, x) := v_run ops' m s1 in (SPut r :: l, x)
  | DGet path :: ops' => let '(l, x) := v_run ops' m s in (SGot (map_Get s path) :: l, x)
  | DHas path :: ops' => let '(l, x) := v_run ops' m s in (SHas (map_Has s path) :: l, x)
  end.
(** The same on a BadgerStore. *)
Fixpoint b_run (ops : list d_op) (m : dheap) (b : db) : list d_seen * db :=
  match ops with
  | [] => ([], b)
  | DSet p d :: ops' => b_run ops' (dassign m p d) b
  | DPut p :: ops' => let '(r, b1) := badger_Put sha b (m p) true in let '(l, x) := b_run ops' m b1 in (SPut r :: l, x)
  | DGet path :: ops' => let '(l, x) := b_run ops' m b in (SGot (badger_Get json b path) :: l, x)
  | DHas path :: ops' => let '(l, x) := b_run ops' m b in (SHas (badger_Has b path) :: l, x)
  end.
Fixpoint dheap_after (ops : list d_op) (m : dheap) : dheap :=
  match ops with
  | [] => m
  | DSet p d :: ops' => dheap_after ops' (dassign m p d)
  | _ :: ops' => dheap_after ops' m
  end.
(** The derivations given to Put, as they were. *)
Fixpoint given (ops : list d_op) (m : dheap) : list drv :=
  match ops with
  | [] => []
  | DSet p d :: ops' => given ops' (dassign m p d)
  | DPut p :: ops' => m p :: given ops' m
  | _ :: ops' => given ops' m
  end.
(** Everything but what Get returns. *)
Definition but_gets (l : list d_seen) : list d_seen := filter (fun x => match x with SGot _ => false | _ => true end) l.
(** The struct at [p] was accepted by the last call of Put that stored something at [path]. *)
Definition put_last (ops : list d_op) (m : dheap) (path : bytes) (p : dptr) : Prop :=
  exists a b, ops = a ++ DPut p :: b /\ fst (map_Put sha (snd (v_run a m NewMapStore)) (dheap_after a m p)) = Ok path /\
    forall b1 q b2, b = b1 ++ DPut q :: b2 ->
      fst (map_Put sha (snd (v_run (a ++ DPut p :: b1) m NewMapStore)) (dheap_after (a ++ DPut p :: b1) m q)) <> Ok path.
(** A struct that Put accepted is not changed afterwards. *)
Definition unchanged (ops : list d_op) (m : dheap) : Prop :=
  forall a p b d c, ops = a ++ DPut p :: b ++ DSet p d :: c ->
    is_ok (fst (map_Put sha (snd (v_run a m NewMapStore)) (dheap_after a m p))) = true -> d = dheap_after a m p.
End S.
