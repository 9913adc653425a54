(** Histories of calls on a nar Reader that has a budget for its buffers. *)
From Verif Require Import Base.Bytes Model.GoIO Model.GoStd Model.Wire Model.Nar Model.NarReader Model.NarReaderMem Spec.NarHist.

(** One call, with at most [mem] bytes for one buffer. *)
Definition m_step (mem : N) (op : rd_op) (r : rd) : rd_seen * rd :=
  match op with
  | ONext => let '(x, r') := m_Next mem r in (SNext x, r')
  | ORead n => let '(b, e, r') := rd_Read n r in (SRead b e, r')
  | OClose => let '(x, r') := m_rd_Close mem r in (SClosed x, r')
  end.
(** Several calls in a row. *)
Fixpoint m_calls (mem : N) (ops : list rd_op) (r : rd) : list rd_seen * rd :=
  match ops with
  | [] => ([], r)
  | op :: ops' =>
      let '(x, r1) := m_step mem op r in
      let '(l, r2) := m_calls mem ops' r1 in (x :: l, r2)
  end.
(** Everything the caller sees who opens [s] and makes the calls [ops]. *)
Definition m_seen (mem : N) (s : src) (ops : list rd_op) : res unit * list rd_seen :=
  match m_NewReader mem s with
  | (Ok r, _) => (Ok tt, fst (m_calls mem ops r))
  | (Err e, _) => (Err e, [])
  | (Panic w, _) => (Panic w, [])
  end.
(** The same without a budget. *)
Definition seen_all (s : src) (ops : list rd_op) : res unit * list rd_seen :=
  match NewReader s with
  | (Ok r, _) => (Ok tt, fst (rd_run ops r))
  | (Err e, _) => (Err e, [])
  | (Panic w, _) => (Panic w, [])
  end.
