(** What concurrent wire calls should do (C97): each goroutine on its own. *)
From Verif Require Import Base.Bytes Model.GoIO Model.Wire Model.WirePool.

Definition run_op (op : pool_op) (s : src) (w : sink) : pool_res * src * sink :=
  match op with
  | OWrite n => let '(e, w') := WriteUint64 w n in (RW e, s, w')
  | ORead => let '(r, s') := ReadUint64 s in (RR r, s', w)
  | OPad len => let '(e, s') := readPadding s len in (RP e, s', w)
  end.
Fixpoint run_ops (ops : list pool_op) (s : src) (w : sink) : list pool_res * src * sink :=
  match ops with
  | [] => ([], s, w)
  | op :: ops' => let '(r, s1, w1) := run_op op s w in let '(rs, s2, w2) := run_ops ops' s1 w1 in (r :: rs, s2, w2)
  end.
(** What a goroutine has done so far is what it would have done alone. *)
Definition as_alone (g : list pool_op * src * sink) (t : thread) : Prop :=
  let '(ops, s, w) := g in
  exists finished, ops = finished ++ t_ops t /\ t_done t = fst (fst (run_ops finished s w)) /\
    (t_pc t = Idle -> t_src t = snd (fst (run_ops finished s w)) /\ t_sink t = snd (run_ops finished s w)).
(** The buffer a goroutine is using. *)
Definition holds (t : thread) : list nat :=
  match t_pc t with Idle => [] | WStore l _ | WGive l _ | RFill l _ _ | RLook l _ | Leave l _ => [l] end.
Definition finished (t : thread) : Prop := t_ops t = [] /\ t_pc t = Idle.
(** Runs counted by the steps of goroutine [i]. *)
Inductive pruns_of (i : nat) : nat -> pworld -> pworld -> Prop :=
| of_0 w : pruns_of i 0 w w
| of_mine k u m m' a t t' b : pruns_of i k u (m, a ++ t :: b) -> length a = i -> tstep m t m' t' -> pruns_of i (S k) u (m', a ++ t' :: b)
| of_other k u m m' a t t' b : pruns_of i k u (m, a ++ t :: b) -> length a <> i -> tstep m t m' t' -> pruns_of i k u (m', a ++ t' :: b)
| of_drop k u h x l y n ts : pruns_of i k u (Mem h (x ++ l :: y) n, ts) -> pruns_of i k u (Mem h (x ++ y) n, ts).
