(** Histories of calls on a BytesWriter and a BytesReader, and the abstract
    behaviour expected of them. *)
From Verif Require Import Base.Bytes Model.GoIO Model.Wire Spec.WireSpec.

(** * BytesWriter *)
Inductive bw_op := BWrite (p : bytes) | BClose.
(** What the caller sees: the count and whether the error was nil. *)
Inductive bw_seen := SWrite (n : nat) (ok : bool) | SClose (ok : bool).

Definition is_none {A} (o : option A) : bool := match o with None => true | _ => false end.

(** The history on the model: calls the modelled methods one after the other. *)
Fixpoint bw_run (ops : list bw_op) (st : bytes_writer * sink) : list bw_seen * (bytes_writer * sink) :=
  match ops with
  | [] => ([], st)
  | BWrite p :: ops' =>
      let '((n, e), st') := bw_write (fst st) p (snd st) in
      let '(l, st'') := bw_run ops' st' in (SWrite n (is_none e) :: l, st'')
  | BClose :: ops' =>
      let '(e, st') := bw_close (fst st) (snd st) in
      let '(l, st'') := bw_run ops' st' in (SClose (is_none e) :: l, st'')
  end.

(** The abstract writer of a field of [n] bytes: the content accepted so far
    and whether it was closed. *)
Definition bw_abs_step (n : N) (st : bytes * bool) (op : bw_op) : bw_seen * (bytes * bool) :=
  let '(content, closed) := st in
  match op with
  | BWrite p =>
      if (lenN content + lenN p <=? n)%N
      then (SWrite (length p) true, (content ++ p, closed))
      else (SWrite 0 false, st)
  | BClose =>
      if (lenN content =? n)%N then (SClose true, (content, true)) else (SClose false, st)
  end.
Fixpoint bw_abs_run (n : N) (ops : list bw_op) (st : bytes * bool) : list bw_seen * (bytes * bool) :=
  match ops with
  | [] => ([], st)
  | op :: ops' =>
      let '(o, st') := bw_abs_step n st op in
      let '(l, st'') := bw_abs_run n ops' st' in (o :: l, st'')
  end.
(** The bytes that must have been emitted in an abstract state. *)
Definition bw_abs_out (n : N) (st : bytes * bool) : bytes :=
  le8 n ++ fst st ++ (if snd st then repeat x00 (pad_len (length (fst st))) else []).

(** A history of Writes on an arbitrary (failing) writer: the bytes the calls
    reported as written. *)
Fixpoint reported (ps : list bytes) (seen : list bw_seen) : bytes :=
  match ps, seen with
  | p :: ps', SWrite n _ :: seen' => firstn n p ++ reported ps' seen'
  | _, _ => []
  end.

(** * BytesReader *)
Fixpoint br_reads (ns : list N) (st : bytes_reader * src)
  : list (bytes * option error) * (bytes_reader * src) :=
  match ns with
  | [] => ([], st)
  | n :: ns' =>
      let '(b, e, st') := br_read n (fst st) (snd st) in
      let '(l, st'') := br_reads ns' st' in ((b, e) :: l, st'')
  end.
