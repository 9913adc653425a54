(** What a schedule is, and what may be expected of every one of them. *)
From Coq Require Import Relations.Relation_Operators.
From Verif Require Import Base.Bytes Model.GoIO Model.Nar Model.NarReader Spec.NarHist Model.NarConc.

(** An execution: any number of steps, each of any thread that can move. *)
Definition execution : conf -> conf -> Prop := clos_refl_trans_1n _ cstep.
(** Nothing can move any more. *)
Definition stuck (c : conf) : Prop := forall c', ~ cstep c c'.

(** A call that panics ends the program, so nothing is seen after it. *)
Definition is_panic (x : rd_seen) : bool :=
  match x with SNext (Panic _) | SClosed (Panic _) => true | _ => false end.
Fixpoint until_panic (l : list rd_seen) : list rd_seen :=
  match l with
  | [] => []
  | x :: l' => if is_panic x then [x] else x :: until_panic l'
  end.
(** No Read after a Close. *)
Definition no_read_after_close (ops : list rd_op) : Prop :=
  forall l1 l2 n, ops = l1 ++ OClose :: l2 -> ~ In (ORead n) l2.

(** The parser goroutine is working: it may read from the archive and replace
    the content reader. *)
Definition parser_works (p : pthread) : Prop :=
  match p with TGo _ | TRun _ _ => True | _ => False end.
(** The caller is outside of the package, so it may use the archive, or call
    Read, at any time. *)
Definition caller_free (m : mthread) : Prop := m = MIdle.
