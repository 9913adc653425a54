(** Schedules of the nar Writer's goroutines. *)
From Coq Require Import Relations.Relation_Operators.
From Verif Require Import Base.Bytes Model.GoIO Model.Nar Model.NarWriter Spec.NarWHist Model.NarWConc.

Definition wexecution : wconf -> wconf -> Prop := clos_refl_trans_1n _ wcstep.
Definition wstuck (c : wconf) : Prop := forall c', ~ wcstep c c'.
(** The call returned: it neither panicked nor blocked for ever. *)
Definition returns (x : wr_seen) : Prop :=
  match x with SHeader y | SWrote _ y | SClosed y =>
    match y with WOk | WErr _ => True | WPanic _ | WBlocked => False end end.
(** Every call of the history returns, according to the sequential model. *)
Definition all_return (ops : list wr_op) (r : wr) : Prop := Forall returns (map snd (fst (wr_run ops r))).
(** The emitter is working: it may write to the output and replace the content writer. *)
Definition emitter_works (t : ethread) : Prop := match t with ERun _ _ => True | _ => False end.
Definition wcaller_free (m : wthread) : Prop := m = WIdle.
