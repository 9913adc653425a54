(** For C107. *)
From Verif Require Import Base.Bytes Model.GoIO Model.NarDumpOS Model.Handles Spec.NarSpec Spec.NarDumpSpec.

(** Files are opened one after the other, each closed before the next. *)
Inductive one_at_a_time : list event -> Prop :=
| oat_nil : one_at_a_time []
| oat_cons p l : one_at_a_time l -> one_at_a_time (Opened p :: Closed p :: l).
(** What is open after the events, if nothing was before. *)
Fixpoint close_one (p : bytes) (l : list bytes) : list bytes :=
  match l with [] => [] | q :: l => if beq p q then l else q :: close_one p l end.
Fixpoint open_files (l : list event) (now : list bytes) : list bytes :=
  match l with
  | [] => now
  | Opened p :: l => open_files l (p :: now)
  | Closed p :: l => open_files l (close_one p now)
  end.
(** The names ReadDir gives are single components. *)
Definition readdir_names (W : nat -> bytes -> os_answer) : Prop := forall k p ns,
  a_readdir (W k p) = inl ns -> Forall entry_name ns.
(** At no time are directories nested [d] deep. *)
Definition no_deeper (root : bytes) (W : nat -> bytes -> os_answer) (d : nat) : Prop :=
  forall k cs, Forall entry_name cs -> length cs = d -> a_lstat (W k (full_path root cs)) <> LDir.
