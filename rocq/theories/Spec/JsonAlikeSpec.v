(** For the exact form of C90: derivations that JSON does not tell apart. *)
From Verif Require Import Base.Bytes Base.BytesFacts Model.Derivation Spec.DerivationSpec Spec.JsonSpec.

(** Two strings that are written as the same one: equal but for bytes that start
    no character, and characters U+FFFD. *)
Definition alike (s s' : bytes) : Prop := exists t, repaired s t /\ repaired s' t.
(** In key order, two maps have alike keys with alike values. *)
Definition alike_map {A} (R : A -> A -> Prop) (m m' : amap A) : Prop :=
  exists l l', in_order m l /\ in_order m' l' /\ Forall2 (fun p q => alike (fst p) (fst q) /\ R (snd p) (snd q)) l l'.
Definition alike_output (o o' : output) : Prop :=
  alike (o_path o) (o_path o') /\ alike (o_algo o) (o_algo o') /\ alike (o_hash o) (o_hash o').
Definition alike_fields (d d' : drv) : Prop :=
  alike_map alike_output (d_outputs d) (d_outputs d') /\ Forall2 alike (d_srcs d) (d_srcs d') /\
  alike_map (Forall2 alike) (d_inputs d) (d_inputs d') /\ alike (d_platform d) (d_platform d') /\
  alike (d_builder d) (d_builder d') /\ Forall2 alike (d_args d) (d_args d') /\ alike_map alike (d_env d) (d_env d').
