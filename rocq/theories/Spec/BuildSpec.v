(** Writing a derivation without output paths, calculating them, storing it (C114). *)
From Verif Require Import Base.Bytes Base.BytesFacts Model.GoIO Model.Derivation Model.Storepath Spec.StorePathSpec Spec.DerivationSpec.

(** Everything Validate asks for except the output paths, which are not known yet:
    one output, [out], with a hash given in advance, or any number without. *)
Definition no_paths_yet (outs : amap output) : Prop :=
  (exists o, outs = [(bs "out", o)] /\ fixed_output o) \/
  (outs <> [] /\ Forall (fun no => fst no <> [] /\ ~ fixed_output (snd no)) outs).
(** The names are made of characters allowed in store paths, and filling in the
    paths of the outputs does not overwrite the variables that give the name. *)
Definition good_names (d : drv) : Prop :=
  valid_name (drv_Name d) /\ Forall (fun n => Forall (fun c => In c name_alphabet) n) (mkeys (d_outputs d)) /\
  ~ has_key "name" (d_outputs d) /\ ~ has_key "__json" (d_outputs d).
Definition recipe (d : drv) : Prop :=
  no_paths_yet (d_outputs d) /\ valid_inputs (d_inputs d) /\
  Forall (fun s => Validate s = Ok tt) (d_srcs d) /\ sortedb (d_srcs d) /\
  d_platform d <> [] /\ d_builder d <> [] /\ ~ In [] (mkeys (d_env d)) /\ ~ ambiguous d /\ good_names d /\
  (has_key "__json" (d_env d) \/ has_key "name" (d_env d)).
