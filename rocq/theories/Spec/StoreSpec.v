(** Vocabulary for the derivation stores (C61-C64). *)
From Verif Require Import Base.Bytes Base.BytesFacts Model.GoIO Model.Derivation Model.DrvParser Model.DrvStore Spec.DerivationSpec Spec.RoundSpec.

Section S.
Variable sha : bytes -> bytes.

(** * Histories of a MapStore.  Get and Has have no effect, so a history is the
    list of derivations given to Put, whether accepted or not. *)
Definition map_run (h : list drv) : mstore := fold_left (fun s d => snd (map_Put sha s d)) h NewMapStore.

(** * Hash modulo inputs.  [modulo get p x]: [x] is the replacement string of the
    derivation at [p], when [get] gives the derivation at each path: what
    CalculateDrvReplacement returns given the replacement strings of the inputs. *)
Inductive modulo (get : bytes -> option drv) : bytes -> bytes -> Prop :=
| Modulo p d r repl x :
    get p = Some d ->
    (forall q, In q (mkeys (d_inputs d)) -> modulo get q (r q)) ->
    (forall q, In q (mkeys (d_inputs d)) -> mget repl q = Some (r q)) ->
    CalculateDrvReplacement sha d repl = Ok x ->
    modulo get p x.

(** The paths in the derivation are the calculated ones. *)
Definition right_paths (d : drv) (repl : amap bytes) : Prop :=
  exists paths, CalculateOutputPaths sha d repl = Ok paths /\ forall n o, In (n, o) (d_outputs d) -> mget paths n = Some (o_path o).
(** Whatever map with the right entries for the inputs is used. *)
Definition right_paths_in (get : bytes -> option drv) (d : drv) : Prop :=
  forall repl, (forall q, In q (mkeys (d_inputs d)) -> exists y, mget repl q = Some y /\ modulo get q y) -> right_paths d repl.
Definition getter (s : mstore) (p : bytes) : option drv := match map_Get s p with Ok d => Some d | _ => None end.
(** Derivations with the same path are the same.  Fails only for a SHA-256 collision
    or for two derivations written as the same text (C62_no_path_clash). *)
Definition one_drv_a_path (h : list drv) : Prop := forall d e, In d h -> In e h -> DrvPath sha d = DrvPath sha e -> same_drv d e.
(** Replacement strings of derivations in [h], under their paths. *)
Definition of_history (h : list drv) (repl : amap bytes) : Prop :=
  forall q x, mget repl q = Some x -> exists c r, In c h /\ DrvPath sha c = Ok q /\ CalculateDrvReplacement sha c r = Ok x.
(** And, if one is put several times, its replacement string does not depend on the
    iteration order (see C52). *)
Definition no_path_clash (h : list drv) : Prop :=
  forall d e, In d h -> In e h -> DrvPath sha d = DrvPath sha e ->
    same_drv d e /\ forall repl, of_history h repl -> CalculateDrvReplacement sha d repl = CalculateDrvReplacement sha e repl.
(** What Put checks: the derivation is valid, its inputs are there, its paths are right. *)
Definition acceptable (get : bytes -> option drv) (d : drv) : Prop :=
  drv_Validate d = Ok tt /\ (forall q, In q (mkeys (d_inputs d)) -> get q <> None) /\ drv_Name d <> [] /\ right_paths_in get d.

(** * BadgerStore *)
(** Histories of calls that do not overlap, on a healthy database. *)
Definition badger_run (h : list drv) : db := fold_left (fun b d => snd (badger_Put sha b d true)) h [].
Definition has_key_in (b : db) (k : bytes) : Prop := In k (mkeys (content b)).
(** Overlapping calls, failing commits and crashes. *)
Definition reachable (w : world) : Prop := exists es, w = world_run sha ([], []) es.
Definition puts (es : list event) : list drv := concat (map (fun e => match e with EPut d => [d] | _ => [] end) es).
Definition no_crash (es : list event) : Prop := Forall (fun e => match e with ECrash _ => False | _ => True end) es.
(** The world after a sequence of events, from an empty database. *)
Definition after (es : list event) : world := world_run sha ([], []) es.
(** How many steps call [i] took. *)
Definition steps_of (i : nat) (es : list event) : nat := length (filter (fun e => match e with EStep j _ => i =? j | _ => false end) es).
(** [n] steps of one call, nothing else running. *)
Fixpoint run_alone (n : nat) (b : db) (commits : bool) (c : put_state) : put_state * db :=
  match n with O => (c, b) | S n' => let '(c', b') := put_step sha b commits c in run_alone n' b' commits c' end.
(** The same outcome, whatever the message of an error. *)
Definition same_outcome {A} (r r' : res A) : Prop :=
  match r, r' with
  | Ok a, Ok b => a = b
  | Err _, Err _ => True
  | Panic _, Panic _ => True
  | _, _ => False
  end.
(** At most one input derivation, unless the output is fixed. *)
Definition few_inputs (d : drv) : Prop := is_fixed d \/ length (d_inputs d) <= 1.
(** Derivations the badger store handles: at most one input derivation unless fixed-output (see C63), and text that reads back (see C49). *)
Definition badger_fit (json : bytes -> res (option bytes)) (d : drv) : Prop :=
  wf_maps d /\ ~ ambiguous d /\ readable d /\ json_consistent json d /\ (is_fixed d \/ length (d_inputs d) <= 1).
End S.
