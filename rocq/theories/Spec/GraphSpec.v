(** The graph of the derivations in a store (C122, C123). *)
From Verif Require Import Base.Bytes Model.GoIO Model.Derivation Model.DrvParser Model.DrvStore Spec.DerivationSpec Spec.StoreSpec Spec.DrvIdSpec.

(** A build order of everything a store has: every path once, and each
    derivation behind all its input derivations.  [get] is what Get returns. *)
Definition build_order (get : bytes -> option drv) (l : list bytes) : Prop :=
  NoDup l /\ (forall p, In p l <-> get p <> None) /\
  forall before p behind d, l = before ++ p :: behind -> get p = Some d -> incl (mkeys (d_inputs d)) before.
Definition getter_badger (json : bytes -> res (option bytes)) (b : db) (p : bytes) : option drv := match badger_Get json b p with Ok d => Some d | _ => None end.

(** Derivations that share a derivation path have the same input derivations. *)
Definition same_inputs (sha : bytes -> bytes) (h : list drv) : Prop :=
  forall d e p, In d h -> In e h -> DrvPath sha d = Ok p -> DrvPath sha e = Ok p -> incl (mkeys (d_inputs d)) (mkeys (d_inputs e)).
(** The texts that are hashed for the derivations of [h] do not collide. *)
Definition no_collision (sha : bytes -> bytes) (h : list drv) : Prop :=
  forall d e t u refs refs', In d h -> In e h -> aterm d t -> aterm e u -> refs_of d refs -> refs_of e refs' ->
    ~ collide sha t u /\ ~ collide (path_digest sha) (drv_fp sha refs t (drv_Name d)) (drv_fp sha refs' u (drv_Name e)).
(** [p] needs [q] as an input, directly. *)
Definition needs (get : bytes -> option drv) (q p : bytes) : Prop := exists d, get p = Some d /\ In q (mkeys (d_inputs d)).
(** ... or through others. *)
Inductive depends (get : bytes -> option drv) (q : bytes) : bytes -> Prop :=
| dep_input p : needs get q p -> depends get q p
| dep_more r p : depends get q r -> needs get r p -> depends get q p.
(** [ds] are the derivations at the paths [l]. *)
Definition at_paths (get : bytes -> option drv) (l : list bytes) (ds : list drv) : Prop := Forall2 (fun p d => get p = Some d) l ds.
