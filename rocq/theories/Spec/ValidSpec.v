(** Which derivations Validate accepts, in each order in which the variables can come (C53, C60), and which texts come back unchanged (C50). *)
From Verif Require Import Base.Bytes Base.BytesFacts Model.Derivation Spec.StorePathSpec Spec.DerivationSpec Spec.RoundSpec.

(** /nix/store, any byte, 32 characters of a hash, then at least one character of a name (C20). *)
Definition like_store_path (s : bytes) : Prop :=
  exists c h n, s = bs "/nix/store" ++ [c] ++ h ++ n /\ hash_part h /\ n <> [] /\ Forall (fun x => In x name_alphabet) n.
(** Everything Validate asks for besides a name. *)
Definition in_shape (d : drv) : Prop :=
  ((exists o, d_outputs d = [(bs "out", o)] /\ o_algo o <> []) \/
   (d_outputs d <> [] /\ forall n o, In (n, o) (d_outputs d) -> n <> [] /\ o_algo o = [] /\ like_store_path (o_path o))) /\
  (forall p names, In (p, names) (d_inputs d) -> like_store_path p /\ names <> [] /\ ~ In [] names /\ sortedb names) /\
  (forall s, In s (d_srcs d) -> like_store_path s) /\ sortedb (d_srcs d) /\
  d_platform d <> [] /\ d_builder d <> [] /\ ~ In [] (map fst (d_env d)).
(** A name, when the variables are visited in the order [env]: with a name in the structured
    attributes, either variable will do; without one, a variable "name" with no "__json" after it. *)
Definition named_in (name : bytes) (env : list (bytes * bytes)) : Prop :=
  (name <> [] /\ (In (bs "name") (map fst env) \/ In (bs "__json") (map fst env))) \/
  exists before v after, env = before ++ (bs "name", v) :: after /\ ~ In (bs "__json") (map fst after).

(** * Texts that come back unchanged (C50) *)
(** The lists in the order of their keys, none of them empty; nothing to escape in the
    platform and the builder; the other strings may have quotes as long as they are neat. *)
Definition neat_text (text : bytes) : Prop :=
  exists outs ins srcs plat bld args env,
    text = drv_text outs ins srcs plat bld args env /\
    strictly_sorted (map fst outs) /\ strictly_sorted (map fst ins) /\ strictly_sorted (map fst env) /\
    ~ In [] (map fst outs) /\ ~ In [] (map fst ins) /\ ~ In [] (map fst env) /\
    plain_text plat /\ plain_text bld /\ neat_drv (drv_of outs ins srcs plat bld args env).
