(** What identifies a derivation (C119). *)
From Verif Require Import Base.Bytes Base.BytesFacts Model.GoStd Model.Nixhash Model.Derivation Spec.StorePathSpec Spec.DerivationSpec.

(** Two different texts with the same image. *)
Definition collide {A} (f : bytes -> A) (x y : bytes) : Prop := x <> y /\ f x = f y.
(** Everything but the name field, which is not part of the text. *)
Definition same_fields (d e : drv) : Prop :=
  Permutation (d_outputs d) (d_outputs e) /\ d_srcs d = d_srcs e /\ Permutation (d_inputs d) (d_inputs e) /\
  d_platform d = d_platform e /\ d_builder d = d_builder e /\ d_args d = d_args e /\ Permutation (d_env d) (d_env e).
(** What the hash part of a derivation's own path is the digest of. *)
Definition drv_fp (sha : bytes -> bytes) (refs : list bytes) (text name : bytes) : bytes :=
  bs "text:" ++ concat (map (fun r => r ++ bs ":") refs) ++ bs "sha256:" ++ hex_encode (sha text) ++ bs ":/nix/store:" ++ name ++ bs ".drv".
Definition refs_of (d : drv) (refs : list bytes) : Prop := Permutation refs (mkeys (d_inputs d) ++ d_srcs d) /\ sortedb refs.
(** The name in the path of output [n], and what its hash part is the digest
    of; [text] is the masked text of the derivation. *)
Definition out_name (name n : bytes) : bytes := if beq n (bs "out") then name else name ++ bs "-" ++ n.
Definition fixed_content (o : output) : bytes := bs "fixed:out:" ++ o_algo o ++ bs ":" ++ o_hash o ++ bs ":".
Definition out_content (o : output) (text : bytes) : bytes := if beq (o_algo o) [] then text else fixed_content o.
Definition out_fp (sha : bytes -> bytes) (name n : bytes) (o : output) (text : bytes) : bytes :=
  if beq (o_algo o) (bs "r:sha256") then bs "source:sha256:" ++ o_hash o ++ bs ":/nix/store:" ++ out_name name n
  else bs "output:" ++ n ++ bs ":sha256:" ++ hex_encode (sha (out_content o text)) ++ bs ":/nix/store:" ++ out_name name n.
(** The 20 bytes of a path's hash part. *)
Definition path_digest (sha : bytes -> bytes) (fp : bytes) : res bytes := CompressHash (sha fp) 20.
Definition name_text (s : bytes) : Prop := Forall (fun c => In c name_alphabet) s.
