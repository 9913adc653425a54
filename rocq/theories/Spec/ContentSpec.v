(** Content addressing: the output path of a file tree (C121). *)
From Verif Require Import Base.Bytes Model.GoIO Model.GoStd Model.Nar Model.NarWriter Model.NarDump Model.Derivation Spec.NarSpec Spec.NarDumpSpec Spec.DrvIdSpec.

(** The output states the digest of [archive] as a recursive SHA-256 hash: 64
    hexadecimal digits under the algorithm "r:sha256". *)
Definition states (sha : bytes -> bytes) (archive : bytes) (o : output) : Prop := o_algo o = bs "r:sha256" /\ o_hash o = hex_encode (sha archive).
(** What the hash part of its path is the digest of. *)
Definition source_fp (sha : bytes -> bytes) (archive name : bytes) : bytes := bs "source:sha256:" ++ hex_encode (sha archive) ++ bs ":/nix/store:" ++ name.
(** [archive] is what a successful dump of a file tree on disk wrote. *)
Definition dump_of (archive : bytes) (t : node) : Prop :=
  exists filter root f w, fs_ok f /\ DumpPathFilter filter root (Sink [] []) f = (WOk, w) /\ tree_of (keep_of filter) root [] f = Some t /\ out w = archive.
