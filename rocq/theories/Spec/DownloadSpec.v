(** A binary cache entry: a NAR file and the narinfo about it (C120). *)
From Verif Require Import Base.Bytes Model.GoIO Model.GoStd Model.Nar Model.NarWriter Model.NarDump Model.Nixhash Model.NarInfo
  Spec.NarSpec Spec.NarDumpSpec Spec.PipelineSpec.

(** The check a client makes of a downloaded file: the size and the SHA-256
    digest stated by the narinfo. *)
Definition describes (sha : bytes -> bytes) (data : bytes) (n : narinfo) : Prop :=
  option_map he_hash (ni_NarHash n) = Some (Hash SHA256 (sha data)) /\ ni_NarSize n = lenN data.
(** What the owner of a key did before signing [m]: a file tree on disk was
    dumped with success, and [m] states the size and the digest of the output. *)
Definition published (sha : bytes -> bytes) (m : narinfo) (t : node) : Prop :=
  exists root f w, fs_ok f /\ DumpPathFilter None root (Sink [] []) f = (WOk, w) /\
    tree_of (keep_of None) root [] f = Some t /\ describes sha (out w) m.
