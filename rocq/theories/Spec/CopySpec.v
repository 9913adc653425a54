(** Vocabulary for what a Writer makes of any headers (C36, C116). *)
From Verif Require Import Base.Bytes Model.Nar Spec.NarSpec Spec.NarWHist.

(** A header and content without the path. *)
Definition bare (it : header * bytes) : header * bytes :=
  (Header [] (hd_type (fst it)) (hd_target (fst it)) (hd_size (fst it)) (hd_exec (fst it)), snd it).
(** The components of the path and the target have lengths a Go int can hold. *)
Definition go_header (h : header) : Prop :=
  Forall (fun c => lenN c < 2 ^ 63)%N (split_byte (hd_path h) "/"%byte) /\ (lenN (hd_target h) < 2 ^ 63)%N.
(** The headers written and the bytes written for each. *)
Definition contents (hist : list (header * list bytes)) : list (header * bytes) :=
  map (fun x => (fst x, concat (snd x))) hist.
(** What decides whether a Writer can make an archive of headers and bytes a
    Reader reported: something was reported; no path came twice in a row; there
    are as many bytes as the size says; symlinks have targets; and no component
    of a path begins with "..". *)
Record copyable (hist : list (header * list bytes)) : Prop := {
  cp_some : hist <> [];
  cp_paths : no_repeat (map (fun x => hd_path (fst x)) hist);
  cp_sizes : Forall (fun x => Z.of_nat (length (concat (snd x))) = hd_size (fst x)) hist;
  cp_targets : Forall (fun x => hd_type (fst x) = bs "symlink" -> hd_target (fst x) <> []) hist;
  cp_names : Forall (fun x => Forall writer_name (split_byte (hd_path (fst x)) "/"%byte)) hist
}.
(** Buffers of lengths a Go int can hold. *)
Definition buffers_ok (plans : list (list N)) : Prop := Forall (Forall (fun n => n < 2 ^ 63)%N) plans.
