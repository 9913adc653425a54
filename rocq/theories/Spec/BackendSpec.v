(** Vocabulary for C65. *)
From Verif Require Import Base.Bytes.
(** The entry called [b] in the directory with the cleaned path [d]. *)
Definition child (d b : bytes) : bytes :=
  if beq d (bs "/") then bs "/" ++ b else if beq d (bs ".") then b else d ++ bs "/" ++ b.
(** A name of a directory entry. *)
Definition entry_name (b : bytes) : Prop := b <> [] /\ b <> bs "." /\ b <> bs ".." /\ ~ In "/"%byte b.
(** [b] is the last component of [p], trailing slashes not counting. *)
Definition last_component (p b : bytes) : Prop :=
  exists pre n, p = pre ++ b ++ repeat "/"%byte n /\ (pre = [] \/ exists q, pre = q ++ bs "/") /\ b <> [] /\ ~ In "/"%byte b.

(** ** C71: the store NewFromURI's comment promises for a URI. *)
From Verif Require Import Model.StoreBackends.
Inductive documented : url -> store_kind -> Prop :=
| doc_none u : u_scheme u = [] -> u_path u <> [] -> documented u (SFS (u_path u))
| doc_file u : u_scheme u = bs "file" -> u_path u <> [] -> documented u (SFS (u_path u))
| doc_default u : (u_scheme u = [] \/ u_scheme u = bs "file") -> u_path u = [] -> documented u (SFS (bs "/nix/store"))
| doc_http u : (u_scheme u = bs "http" \/ u_scheme u = bs "https") -> documented u (SHTTP u)
| doc_badger u : u_scheme u = bs "badger" -> u_path u <> [] -> documented u (SBadger (u_path u)).
