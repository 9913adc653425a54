(** Specification vocabulary for store paths (C19-C21). *)
From Verif Require Import Base.Bytes.

(** The characters Nix allows in the name part. *)
Definition name_alphabet : bytes :=
  bs "abcdefghijklmnopqrstuvwxyzABCDEFGHIJKLMNOPQRSTUVWXYZ0123456789+-._?=".
Definition hash_alphabet : bytes := bs "0123456789abcdfghijklmnpqrsvwxyz".
Definition valid_name (n : bytes) : Prop := n <> [] /\ Forall (fun c => In c name_alphabet) n.
Definition hash_part (h : bytes) : Prop := length h = 32 /\ Forall (fun c => In c hash_alphabet) h.

(** /nix/store/<hash>-<name> *)
Definition wf_store_path (s : bytes) : Prop :=
  exists h n, s = bs "/nix/store/" ++ h ++ bs "-" ++ n /\ hash_part h /\ valid_name n.

(** The components of a relative path, and where they lead from the directory [at_]
    (a list of names): an empty one and "." stay, ".." goes up (and stays at the root). *)
Definition components (s : bytes) (l : list bytes) : Prop :=
  l <> [] /\ Forall (fun c => ~ In "/"%byte c) l /\ join_byte l "/"%byte = s.
Inductive leads : list bytes -> list bytes -> list bytes -> Prop :=
| leads_done at_ : leads at_ [] at_
| leads_stay at_ c l to : c = [] \/ c = bs "." -> leads at_ l to -> leads at_ (c :: l) to
| leads_up at_ l to : leads (removelast at_) l to -> leads at_ (bs ".." :: l) to
| leads_down at_ c l to : c <> [] -> c <> bs "." -> c <> bs ".." -> leads (at_ ++ [c]) l to -> leads at_ (c :: l) to.
