(** The texts in a tree (C103): the contents of its files, the targets of its links, the names of its entries. *)
From Verif Require Import Base.Bytes Spec.NarSpec.

Fixpoint texts (t : node) : list bytes :=
  match t with
  | Reg _ c => [c]
  | Sym target => [target]
  | Dir es => concat (map (fun e => fst e :: texts (snd e)) es)
  end.
(** No file of 64 PiB or more. *)
Definition below_64PiB (t : node) : Prop := Forall (fun x => (lenN x < 2 ^ 56)%N) (texts t).
