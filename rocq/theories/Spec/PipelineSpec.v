(** Vocabulary for the properties that combine several packages (C82-C86). *)
From Verif Require Import Base.Bytes Model.GoIO Model.GoStd Model.Nar Model.NarReader Model.Nixhash Model.Signature Model.NarInfo
  Spec.NarSpec.

(** Trees whose strings have lengths a Go int can hold. *)
Inductive go_sized : node -> Prop :=
| gs_reg exec c : (lenN c < 2 ^ 63)%N -> go_sized (Reg exec c)
| gs_sym target : (lenN target < 2 ^ 63)%N -> go_sized (Sym target)
| gs_dir es : Forall (fun e => (lenN (fst e) < 2 ^ 63)%N) es -> Forall (fun e => go_sized (snd e)) es -> go_sized (Dir es).

(** A copying client: what it got from one Next and the Reads after it, as the
    WriteHeader and Writes it does with it; nothing for an error of Next. *)
Definition rewritten (o : list (res header * list (bytes * option error))) : list (header * list bytes) :=
  concat (map (fun p => match fst p with Ok h => [(h, map fst (snd p))] | _ => [] end) o).
(** The client reads every entry until io.EOF. *)
Definition read_to_end (o : list (res header * list (bytes * option error))) : Prop :=
  Forall (fun p => In (Some EEOF) (map snd (snd p))) o.

(** The narinfo with one more signature. *)
Definition add_signature (n : narinfo) (s : signature) : narinfo :=
  NarInfo (ni_StorePath n) (ni_URL n) (ni_Compression n) (ni_FileHash n) (ni_FileSize n) (ni_NarHash n) (ni_NarSize n)
    (ni_References n) (ni_Deriver n) (ni_System n) (ni_Signatures n ++ [s]) (ni_CA n).
(** What a signature vouches for. *)
Definition same_claim (a b : narinfo) : Prop :=
  ni_StorePath a = ni_StorePath b /\ option_map he_hash (ni_NarHash a) = option_map he_hash (ni_NarHash b) /\
  ni_NarSize a = ni_NarSize b /\ ni_References a = ni_References b.
(** What a careful owner of a key signs: proper texts, so that the fingerprint can be taken apart. *)
Definition signable (m : narinfo) : Prop :=
  ~ In ";"%byte (ni_StorePath m) /\ (ni_NarSize m < 2 ^ 64)%N /\ Forall (fun r => ~ In ","%byte r /\ ~ In ";"%byte r) (ni_References m).
