(** Histories of calls on a nar Writer and what they should produce. *)
From Verif Require Import Base.Bytes Model.GoIO Model.GoStd Model.Wire Model.Nar Model.NarWriter
  Spec.WireSpec Spec.NarSpec.

(** A sequence of Write calls; each returns a count and a result. *)
Fixpoint wr_writes (ps : list bytes) (r : wr) : list (nat * wres) * wr :=
  match ps with
  | [] => ([], r)
  | p :: ps' =>
      let '(x, r1) := wr_Write p r in
      let '(l, r2) := wr_writes ps' r1 in (x :: l, r2)
  end.
(** For each element of the history one WriteHeader, then the Writes. *)
Fixpoint wsession (hist : list (header * list bytes)) (r : wr) : list (wres * list (nat * wres)) * wr :=
  match hist with
  | [] => ([], r)
  | (h, ps) :: hist' =>
      let '(x, r1) := WriteHeader h r in
      let '(l, r2) := wr_writes ps r1 in
      let '(o, r3) := wsession hist' r2 in ((x, l) :: o, r3)
  end.
(** The bytes the Write calls reported as written. *)
Fixpoint accepted (ps : list bytes) (l : list (nat * wres)) : bytes :=
  match ps, l with
  | p :: ps', (n, _) :: l' => firstn n p ++ accepted ps' l'
  | _, _ => []
  end.
(** The headers written, each with the content accepted for it. *)
Fixpoint log_of (hist : list (header * list bytes)) (o : list (wres * list (nat * wres))) : list (header * bytes) :=
  match hist, o with
  | (h, ps) :: hist', (_, l) :: o' => (h, accepted ps l) :: log_of hist' o'
  | _, _ => []
  end.

(** Trees with valid, strictly increasing names and link targets. *)
Inductive valid_tree : node -> Prop :=
| vt_reg exec c : valid_tree (Reg exec c)
| vt_sym target : target <> [] -> valid_tree (Sym target)
| vt_dir es :
    Forall (fun e => entry_name (fst e)) es -> names_sorted (map fst es) ->
    Forall (fun e => valid_tree (snd e)) es -> valid_tree (Dir es).
(** Trees a Writer can be given: like [valid_tree], sizes fit an int64, and no
    name begins with "..". *)
Inductive writable : node -> Prop :=
| wt_reg exec c : (lenN c < 2 ^ 63)%N -> writable (Reg exec c)
| wt_sym target : target <> [] -> writable (Sym target)
| wt_dir es :
    Forall (fun e => entry_name (fst e) /\ writer_name (fst e)) es -> names_sorted (map fst es) ->
    Forall (fun e => writable (snd e)) es -> writable (Dir es).
(** Canonical absolute paths. *)
Definition canonical_path (p : bytes) : Prop := exists cs, Forall entry_name cs /\ p = path_of cs.
Definition known_type (h : header) : Prop :=
  hd_type h = bs "regular" \/ hd_type h = bs "directory" \/ hd_type h = bs "symlink".
(** Headers a careful caller writes. *)
Definition careful (h : header) : Prop :=
  canonical_path (hd_path h) /\ known_type h /\ (0 <= hd_size h < 2 ^ 63)%Z.
Fixpoint no_repeat (l : list bytes) : Prop :=
  match l with
  | a :: (b :: _) as l' => a <> b /\ no_repeat l'
  | _ => True
  end.
(** A chunking of a content. *)
Definition chunking (c : bytes) (ps : list bytes) : Prop :=
  concat ps = c /\ Forall (fun p => lenN p < 2 ^ 63)%N ps.
(** A history that writes the headers in [its], each content in some chunking. *)
Definition history_of (its : list (header * bytes)) (hist : list (header * list bytes)) : Prop :=
  Forall2 (fun it x => fst x = fst it /\ chunking (snd it) (snd x)) its hist.
(** Every call succeeded, and every Write took all its bytes. *)
Definition all_ok (hist : list (header * list bytes)) (res : list (wres * list (nat * wres))) : Prop :=
  Forall2 (fun x r => fst r = WOk /\ snd r = map (fun p => (length p, WOk)) (snd x)) hist res.

(** * Arbitrary histories of calls *)
Inductive wr_op := WHeader (h : header) | WBytes (p : bytes) | WClose.
Inductive wr_seen := SHeader (x : wres) | SWrote (n : nat) (x : wres) | SClosed (x : wres).
Definition wr_step (op : wr_op) (r : wr) : wr_seen * wr :=
  match op with
  | WHeader h => let '(x, r') := WriteHeader h r in (SHeader x, r')
  | WBytes p => let '((n, x), r') := wr_Write p r in (SWrote n x, r')
  | WClose => let '(x, r') := wr_Close r in (SClosed x, r')
  end.
Fixpoint wr_run (ops : list wr_op) (r : wr) : list (wr_op * wr_seen) * wr :=
  match ops with
  | [] => ([], r)
  | op :: ops' =>
      let '(x, r1) := wr_step op r in
      let '(l, r2) := wr_run ops' r1 in ((op, x) :: l, r2)
  end.
(** The headers that were accepted, each with the bytes accepted after it:
    [files cur l] with [cur] the file being written. *)
Fixpoint files (cur : option (header * bytes)) (l : list (wr_op * wr_seen)) : list (header * bytes) :=
  match l with
  | [] => match cur with Some f => [f] | None => [] end
  | (WHeader h, SHeader WOk) :: l' =>
      match cur with Some f => [f] | None => [] end ++ files (Some (h, [])) l'
  | (WBytes p, SWrote n _) :: l' =>
      files (match cur with Some (h, c) => Some (h, c ++ firstn n p) | None => None end) l'
  | _ :: l' => files cur l'
  end.
(** No Write is longer than a Go slice can be. *)
Definition short_writes (ops : list wr_op) : Prop := forall p, In (WBytes p) ops -> (lenN p < 2 ^ 63)%N.
(** No Close, and every WriteHeader succeeded or was refused by Validate. *)
Definition no_failed_header (l : list (wr_op * wr_seen)) : Prop :=
  Forall (fun x => match x with
                   | (WHeader h, SHeader r) => r = WOk \/ hd_Validate h <> Ok tt
                   | (WClose, _) => False
                   | _ => True
                   end) l.
(** A regular file has received all its bytes. *)
Definition received_all (f : header * bytes) : Prop :=
  hd_type (fst f) = bs "regular" -> (0 <= hd_size (fst f) < 2 ^ 63)%Z ->
  Z.of_nat (length (snd f)) = hd_size (fst f).
(** The sink did not fail between the two states. *)
Definition quiet (w w' : sink) : Prop := exists used, plan w = used ++ plan w' /\ Forall (fun x => x = None) used.
