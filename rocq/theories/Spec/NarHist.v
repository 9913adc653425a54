(** Histories of calls on a nar Reader and what a caller should see. *)
From Verif Require Import Base.Bytes Model.GoIO Model.GoStd Model.Wire Model.Nar Model.NarReader.

(** A sequence of Read calls with buffers of the given sizes. *)
Fixpoint rd_reads (ns : list N) (r : rd) : list (bytes * option error) * rd :=
  match ns with
  | [] => ([], r)
  | n :: ns' =>
      let '(b, e, r') := rd_Read n r in
      let '(l, r'') := rd_reads ns' r' in ((b, e) :: l, r'')
  end.
(** [reads_of c ns l]: reading a file whose remaining content is [c] with
    buffers of sizes [ns] gives the results [l]: consecutive pieces, no larger
    than the buffers, and io.EOF exactly when nothing is left. *)
Inductive reads_of : bytes -> list N -> list (bytes * option error) -> Prop :=
| ro_nil c : reads_of c [] []
| ro_part b c n ns l : (lenN b <= n)%N -> b ++ c <> [] -> reads_of c ns l ->
    reads_of (b ++ c) (n :: ns) ((b, None) :: l)
| ro_end n ns l : reads_of [] ns l -> reads_of [] (n :: ns) (([], Some EEOF) :: l).

(** A session: for each element of the plan one Next, followed by Reads with
    buffers of the given sizes. *)
Fixpoint session (plans : list (list N)) (r : rd)
  : list (res header * list (bytes * option error)) * rd :=
  match plans with
  | [] => ([], r)
  | ns :: plans' =>
      let '(h, r1) := Next r in
      let '(l, r2) := rd_reads ns r1 in
      let '(o, r3) := session plans' r2 in ((h, l) :: o, r3)
  end.
(** [session_of its plans o]: a session over an archive with the headers and
    contents [its] gives the results [o]: the headers in order, each followed by
    reads of its content, then io.EOF for ever. *)
Inductive session_of : list (header * bytes) -> list (list N) ->
  list (res header * list (bytes * option error)) -> Prop :=
| so_nil its : session_of its [] []
| so_item h c its ns plans l o : reads_of c ns l -> session_of its plans o ->
    session_of ((h, c) :: its) (ns :: plans) ((Ok h, l) :: o)
| so_end ns plans l o : reads_of [] ns l -> session_of [] plans o ->
    session_of [] (ns :: plans) ((Err EEOF, l) :: o).

(** * Arbitrary histories *)
Inductive rd_op := ONext | ORead (n : N) | OClose.
Inductive rd_seen := SNext (x : res header) | SRead (b : bytes) (e : option error) | SClosed (x : res unit).
Definition rd_step (op : rd_op) (r : rd) : rd_seen * rd :=
  match op with
  | ONext => let '(x, r') := Next r in (SNext x, r')
  | ORead n => let '(b, e, r') := rd_Read n r in (SRead b e, r')
  | OClose => let '(x, r') := rd_Close r in (SClosed x, r')
  end.
Fixpoint rd_run (ops : list rd_op) (r : rd) : list rd_seen * rd :=
  match ops with
  | [] => ([], r)
  | op :: ops' =>
      let '(x, r1) := rd_step op r in
      let '(l, r2) := rd_run ops' r1 in (x :: l, r2)
  end.
(** The headers the caller got, in order. *)
Fixpoint headers_of (l : list rd_seen) : list header :=
  match l with
  | [] => []
  | SNext (Ok h) :: l' => h :: headers_of l'
  | _ :: l' => headers_of l'
  end.
Definition no_close (ops : list rd_op) : Prop := ~ In OClose ops.

(** [tree_like hs]: the first header is the root, every later one is an entry
    with a valid name of a directory that was reported before. *)
Definition tree_like (hs : list header) : Prop :=
  match hs with
  | [] => True
  | h0 :: _ => hd_path h0 = bs "/"
  end /\
  forall l1 h l2, hs = l1 ++ h :: l2 -> l1 <> [] ->
    exists d n, In d l1 /\ hd_type d = bs "directory" /\ ~ In "/"%byte n /\ ~ In x00 n /\
      hd_path h = Join2 (hd_path d) n.
(** The fields of a reported header, apart from its path. *)
Definition hd_fields (h : header) : Prop :=
  (hd_type h = bs "regular" /\ (0 <= hd_size h < 2 ^ 63)%Z /\ hd_target h = []) \/
  (hd_type h = bs "symlink" /\ hd_size h = 0%Z /\ hd_exec h = false /\ (lenN (hd_target h) <= 4095)%N) \/
  (hd_type h = bs "directory" /\ hd_size h = 0%Z /\ hd_exec h = false /\ hd_target h = []).
(** Consecutive headers are not in the wrong order. *)
Fixpoint in_order (hs : list header) : Prop :=
  match hs with
  | h1 :: (h2 :: _) as l => PathIsLexicographicallyOrdered (hd_path h1) (hd_path h2) = true /\ in_order l
  | _ => True
  end.

Definition prefix_of {A} (a b : list A) : Prop := exists c, b = a ++ c.
(** The headers a session returned. *)
Definition ok_headers (o : list (res header * list (bytes * option error))) : list header :=
  concat (map (fun p => match fst p with Ok h => [h] | _ => [] end) o).
