(** Model of the Go standard library's io interfaces as used by /repo.
    These are models of the environment (Go's io package), not of /repo. *)
From Verif Require Import Base.Bytes.

(** An io.Reader: the data arrives in chunks chosen by the environment (each
    non-erroring Read returns at most one chunk, an empty chunk is a (0, nil)
    result); after the last chunk every Read returns the terminal error [fin].
    With [eager] the terminal error comes together with the last bytes, which
    io.Reader also allows.  The io.Reader arguments of wire/read.go:9-103. *)
Record src := Src { chunks : list bytes; fin : error; eager : bool }.

(** The io.Reader arguments of wire/read.go:9-103. *)
Definition src_data (s : src) : bytes := concat (chunks s).
(** What an observer can still get out of the stream: its bytes, then [fin].
    The io.Reader arguments of wire/read.go:9-103. *)
Definition flat (s : src) : bytes * error := (src_data s, fin s).
(** The io.Reader arguments of wire/read.go:9-103. *)
Definition src_size (s : src) : nat := length (chunks s) + length (src_data s).

(** A reader over a state [S]: Read(p) with len(p) = n returns the bytes put in
    p, the error and the new state.  The io.Reader arguments of wire/read.go:9-103. *)
Definition reader (S : Type) := N -> S -> bytes * option error * S.

(** The io.Reader arguments of wire/read.go:9-103. *)
Definition src_read : reader src := fun n s =>
  match chunks s with
  | [] => ([], Some (fin s), s)
  | c :: cs =>
      if N.leb (lenN c) n then
        (c,
         match cs with
         | [] => if eager s then Some (fin s) else None
         | _ => None
         end,
         Src cs (fin s) (eager s))
      else (firstn (N.to_nat n) c, None,
            Src (skipn (N.to_nat n) c :: cs) (fin s) (eager s))
  end.

(** io.LimitReader(r, n): state is (remaining, underlying).  wire/bytes_reader.go:25. *)
Definition lim_read : reader (N * src) := fun n st =>
  let '(rem, s) := st in
  if N.eqb rem 0 then ([], Some EEOF, st)
  else let '(b, e, s') := src_read (N.min n rem) s in
       (b, e, (rem - lenN b, s'))%N.

(** io.ReadFull(r, buf) with len(buf) = [need]: io.ReadAtLeast's loop.  The
    fuel stands for the finitely many results the environment delivers; it is
    proved never to run out.  wire/read.go:13, 47, 91. *)
Fixpoint read_full {S} (rd : reader S) (fuel : nat) (need : N) (acc : bytes) (s : S)
  : res bytes * S :=
  if N.eqb need 0 then (Ok acc, s)
  else match fuel with
       | O => (Panic "out of fuel", s)
       | Datatypes.S f =>
           let '(b, e, s') := rd need s in
           let acc' := acc ++ b in
           let need' := (need - lenN b)%N in
           match e with
           | None => read_full rd f need' acc' s'
           | Some er =>
               if N.eqb need' 0 then (Ok acc', s')
               else match er with
                    | EEOF => (Err (match acc' with [] => EEOF | _ => EUnexpectedEOF end), s')
                    | _ => (Err er, s')
                    end
           end
       end.

(** wire/read.go:13, 47, 91. *)
Definition src_read_full (need : N) (s : src) : res bytes * src :=
  read_full src_read (S (src_size s)) need [] s.
(** wire/bytes_reader.go:25. *)
Definition lim_read_full (need : N) (st : N * src) : res bytes * (N * src) :=
  read_full lim_read (S (src_size (snd st))) need [] st.

(** An io.Writer: the bytes accepted so far and the environment's plan for the
    coming Write calls: [Some k] means the call takes at most k bytes and then
    fails, [None] (and the end of the plan) means it takes everything.
    The io.Writer arguments of wire/write.go:20-76. *)
Record sink := Sink { out : bytes; plan : list (option nat) }.

(** The io.Writer arguments of wire/write.go:20-76. *)
Definition wwrite (p : bytes) (w : sink) : nat * option error * sink :=
  match plan w with
  | [] => (length p, None, Sink (out w ++ p) [])
  | None :: pl => (length p, None, Sink (out w ++ p) pl)
  | Some k :: pl =>
      let n := Nat.min k (length p) in
      (n, Some (EIo 1), Sink (out w ++ firstn n p) pl)
  end.

(** Discard the count: `_, err := w.Write(p)`.
    The io.Writer arguments of wire/write.go:20-76. *)
Definition wwrite_ (p : bytes) (w : sink) : option error * sink :=
  let '(_, e, w') := wwrite p w in (e, w').
