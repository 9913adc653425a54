(** bufio.Writer (Go library), and gonix nar dump (/repo/cmd/gonix/nar/dump.go), which writes through one. *)
From Verif Require Import Base.Bytes Model.GoIO Model.Nar Model.NarWriter.

(** A program that writes: it does one Write after the other and sees what each returns.
    dump.go:18: the Writes that DumpPath does. *)
Inductive client (A : Type) := CRet (a : A) | CWrite (p : bytes) (k : nat -> option error -> client A).
Arguments CRet {A} a.
Arguments CWrite {A} p k.
(** Running it on a writer directly.  dump.go:18. *)
Fixpoint run {A} (c : client A) (w : sink) : A * sink :=
  match c with
  | CRet a => (a, w)
  | CWrite p k => let '(n, e, w') := wwrite p w in run (k n e) w'
  end.

(** bufio.Writer: what is in the buffer, the error it keeps, and the writer below.
    dump.go:16-18 (Go library). *)
Record bufw := BufW { b_buf : bytes; b_err : option error; b_wr : sink }.
Section Bufio.
(** len(b.buf): 4096 for NewWriter. *)
Variable size : nat.
(** Flush.  dump.go:23 (Go library). *)
Definition buf_Flush (b : bufw) : option error * bufw :=
  match b_err b with
  | Some e => (Some e, b)
  | None =>
      match b_buf b with
      | [] => (None, b)
      | buf =>
          let '(n, e, w) := wwrite buf (b_wr b) in
          let e := match e with None => if n <? length buf then Some (EMsg "short write") else None | _ => e end in
          match e with
          | Some er => (Some er, BufW (skipn n buf) (Some er) w)
          | None => (None, BufW [] None w)
          end
      end
  end.
(** The loop of Write: a round with an empty buffer writes the rest or fails, and a round with a non-empty
    buffer empties it or fails, so three rounds are enough.  dump.go:16-18 (Go library). *)
Fixpoint write_rounds (rounds nn : nat) (p : bytes) (b : bufw) : nat * bytes * bufw :=
  match rounds with
  | O => (nn, p, b)
  | S rounds' =>
      match b_err b with
      | Some _ => (nn, p, b)
      | None =>
          if length p <=? size - length (b_buf b) then (nn, p, b)
          else
            match b_buf b with
            | [] =>
                let '(n, e, w) := wwrite p (b_wr b) in
                write_rounds rounds' (nn + n) (skipn n p) (BufW [] e w)
            | buf =>
                let n := size - length buf in
                let '(_, b') := buf_Flush (BufW (buf ++ firstn n p) None (b_wr b)) in
                write_rounds rounds' (nn + n) (skipn n p) b'
            end
      end
  end.
(** Write.  dump.go:16-18 (Go library). *)
Definition buf_Write (p : bytes) (b : bufw) : nat * option error * bufw :=
  let '(nn, p, b) := write_rounds 3 0 p b in
  match b_err b with
  | Some e => (nn, Some e, b)
  | None => (nn + length p, None, BufW (b_buf b ++ p) None (b_wr b))
  end.
(** Running a program on a buffered writer. *)
Fixpoint run_buf {A} (c : client A) (b : bufw) : A * bufw :=
  match c with
  | CRet a => (a, b)
  | CWrite p k => let '(n, e, b') := buf_Write p b in run_buf (k n e) b'
  end.
(** dump.go:14-24 Run: [c] is the call nar.DumpPath(w, cmd.Path).  The result and what stdout has got. *)
Definition dump_Run (c : client wres) (stdout : sink) : wres * sink :=
  let '(x, b) := run_buf c (BufW [] None stdout) in
  match x with
  | WOk => let '(e, b) := buf_Flush b in (match e with None => WOk | Some er => WErr er end, b_wr b)
  | _ => (x, b_wr b)
  end.
End Bufio.
