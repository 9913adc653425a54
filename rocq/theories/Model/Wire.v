(** Model of /repo/pkg/wire. *)
From Verif Require Import Base.Bytes Model.GoIO.

(** encoding/binary.LittleEndian.PutUint64 / Uint64 (wire.go:12). *)
Fixpoint le_bytes (k : nat) (n : N) : bytes :=
  match k with
  | O => []
  | S k' => n2b n :: le_bytes k' (n / 256)%N
  end.
(** wire.go:12. *)
Definition le64 (n : N) : bytes := le_bytes 8 n.
(** wire.go:12. *)
Definition le_val (l : bytes) : N := fold_right (fun b acc => b2n b + 256 * acc)%N 0%N l.

(** read.go:9-18 ReadUint64.  The buffer pool is a memory optimisation: the
    pooled array is completely overwritten before it is read. *)
Definition ReadUint64 (s : src) : res N * src :=
  let '(r, s') := src_read_full 8 s in
  (let* buf := r in Ok (le_val buf), s').

(** read.go:21-32 ReadBool. *)
Definition ReadBool (s : src) : res bool * src :=
  let '(r, s') := ReadUint64 s in
  (let* n := r in
   if negb (N.eqb n 0) && negb (N.eqb n 1) then Err (EMsg "invalid value for boolean")
   else Ok (N.eqb n 1), s').

(** read.go:36-58 readPadding. *)
Definition readPadding (s : src) (contentLength : N) : option error * src :=
  let n := (contentLength mod 8)%N in
  if N.eqb n 0 then (None, s)
  else
    let '(r, s') := src_read_full (8 - n) s in
    (match r with
     | Ok buf => if forallb (byte_eqb x00) buf then None else Some (EMsg "invalid padding")
     | Err e => Some e
     | Panic w => Some (EMsg w)
     end, s').

(** bytes_reader.go:14-28: the BytesReader state; [br_rem] is the LimitReader's
    counter.  int64(contentLength) is negative from 2^63 on, and a LimitReader
    with a negative limit is at EOF at once. *)
Record bytes_reader := BR { br_len : N; br_rem : N }.
(** bytes_reader.go:22-28. *)
Definition NewBytesReader (contentLength : N) : bytes_reader :=
  BR contentLength (if N.ltb contentLength (2 ^ 63) then contentLength else 0).

(** bytes_reader.go:33-37 Read. *)
Definition br_read (n : N) (br : bytes_reader) (s : src)
  : bytes * option error * (bytes_reader * src) :=
  let '(b, e, (rem', s')) := lim_read n (br_rem br, s) in
  (b, e, (BR (br_len br) rem', s')).

(** bytes_reader.go:45-56: the loop reading 1024 byte blocks until the limited
    reader reports an error; [None] is io.EOF (leave the loop). *)
Fixpoint drain (fuel : nat) (st : N * src) : option error * (N * src) :=
  match fuel with
  | O => (Some (EMsg "out of fuel"), st)
  | S f =>
      let '(_, e, st') := lim_read 1024%N st in
      match e with
      | None => drain f st'
      | Some EEOF => (None, st')
      | Some er => (Some er, st')
      end
  end.

(** bytes_reader.go:43-59 Close. *)
Definition br_close (br : bytes_reader) (s : src) : option error * (bytes_reader * src) :=
  let '(e, (rem', s')) := drain (S (S (src_size s))) (br_rem br, s) in
  let br' := BR (br_len br) rem' in
  match e with
  | Some er => (Some er, (br', s'))
  | None => let '(e', s'') := readPadding s' (br_len br) in (e', (br', s''))
  end.

(** read.go:63-71 ReadBytes. *)
Definition ReadBytes (s : src) : res (N * bytes_reader) * src :=
  let '(r, s') := ReadUint64 s in
  (let* n := r in Ok (n, NewBytesReader n), s').

(** read.go:77-96 ReadBytesFull.  make([]byte, n) panics for n >= 2^63; the
    error of the deferred rd.Close() is dropped, its effect on the stream is
    not.  On the error paths the returned slice is nil or empty. *)
Definition ReadBytesFull (s : src) (maxBytes : N) : res bytes * src :=
  let '(r, s1) := ReadBytes s in
  match r with
  | Err e => (Err e, s1)
  | Panic w => (Panic w, s1)
  | Ok (contentLength, rd) =>
      if N.ltb maxBytes contentLength
      then (Err (EMsg "content length exceeds maximum"), s1)
      else if N.leb (2 ^ 63) contentLength then (Panic "makeslice: len out of range", s1)
      else
        let '(r2, (rem2, s2)) := lim_read_full contentLength (br_rem rd, s1) in
        let '(_, (_, s3)) := br_close (BR (br_len rd) rem2) s2 in
        (r2, s3)
  end.

(** read.go:99-103 ReadString. *)
Definition ReadString (s : src) (maxBytes : N) : res bytes * src :=
  ReadBytesFull s maxBytes.

(** write.go:20-28 WriteUint64. *)
Definition WriteUint64 (w : sink) (n : N) : option error * sink :=
  wwrite_ (le64 n) w.

(** write.go:31-37 WriteBool. *)
Definition WriteBool (w : sink) (v : bool) : option error * sink :=
  if v then WriteUint64 w 1 else WriteUint64 w 0.

(** write.go:68-76 writePadding: padding[m:] is 8-m zero bytes. *)
Definition writePadding (w : sink) (contentLength : N) : option error * sink :=
  let m := (contentLength mod 8)%N in
  if N.eqb m 0 then (None, w)
  else wwrite_ (repeat x00 (8 - N.to_nat m)) w.

(** write.go:40-51 WriteBytes. *)
Definition WriteBytes (w : sink) (buf : bytes) : option error * sink :=
  let n := lenN buf in
  let '(e1, w1) := WriteUint64 w n in
  match e1 with
  | Some e => (Some e, w1)
  | None =>
      let '(e2, w2) := wwrite_ buf w1 in
      match e2 with
      | Some e => (Some e, w2)
      | None => writePadding w2 n
      end
  end.

(** write.go:54-65 WriteString: the same with io.WriteString. *)
Definition WriteString (w : sink) (s : bytes) : option error * sink :=
  let n := lenN s in
  let '(e1, w1) := WriteUint64 w n in
  match e1 with
  | Some e => (Some e, w1)
  | None =>
      let '(e2, w2) := wwrite_ s w1 in
      match e2 with
      | Some e => (Some e, w2)
      | None => writePadding w2 n
      end
  end.

(** bytes_writer.go:15-20 the BytesWriter state (the sink is passed separately). *)
Record bytes_writer := BW { bw_written : N; bw_total : N; bw_padded : bool }.

(** bytes_writer.go:22-37 NewBytesWriter. *)
Definition NewBytesWriter (w : sink) (contentLength : N) : res bytes_writer * sink :=
  let '(e, w1) := WriteUint64 w contentLength in
  match e with
  | Some er => (Err er, w1)
  | None => (Ok (BW 0 contentLength false), w1)
  end.

(** bytes_writer.go:39-50 Write: returns (n, err).  uint64 addition wraps. *)
Definition bw_write (bw : bytes_writer) (p : bytes) (w : sink)
  : (nat * option error) * (bytes_writer * sink) :=
  let l := lenN p in
  if N.ltb (bw_total bw) ((bw_written bw + l) mod 2 ^ 64)
  then ((0, Some (EMsg "maximum number of bytes exceeded")), (bw, w))
  else
    let '(n, e, w') := wwrite p w in
    ((n, e), (BW ((bw_written bw + N.of_nat n) mod 2 ^ 64) (bw_total bw) (bw_padded bw), w')).

(** bytes_writer.go:53-72 Close. *)
Definition bw_close (bw : bytes_writer) (w : sink) : option error * (bytes_writer * sink) :=
  if bw_padded bw then (None, (bw, w))
  else if negb (N.eqb (bw_written bw) (bw_total bw))
  then (Some (EMsg "wrote wrong number of bytes"), (bw, w))
  else
    let '(e, w') := writePadding w (bw_total bw) in
    match e with
    | Some er => (Some er, (bw, w'))
    | None => (None, (BW (bw_written bw) (bw_total bw) true, w'))
    end.
