(** Model of /repo/pkg/nar/dump.go over a file system that may change between
    any two system calls.  Model/NarDump.v is the case of a tree that does not
    change (theorem C106_still_tree). *)
From Verif Require Import Base.Bytes Model.GoIO Model.GoStd Model.Wire Model.Nar Model.NarWriter Model.NarDump.

(** What os.Lstat says: the mode bits and size of a regular file, or the other
    types dump.go:54-63 tells apart. *)
Inductive lstat_res :=
| LReg (mode : N) (size : Z) | LSym | LDir | LSpecial | LErr (e : error).

(** What each of the four system calls of dump.go would answer at some path at
    some moment.  Reading the opened file may give any bytes in any pieces and
    end in any error: it, too, may change while it is read. *)
Record os_answer := OA {
  a_lstat : lstat_res;                 (* os.Lstat, dump.go:49 *)
  a_readlink : bytes + error;          (* os.Readlink, dump.go:71 *)
  a_readdir : list bytes + error;      (* os.ReadDir, dump.go:99: the names, in its order *)
  a_open : src + error                 (* os.Open, dump.go:129, and the reads of io.Copy *)
}.

Section DumpOS.
(** [filter]: [None] is nil. *)
Variable filter : option (bytes -> bytes -> bool).
Variable path : bytes.
(** [W k p]: what the [k]th system call of the dump is answered if it is about [p]. *)
Variable W : nat -> bytes -> os_answer.

(** dump.go:65-67. *)
Definition rejects (p ty : bytes) : bool :=
  match filter with Some flt => negb (flt p ty) | None => false end.

(** dump.go:44-150 dumpPath; [k] counts the system calls made so far.  The Go
    code recurses as deep as the directories it is shown; here the depth is
    bounded by [fuel]. *)
Fixpoint dumpOS (fuel : nat) (subpath : bytes) (k : nat) (r : wr) : wres * (nat * wr) :=
  match fuel with
  | O => (WPanic "out of fuel", (k, r))
  | S fuel =>
      let p := Join2 path subpath in
      match a_lstat (W k p) with
      | LErr e => (WErr e, (S k, r))
      | LSpecial => (WErr (EMsg "unknown type"), (S k, r))
      | LSym =>
          if rejects p TypeSymlink then (WOk, (S k, r))
          else
            match a_readlink (W (S k) p) with
            | inr e => (WErr e, (S (S k), r))
            | inl target =>
                let '(x, r) := WriteHeader (Header subpath TypeSymlink target 0 false) r in
                (x, (S (S k), r))
            end
      | LDir =>
          if rejects p TypeDirectory then (WOk, (S k, r))
          else
            let '(x, r) := WriteHeader (Header subpath TypeDirectory [] 0 false) r in
            match x with
            | WOk =>
                match a_readdir (W (S k) p) with
                | inr e => (WErr e, (S (S k), r))
                | inl names =>
                    (fix loop (names : list bytes) (k : nat) (r : wr) : wres * (nat * wr) :=
                       match names with
                       | [] => (WOk, (k, r))
                       | name :: names' =>
                           let '(x, (k, r)) := dumpOS fuel (Join2 subpath name) k r in
                           match x with WOk => loop names' k r | _ => (x, (k, r)) end
                       end) names (S (S k)) r
                end
            | _ => (x, (S k, r))
            end
      | LReg mode size =>
          if rejects p TypeRegular then (WOk, (S k, r))
          else
            let '(x, r) := WriteHeader (Header subpath TypeRegular [] size
                             (negb (N.eqb (N.land mode S_IXUSR) 0))) r in
            match x with
            | WOk =>
                match a_open (W (S k) p) with
                | inr e => (WErr e, (S (S k), r))
                | inl data =>
                    let '((n, x), r) := io_copy (S (src_size data)) data 0 r in
                    (match x with
                     | WOk => if Z.eqb n size then WOk else WErr (EMsg "unexpected number of bytes")
                     | _ => x
                     end, (S (S k), r))
                end
            | _ => (x, (S k, r))
            end
      end
  end.

(** dump.go:25-41 DumpPathFilter; the number of system calls made is also returned. *)
Definition DumpOS (fuel : nat) (w : sink) : wres * (nat * sink) :=
  match NewWriter w with
  | (Err e, w) => (WErr e, (0, w))
  | (Panic m, w) => (WPanic m, (0, w))
  | (Ok r, _) =>
      let '(x, (k, r)) := dumpOS fuel (bs "/") 0 r in
      match x with
      | WOk => let '(x, r) := wr_Close r in (x, (k, wr_sink r))
      | WPanic _ | WBlocked => (x, (k, wr_sink r))
      | WErr _ => let '(_, r) := wr_Close r in (x, (k, wr_sink r))
      end
  end.
End DumpOS.
