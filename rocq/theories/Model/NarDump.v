(** Model of /repo/pkg/nar/dump.go. *)
From Verif Require Import Base.Bytes Model.GoIO Model.GoStd Model.Wire Model.Nar Model.NarWriter.

(** What the file system shows at a path.  Lstat and Readlink results, and what
    os.ReadDir lists (in its order); a regular file has its mode and stat size,
    and separately what reading it gives.  The tree does not change while it is
    dumped, except that size and content need not agree.
    nar/dump.go:49, 71, 99, 129: what the os calls there see. *)
Inductive fs :=
| FReg (mode : N) (size : Z) (data : src)
| FRegUnreadable (mode : N) (size : Z) (e : error)   (* os.Open fails *)
| FSym (target : bytes)
| FSymUnreadable (e : error)                         (* os.Readlink fails *)
| FDir (entries : list (bytes * fs))
| FDirUnreadable (e : error)                         (* os.ReadDir fails *)
| FSpecial                                           (* device, socket, pipe *)
| FGone (e : error).                                 (* os.Lstat fails *)

(** io.Copy(nw, f) (dump.go:136): 32 KiB reads, each written in one call. *)
Fixpoint io_copy (fuel : nat) (s : src) (written : Z) (r : wr) : (Z * wres) * wr :=
  match fuel with
  | O => ((written, WPanic "out of fuel"), r)
  | S f =>
      let '(b, e, s') := src_read 32768%N s in
      let '(ok, (written, r)) :=
        match b with
        | [] => (WOk, (written, r))
        | _ =>
            let '((n, x), r) := wr_Write b r in
            (match x with
             | WOk => if Nat.eqb n (length b) then WOk else WErr (EMsg "short write")
             | _ => x
             end, ((written + Z.of_nat n)%Z, r))
        end in
      match ok with
      | WOk =>
          match e with
          | None => io_copy f s' written r
          | Some EEOF => ((written, WOk), r)
          | Some er => ((written, WErr er), r)
          end
      | _ => ((written, ok), r)
      end
  end.

(** syscall.S_IXUSR.  nar/dump.go:122. *)
Definition S_IXUSR : N := 64.

(** dump.go:54-63: the node type, [None]: unknown. *)
Definition node_type (f : fs) : option bytes :=
  match f with
  | FReg _ _ _ | FRegUnreadable _ _ _ => Some TypeRegular
  | FSym _ | FSymUnreadable _ => Some TypeSymlink
  | FDir _ | FDirUnreadable _ => Some TypeDirectory
  | FSpecial | FGone _ => None
  end.

Section Dump.
(** [filter]: [None] is nil. *)
Variable filter : option (bytes -> bytes -> bool).
Variable path : bytes.

(** dump.go:65-67. *)
Definition rejected (subpath : bytes) (f : fs) : bool :=
  match filter, node_type f with
  | Some flt, Some ty => negb (flt (Join2 path subpath) ty)
  | _, _ => false
  end.

(** dump.go:44-150 dumpPath. *)
Fixpoint dumpPath (f : fs) (subpath : bytes) (r : wr) : wres * wr :=
  let regular mode size := Header subpath TypeRegular [] size (negb (N.eqb (N.land mode S_IXUSR) 0)) in
  let dir := Header subpath TypeDirectory [] 0 false in
  if rejected subpath f then (WOk, r)
  else
    match f with
    | FGone e => (WErr e, r)
    | FSpecial => (WErr (EMsg "unknown type"), r)
    | FSymUnreadable e => (WErr e, r)
    | FSym target => WriteHeader (Header subpath TypeSymlink target 0 false) r
    | FDirUnreadable e =>
        let '(x, r) := WriteHeader dir r in
        (match x with WOk => WErr e | _ => x end, r)
    | FDir es =>
        let '(x, r) := WriteHeader dir r in
        match x with
        | WOk =>
            (fix loop (es : list (bytes * fs)) (r : wr) : wres * wr :=
               match es with
               | [] => (WOk, r)
               | (name, c) :: es' =>
                   let '(x, r) := dumpPath c (Join2 subpath name) r in
                   match x with WOk => loop es' r | _ => (x, r) end
               end) es r
        | _ => (x, r)
        end
    | FRegUnreadable mode size e =>
        let '(x, r) := WriteHeader (regular mode size) r in
        (match x with WOk => WErr e | _ => x end, r)
    | FReg mode size data =>
        let '(x, r) := WriteHeader (regular mode size) r in
        match x with
        | WOk =>
            let '((n, x), r) := io_copy (S (src_size data)) data 0 r in
            (match x with
             | WOk => if Z.eqb n size then WOk else WErr (EMsg "unexpected number of bytes")
             | _ => x
             end, r)
        | _ => (x, r)
        end
    end.

(** dump.go:25-41 DumpPathFilter; DumpPath is the case [filter = None].  The
    deferred second Close only stops the goroutine of a failed dump. *)
Definition DumpPathFilter (w : sink) (f : fs) : wres * sink :=
  match NewWriter w with
  | (Err e, w) => (WErr e, w)
  | (Panic m, w) => (WPanic m, w)
  | (Ok r, _) =>
      let '(x, r) := dumpPath f (bs "/") r in
      match x with
      | WOk => let '(x, r) := wr_Close r in (x, wr_sink r)
      | WPanic _ | WBlocked => (x, wr_sink r)
      | WErr _ => let '(_, r) := wr_Close r in (x, wr_sink r)
      end
  end.
End Dump.
