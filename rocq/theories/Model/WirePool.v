(** The buffer pool of /repo/pkg/wire, used from several goroutines.
    Each goroutine makes calls of WriteUint64, ReadUint64 and readPadding (the only
    functions that use the pool; all the others reach it through them) on readers
    and writers of its own.  A step is one access to a buffer or to the pool; the
    steps of the goroutines interleave in any way. *)
From Verif Require Import Base.Bytes Model.GoIO Model.Wire.

(** write.go:20-28, read.go:9-18, 36-58. *)
Inductive pool_op :=
| OWrite (n : N)          (* WriteUint64(w, n) *)
| ORead                   (* ReadUint64(r) *)
| OPad (len : N).         (* readPadding(r, len) *)
(** write.go:20-28, read.go:9-18, 36-58. *)
Inductive pool_res := RW (e : option error) | RR (r : res N) | RP (e : option error).

(** sync.Pool (standard library): Get hands out some buffer of the pool or a new
    one, zeroed (write.go:13-15); Put adds a buffer; the pool may drop buffers at any time. *)
Record mem := Mem { m_buf : nat -> bytes; m_pool : list nat; m_next : nat }.
(** write.go:9-17. *)
Definition store (h : nat -> bytes) (l : nat) (b : bytes) : nat -> bytes := fun x => if x =? l then b else h x.
(** write.go:9-17. *)
Inductive obtain : mem -> nat -> mem -> Prop :=
| obtain_old h a l b n : obtain (Mem h (a ++ l :: b) n) l (Mem h (a ++ b) n)
| obtain_new h p n : obtain (Mem h p n) n (Mem (store h n (repeat x00 8)) p (S n)).

(** Where a goroutine is.  write.go:20-28, read.go:9-18, 36-58. *)
Inductive pc :=
| Idle
| WStore (l k : nat)               (* byteOrder.PutUint64(buf[:], n): byte k is next *)
| WGive (l : nat) (taken : bytes)  (* inside w.Write(buf[:]): the writer has taken these bytes *)
| RFill (l off pos : nat)          (* inside io.ReadFull(r, buf[off:]): pos bytes are there *)
| RLook (l off : nat)              (* ReadFull returned nil *)
| Leave (l : nat) (r : pool_res).  (* the deferred bufPool.Put(buf), then return *)
(** write.go:20-28, read.go:9-18, 36-58. *)
Record thread := Th { t_ops : list pool_op; t_pc : pc; t_src : src; t_sink : sink; t_done : list pool_res }.

(** write.go:20-28, read.go:9-18, 36-58. *)
Definition put_byte (b : bytes) (k : nat) (x : byte) : bytes := firstn k b ++ [x] ++ skipn (S k) b.
(** io.ReadFull's error.  read.go:13, 47. *)
Definition full_error (er : error) (got : nat) : error :=
  match er with EEOF => if got =? 0 then EEOF else EUnexpectedEOF | _ => er end.
(** write.go:20-28, read.go:9-18, 36-58. *)
Definition failed (op : pool_op) (e : error) : pool_res :=
  match op with ORead => RR (Err e) | _ => RP (Some e) end.

Inductive tstep : mem -> thread -> mem -> thread -> Prop :=
(* write.go:20-28 WriteUint64 *)
| s_get_write m m' l n ops s w d : obtain m l m' ->
    tstep m (Th (OWrite n :: ops) Idle s w d) m' (Th (OWrite n :: ops) (WStore l 0) s w d)
| s_store h p nx l k n ops s w d : k < 8 ->
    tstep (Mem h p nx) (Th (OWrite n :: ops) (WStore l k) s w d)
          (Mem (store h l (put_byte (h l) k (nth k (le64 n) x00))) p nx) (Th (OWrite n :: ops) (WStore l (S k)) s w d)
| s_stored m l n ops s w d :
    tstep m (Th (OWrite n :: ops) (WStore l 8) s w d) m (Th (OWrite n :: ops) (WGive l []) s w d)
| s_take h p nx l b n ops s w d : length b < 8 ->
    tstep (Mem h p nx) (Th (OWrite n :: ops) (WGive l b) s w d)
          (Mem h p nx) (Th (OWrite n :: ops) (WGive l (b ++ [nth (length b) (h l) x00])) s w d)
| s_written m l b n ops s w d e w' : length b = 8 -> wwrite_ b w = (e, w') ->
    tstep m (Th (OWrite n :: ops) (WGive l b) s w d) m (Th (OWrite n :: ops) (Leave l (RW e)) s w' d)
(* read.go:9-18 ReadUint64, read.go:36-58 readPadding *)
| s_get_read m m' l ops s w d : obtain m l m' ->
    tstep m (Th (ORead :: ops) Idle s w d) m' (Th (ORead :: ops) (RFill l 0 0) s w d)
| s_no_pad m len ops s w d : (len mod 8 = 0)%N ->
    tstep m (Th (OPad len :: ops) Idle s w d) m (Th ops Idle s w (d ++ [RP None]))
| s_get_pad m m' l len ops s w d : (len mod 8 <> 0)%N -> obtain m l m' ->
    tstep m (Th (OPad len :: ops) Idle s w d) m' (Th (OPad len :: ops) (RFill l (N.to_nat (len mod 8)) 0) s w d)
(* io.ReadFull: a reader may use the rest of the slice as scratch space *)
| s_full m l off pos op ops s w d : off + pos = 8 ->
    tstep m (Th (op :: ops) (RFill l off pos) s w d) m (Th (op :: ops) (RLook l off) s w d)
| s_read h p nx l off pos op ops s w d b s' scratch : off + pos < 8 ->
    src_read (N.of_nat (8 - off - pos)) s = (b, None, s') -> off + pos + length b + length scratch = 8 ->
    tstep (Mem h p nx) (Th (op :: ops) (RFill l off pos) s w d)
          (Mem (store h l (firstn (off + pos) (h l) ++ b ++ scratch)) p nx) (Th (op :: ops) (RFill l off (pos + length b)) s' w d)
| s_read_last h p nx l off pos op ops s w d b er s' : off + pos < 8 ->
    src_read (N.of_nat (8 - off - pos)) s = (b, Some er, s') -> off + pos + length b = 8 ->
    tstep (Mem h p nx) (Th (op :: ops) (RFill l off pos) s w d)
          (Mem (store h l (firstn (off + pos) (h l) ++ b)) p nx) (Th (op :: ops) (RLook l off) s' w d)
| s_read_err h p nx l off pos op ops s w d b er s' scratch : off + pos < 8 ->
    src_read (N.of_nat (8 - off - pos)) s = (b, Some er, s') -> off + pos + length b < 8 -> off + pos + length b + length scratch = 8 ->
    tstep (Mem h p nx) (Th (op :: ops) (RFill l off pos) s w d)
          (Mem (store h l (firstn (off + pos) (h l) ++ b ++ scratch)) p nx)
          (Th (op :: ops) (Leave l (failed op (full_error er (pos + length b)))) s' w d)
| s_value m l ops s w d :
    tstep m (Th (ORead :: ops) (RLook l 0) s w d) m (Th (ORead :: ops) (Leave l (RR (Ok (le_val (m_buf m l))))) s w d)
| s_padding m l off len ops s w d :
    tstep m (Th (OPad len :: ops) (RLook l off) s w d) m
      (Th (OPad len :: ops) (Leave l (RP (if forallb (byte_eqb x00) (skipn off (m_buf m l)) then None else Some (EMsg "invalid padding")))) s w d)
(* the deferred Put *)
| s_leave h p nx l r op ops s w d :
    tstep (Mem h p nx) (Th (op :: ops) (Leave l r) s w d) (Mem h (l :: p) nx) (Th ops Idle s w (d ++ [r])).

(** The goroutines and the memory.  write.go:20-28, read.go:9-18, 36-58. *)
Definition pworld := (mem * list thread)%type.
(** write.go:20-28, read.go:9-18, 36-58. *)
Inductive pstep : pworld -> pworld -> Prop :=
| p_thread m m' a t t' b : tstep m t m' t' -> pstep (m, a ++ t :: b) (m', a ++ t' :: b)
| p_drop h x l y n ts : pstep (Mem h (x ++ l :: y) n, ts) (Mem h (x ++ y) n, ts).
(** write.go:20-28, read.go:9-18, 36-58. *)
Inductive pruns : pworld -> pworld -> Prop :=
| pruns_0 w : pruns w w
| pruns_s u v w : pruns u v -> pstep v w -> pruns u w.
(** A goroutine about to make the calls [ops] on its own reader and writer.
    write.go:20-28, read.go:9-18, 36-58. *)
Definition starts (g : list pool_op * src * sink) : thread := let '(ops, s, w) := g in Th ops Idle s w [].
(** No buffer allocated yet.  write.go:20-28, read.go:9-18, 36-58. *)
Definition pstart (gs : list (list pool_op * src * sink)) : pworld := (Mem (fun _ => []) [] 0, map starts gs).
