(** /repo/pkg/nar/writer.go once more, with the caller's *Header pointers: the
    emitter keeps the pointers of the open entries (writer.go:89 currentHeader)
    and reads their Path and Type again when later headers arrive
    (writer.go:204, 214, 237), after WriteHeader has returned. *)
From Verif Require Import Base.Bytes Model.GoIO Model.GoStd Model.Wire Model.Nar Model.NarWriter.

(** The caller's Header structs.  writer.go:296 (the argument hdr). *)
Definition ptr := nat.
(** writer.go:296 (the argument hdr). *)
Definition heap := ptr -> header.
(** *p = h *)
(** writer.go:296 (the argument hdr). *)
Definition assign (m : heap) (p : ptr) (h : header) : heap := fun q => if q =? p then h else m q.

(** The emitter goroutine, as [wgor] in Model/NarWriter.v.  writer.go:51-81. *)
Inductive pgor := PFirst | PWait (cur : ptr) (up : list ptr) | PGone.
(** writer.go:16-29. *)
Record pwr := PWR { pw_sink : sink; pw_gor : pgor; pw_cw : cwriter; pw_closed : bool }.

(** writer.go:32-84 NewWriter. *)
Definition PNewWriter (w : sink) : res pwr * sink :=
  let '(e, w') := WriteString w narVersionMagic1 in
  match e with
  | Some er => (Err er, w')
  | None => (Ok (PWR w' PFirst CWNil false), w')
  end.

(** writer.go:51-81, 89-290. *)
Inductive phandled := PHErr (e : error) (cw : cwriter) (w : sink)
| PHWait (cur : ptr) (up : list ptr) (cw : cwriter) (w : sink).
Section Heap.
(** The heap during a call: the caller waits in WriteHeader and changes nothing. *)
Variable m : heap.
(** writer.go:192-289 with a header that was received. *)
Fixpoint phandle (cur : ptr) (up : list ptr) (p : ptr) (cw : cwriter) (w : sink) {struct up} : phandled :=
  if negb (PathIsLexicographicallyOrdered (hd_path (m cur)) (hd_path (m p)))
  then PHErr (EMsg "isn't lexicographically greater") cw w
  else
    let name := Rel_abs (hd_path (m cur)) (hd_path (m p)) in
    if goes_up name then
      let '(e, w) := WriteString w (bs ")") in
      match e with Some er => PHErr er cw w | None =>
      match up with
      | [] => PHErr (EMsg "additional header detected") cw w
      | q :: up' =>
          let '(e, w) := WriteString w (bs ")") in
          match e with Some er => PHErr er cw w | None => phandle q up' p cw w end
      end end
    else if negb (beq (hd_type (m cur)) TypeDirectory) then PHErr (EMsg "received descending path") cw w
    else if negb (IsValidNodeName name) then PHErr (EMsg "name is invalid") cw w
    else
      let '(e, w) := wstrs [bs "entry"; bs "("; bs "name"; name; bs "node"] w in
      match e with Some er => PHErr er cw w | None =>
      let '(e, (cw, w)) := emit_head (m p) cw w in
      match e with Some er => PHErr er cw w | None => PHWait p (cur :: up) cw w end
      end.
(** writer.go:180-188, 193-201, 284-288: close all open nodes. *)
Fixpoint pfinish (up : list ptr) (w : sink) : option error * sink :=
  let '(e, w) := WriteString w (bs ")") in
  match e with
  | Some er => (Some er, w)
  | None =>
      match up with
      | [] => (None, w)
      | _ :: up' =>
          let '(e, w) := WriteString w (bs ")") in
          match e with Some er => (Some er, w) | None => pfinish up' w end
      end
  end.
(** writer.go:296-309 WriteHeader. *)
Definition PWriteHeader (p : ptr) (r : pwr) : wres * pwr :=
  match hd_Validate (m p) with
  | Err e => (WErr e, r)
  | Panic w => (WPanic w, r)
  | Ok _ =>
      if pw_closed r then (WPanic "send on closed channel", r)
      else
        match pw_gor r with
        | PGone => (WBlocked, r)
        | PFirst =>
            if negb (beq (hd_path (m p)) (bs "/"))
            then (WErr (EMsg "first header always needs to have a / as path"), PWR (pw_sink r) PGone (pw_cw r) false)
            else
              let '(e, (cw, w)) := emit_head (m p) (pw_cw r) (pw_sink r) in
              match e with
              | Some er => (WErr er, PWR w PGone cw false)
              | None => (WOk, PWR w (PWait p []) cw false)
              end
        | PWait cur up =>
            match cw_close (pw_cw r) (pw_sink r) with
            | (None, _) => (WPanic "nil contentWriter", r)
            | (Some (Some er), (cw, w)) => (WErr er, PWR w PGone cw false)
            | (Some None, (cw, w)) =>
                match phandle cur up p cw w with
                | PHErr er cw w => (WErr er, PWR w PGone cw false)
                | PHWait cur' up' cw w => (WOk, PWR w (PWait cur' up') cw false)
                end
            end
        end
  end.
End Heap.
(** writer.go:318-320 Write. *)
Definition pw_Write (b : bytes) (r : pwr) : (nat * wres) * pwr :=
  match pw_cw r with
  | CWNil => ((0, WPanic "nil contentWriter"), r)
  | CWMain bw =>
      let '((n, e), (bw', w')) := bw_write bw b (pw_sink r) in
      ((n, match e with Some er => WErr er | None => WOk end), PWR w' (pw_gor r) (CWMain bw') (pw_closed r))
  | CWDummy bw buf =>
      let '((n, e), (bw', buf')) := bw_write bw b buf in
      ((n, match e with Some er => WErr er | None => WOk end), PWR (pw_sink r) (pw_gor r) (CWDummy bw' buf') (pw_closed r))
  end.
(** writer.go:325-337 Close. *)
Definition pw_Close (r : pwr) : wres * pwr :=
  if pw_closed r then (WErr (EMsg "already closed"), r)
  else
    match pw_gor r with
    | PGone => (WOk, PWR (pw_sink r) PGone (pw_cw r) true)
    | PFirst => (WErr (EMsg "unexpected Close()"), PWR (pw_sink r) PGone (pw_cw r) true)
    | PWait cur up =>
        match cw_close (pw_cw r) (pw_sink r) with
        | (None, _) => (WPanic "nil contentWriter", PWR (pw_sink r) PGone (pw_cw r) true)
        | (Some (Some er), (cw, w)) => (WErr er, PWR w PGone cw true)
        | (Some None, (cw, w)) =>
            let '(e, w) := pfinish up w in
            (match e with Some er => WErr er | None => WOk end, PWR w PGone cw true)
        end
    end.
(** What a caller does: assign to a Header, or call the Writer.
    writer.go:296 (the argument hdr). *)
Inductive p_op := PSet (p : ptr) (h : header) | PHeader (p : ptr) | PBytes (b : bytes) | PClose.
