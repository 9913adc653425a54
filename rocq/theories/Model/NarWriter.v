(** Model of /repo/pkg/nar/writer.go.

    The emitter runs in its own goroutine, but it only moves while a
    WriteHeader or Close call waits for it (unbuffered channels), so the model
    is a state machine: the emitter's recursion is a stack of headers. *)
From Verif Require Import Base.Bytes Model.GoIO Model.GoStd Model.Wire Model.Nar.

(** What a caller sees.  [WBlocked]: the call never returns.  writer.go:296-337. *)
Inductive wres := WOk | WErr (e : error) | WPanic (w : string) | WBlocked.

(** The current content writer (writer.go:18): connected to the output, or the
    dummy on its own bytes.Buffer (writer.go:157-159), or nil. *)
Inductive cwriter := CWNil | CWMain (bw : bytes_writer) | CWDummy (bw : bytes_writer) (buf : sink).

(** The emitter goroutine. *)
Inductive wgor :=
| WFirst                                       (* waiting for the first header, writer.go:53 *)
| WWait (cur : header) (up : list header)      (* writer.go:169, [up]: enclosing directories *)
| WGone.                                       (* returned; errors is closed *)

(** writer.go:16-29. *)
Record wr := WR { wr_sink : sink; wr_gor : wgor; wr_cw : cwriter; wr_closed : bool }.

(** writer.go:32-84 NewWriter. *)
Definition NewWriter (w : sink) : res wr * sink :=
  let '(e, w') := WriteString w narVersionMagic1 in
  match e with
  | Some er => (Err er, w')
  | None => (Ok (WR w' WFirst CWNil false), w')
  end.

(** Several WriteString calls in a row, stopping at the first error.  writer.go:89-290. *)
Fixpoint wstrs (l : list bytes) (w : sink) : option error * sink :=
  match l with
  | [] => (None, w)
  | x :: l' =>
      let '(e, w') := WriteString w x in
      match e with Some er => (Some er, w') | None => wstrs l' w' end
  end.

(** uint64(int64).  writer.go:132. *)
Definition u64_of_Z (z : Z) : N := Z.to_N (z mod 2 ^ 64).

(** writer.go:89-163: emitNode up to doneWritingHeader. *)
Definition emit_head (h : header) (cw : cwriter) (w : sink) : option error * (cwriter * sink) :=
  let '(e, w) := wstrs [bs "("; bs "type"; hd_type h] w in
  match e with Some er => (Some er, (cw, w)) | None =>
  if beq (hd_type h) TypeRegular then
    let '(e, w) :=
      if hd_exec h then
        let '(e, w) := WriteString w (bs "executable") in
        match e with Some er => (Some er, w) | None => WriteBytes w [] end
      else (None, w) in
    match e with Some er => (Some er, (cw, w)) | None =>
    let '(e, w) := WriteString w (bs "contents") in
    match e with Some er => (Some er, (cw, w)) | None =>
    let '(r, w) := NewBytesWriter w (u64_of_Z (hd_size h)) in
    match r with
    | Ok bw => (None, (CWMain bw, w))
    | Err er => (Some er, (CWNil, w))          (* contentWriter is a nil *BytesWriter now *)
    | Panic m => (Some (EMsg m), (CWNil, w))
    end end end
  else
    let '(e, w) :=
      if beq (hd_type h) TypeSymlink then wstrs [bs "target"; hd_target h] w else (None, w) in
    match e with Some er => (Some er, (cw, w)) | None =>
    if beq (hd_type h) TypeSymlink || beq (hd_type h) TypeDirectory then
      match NewBytesWriter (Sink [] []) 0 with
      | (Ok bw, b) => (None, (CWDummy bw b, w))
      | (_, _) => (Some (EMsg "unreachable"), (cw, w))
      end
    else (None, (cw, w))
    end
  end.

(** writer.go:171-178: contentWriter.Close(). *)
Definition cw_close (cw : cwriter) (w : sink) : option (option error) * (cwriter * sink) :=
  match cw with
  | CWNil => (None, (cw, w))                     (* nil interface: panic *)
  | CWMain bw => let '(e, (bw', w')) := bw_close bw w in (Some e, (CWMain bw', w'))
  | CWDummy bw b => let '(e, (bw', b')) := bw_close bw b in (Some e, (CWDummy bw' b', w))
  end.

(** writer.go:192-289 with a header that was received: bounce it up the stack
    until a directory takes it. [HErr]: the error sent on errors. *)
Inductive handled := HErr (e : error) (cw : cwriter) (w : sink)
| HWait (cur : header) (up : list header) (cw : cwriter) (w : sink).
(** writer.go:215-224. *)
Definition goes_up (name : bytes) : bool :=
  match name with
  | a :: b :: _ :: _ => byte_eqb a "."%byte && byte_eqb b "."%byte
  | _ => false
  end.
Fixpoint handle (cur : header) (up : list header) (h : header) (cw : cwriter) (w : sink) {struct up} : handled :=
  if negb (PathIsLexicographicallyOrdered (hd_path cur) (hd_path h))
  then HErr (EMsg "isn't lexicographically greater") cw w
  else
    let name := Rel_abs (hd_path cur) (hd_path h) in
    if goes_up name then
      let '(e, w) := WriteString w (bs ")") in
      match e with Some er => HErr er cw w | None =>
      match up with
      | [] => HErr (EMsg "additional header detected") cw w      (* writer.go:76-78 *)
      | p :: up' =>
          let '(e, w) := WriteString w (bs ")") in               (* writer.go:285 *)
          match e with Some er => HErr er cw w | None => handle p up' h cw w end
      end end
    else if negb (beq (hd_type cur) TypeDirectory) then HErr (EMsg "received descending path") cw w
    else if negb (IsValidNodeName name) then HErr (EMsg "name is invalid") cw w
    else
      let '(e, w) := wstrs [bs "entry"; bs "("; bs "name"; name; bs "node"] w in
      match e with Some er => HErr er cw w | None =>
      let '(e, (cw, w)) := emit_head h cw w in
      match e with Some er => HErr er cw w | None => HWait h (cur :: up) cw w end
      end.
(** writer.go:180-188, 193-201, 284-288: close all open nodes. *)
Fixpoint finish (up : list header) (w : sink) : option error * sink :=
  let '(e, w) := WriteString w (bs ")") in
  match e with
  | Some er => (Some er, w)
  | None =>
      match up with
      | [] => (None, w)
      | _ :: up' =>
          let '(e, w) := WriteString w (bs ")") in
          match e with Some er => (Some er, w) | None => finish up' w end
      end
  end.

(** writer.go:296-309 WriteHeader.  A goroutine panic takes the process down. *)
Definition WriteHeader (h : header) (r : wr) : wres * wr :=
  match hd_Validate h with
  | Err e => (WErr e, r)
  | Panic m => (WPanic m, r)
  | Ok _ =>
      if wr_closed r then (WPanic "send on closed channel", r)
      else
        match wr_gor r with
        | WGone => (WBlocked, r)
        | WFirst =>
            if negb (beq (hd_path h) (bs "/"))
            then (WErr (EMsg "first header always needs to have a / as path"), WR (wr_sink r) WGone (wr_cw r) false)
            else
              let '(e, (cw, w)) := emit_head h (wr_cw r) (wr_sink r) in
              match e with
              | Some er => (WErr er, WR w WGone cw false)
              | None => (WOk, WR w (WWait h []) cw false)
              end
        | WWait cur up =>
            match cw_close (wr_cw r) (wr_sink r) with
            | (None, _) => (WPanic "nil contentWriter", r)
            | (Some (Some er), (cw, w)) => (WErr er, WR w WGone cw false)
            | (Some None, (cw, w)) =>
                match handle cur up h cw w with
                | HErr er cw w => (WErr er, WR w WGone cw false)
                | HWait cur' up' cw w => (WOk, WR w (WWait cur' up') cw false)
                end
            end
        end
  end.

(** writer.go:318-320 Write. *)
Definition wr_Write (b : bytes) (r : wr) : (nat * wres) * wr :=
  match wr_cw r with
  | CWNil => ((0, WPanic "nil contentWriter"), r)
  | CWMain bw =>
      let '((n, e), (bw', w')) := bw_write bw b (wr_sink r) in
      ((n, match e with Some er => WErr er | None => WOk end), WR w' (wr_gor r) (CWMain bw') (wr_closed r))
  | CWDummy bw buf =>
      let '((n, e), (bw', buf')) := bw_write bw b buf in
      ((n, match e with Some er => WErr er | None => WOk end), WR (wr_sink r) (wr_gor r) (CWDummy bw' buf') (wr_closed r))
  end.

(** writer.go:325-337 Close. *)
Definition wr_Close (r : wr) : wres * wr :=
  if wr_closed r then (WErr (EMsg "already closed"), r)
  else
    match wr_gor r with
    | WGone => (WOk, WR (wr_sink r) WGone (wr_cw r) true)       (* receive from the closed channel: nil *)
    | WFirst => (WErr (EMsg "unexpected Close()"), WR (wr_sink r) WGone (wr_cw r) true)
    | WWait cur up =>
        match cw_close (wr_cw r) (wr_sink r) with
        | (None, _) => (WPanic "nil contentWriter", WR (wr_sink r) WGone (wr_cw r) true)
        | (Some (Some er), (cw, w)) => (WErr er, WR w WGone cw true)
        | (Some None, (cw, w)) =>
            let '(e, w) := finish up w in
            (match e with Some er => WErr er | None => WOk end, WR w WGone cw true)
        end
    end.
