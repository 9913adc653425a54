(** Model of /repo/pkg/nar/reader.go.

    The parser runs in its own goroutine, but the two goroutines take strict
    turns: the parser only moves between a receive from [next] and the
    following send on [headers] or [errors], and all channels are unbuffered.
    The model is therefore a coroutine: [run] is what the parser does from one
    receive to the next send.  The recursion of parseNode over directories is
    an explicit stack. *)
From Verif Require Import Base.Bytes Model.GoIO Model.GoStd Model.Wire Model.Nar.

(** reader.go:13-23. *)
Definition tokenLenMax : N := 32.
(** reader.go:19. *)
Definition nameLenMax : N := 255.
(** reader.go:22. *)
Definition pathLenMax : N := 4095.

(** reader.go:370-385 expectString. *)
Definition expectString (s : src) (expected : bytes) : option error * src :=
  let '(r, s') := ReadString s (lenN expected) in
  (match r with
   | Err EEOF => Some EUnexpectedEOF
   | Err e => Some e
   | Panic w => Some (EMsg w)
   | Ok x => if beq x expected then None else Some (EMsg "unexpected token")
   end, s').

(** Sequencing over the stream; a panic of the library is an error here (it
    cannot happen: the limits are far below 2^63, see C04_never_panics).
    reader.go:370-385. *)
Definition tok (s : src) (max : N) : (bytes + error) * src :=
  let '(r, s') := ReadString s max in
  (match r with Ok x => inl x | Err e => inr e | Panic w => inr (EMsg w) end, s').

(** Where the parser waits for the consumer (reader.go:172, 215, 238): inside a
    regular file, after a symlink, after a directory header. *)
Inductive wait := WReg | WSym | WDir (p : bytes).
(** A directory whose entry [f_name] is being parsed (reader.go:282). *)
Record frame := Frame { f_path : bytes; f_name : bytes }.
(** What the parser does next. *)
Inductive pc :=
| CNode (p : bytes)       (* enter parseNode(p), reader.go:100 *)
| CLoop (p : bytes)       (* top of the directory loop, reader.go:245 *)
| CRet.                   (* parseNode returned nil *)

(** Result of one parser step.  reader.go:100-304. *)
Inductive pstep :=
| PGo (c : pc) (st : list frame) (s : src)
| PYield (h : header) (w : wait) (st : list frame) (content : option bytes_reader) (s : src)
| PStop (e : error) (s : src).   (* the error the goroutine sends; io.EOF at the regular end *)

(** reader.go:299-303: the check behind the switch. *)
Definition close_paren (t : bytes) (st : list frame) (s : src) : pstep :=
  if beq t (bs ")") then PGo CRet st s else PStop (EMsg "expected )") s.

(** reader.go:100-241: parseNode up to the header, for the three types. *)
Definition parse_head (p : bytes) (st : list frame) (s : src) : pstep :=
  let '(e, s) := expectString s (bs "(") in
  match e with Some er => PStop er s | None =>
  let '(e, s) := expectString s (bs "type") in
  match e with Some er => PStop er s | None =>
  let '(t, s) := tok s tokenLenMax in
  match t with
  | inr er => PStop er s
  | inl t =>
    if beq t (bs "regular") then
      (* reader.go:122-169 *)
      let '(t, s) := tok s 10 in
      match t with
      | inr er => PStop er s
      | inl t =>
        let '(t, exec, s) :=
          if beq t (bs "executable") then
            let '(r, s) := ReadBytesFull s 0 in
            match r with
            | Ok _ => let '(t, s) := tok s tokenLenMax in (t, true, s)
            | Err e => (inr (match e with EEOF => EMsg "error reading placeholder" | _ => e end), true, s)
            | Panic w => (inr (EMsg w), true, s)
            end
          else (inl t, false, s) in
        match t with
        | inr er => PStop er s
        | inl t =>
          if negb (beq t (bs "contents")) then PStop (EMsg "expected contents") s
          else
            let '(r, s) := ReadBytes s in
            match r with
            | Err er => PStop er s
            | Panic w => PStop (EMsg w) s
            | Ok (n, br) =>
                if (2 ^ 63 - 1 <? n)%N then PStop (EMsg "content length too large") s
                else PYield (Header p TypeRegular [] (Z.of_N n) exec) WReg st (Some br) s
            end
        end
      end
    else if beq t (bs "symlink") then
      (* reader.go:189-212 *)
      let '(e, s) := expectString s (bs "target") in
      match e with Some er => PStop er s | None =>
      let '(t, s) := tok s pathLenMax in
      match t with
      | inr er => PStop er s
      | inl t => PYield (Header p TypeSymlink t 0 false) WSym st None s
      end end
    else if beq t (bs "directory") then
      (* reader.go:226-235 *)
      PYield (Header p TypeDirectory [] 0 false) (WDir p) st None s
    else close_paren t st s
  end end end.

(** One step of the parser. *)
Definition pstep1 (c : pc) (st : list frame) (s : src) : pstep :=
  match c with
  | CNode p => parse_head p st s
  | CLoop p =>
      (* reader.go:245-282 *)
      let '(t, s) := tok s tokenLenMax in
      match t with
      | inr er => PStop er s
      | inl t =>
          if beq t (bs "entry") then
            let '(e, s) := expectString s (bs "(") in
            match e with Some er => PStop er s | None =>
            let '(e, s) := expectString s (bs "name") in
            match e with Some er => PStop er s | None =>
            let '(t, s) := tok s nameLenMax in
            match t with
            | inr er => PStop er s
            | inl name =>
                if negb (IsValidNodeName name) then PStop (EMsg "name is invalid") s
                else
                  let '(e, s) := expectString s (bs "node") in
                  match e with
                  | Some er => PStop er s
                  | None => PGo (CNode (Join2 p name)) (Frame p name :: st) s
                  end
            end end end
          else if beq t (bs ")") then PGo CRet st s
          else PGo (CLoop p) st s
      end
  | CRet =>
      match st with
      | [] => PStop EEOF s                       (* reader.go:87-91 *)
      | Frame p name :: st' =>
          (* reader.go:287-303: currentToken still holds the entry's name *)
          let '(e, s) := expectString s (bs ")") in
          match e with
          | Some er => PStop er s
          | None => if beq name (bs ")") then PGo CRet st' s else PGo (CLoop p) st' s
          end
      end
  end.

(** The parser runs until it sends something.  reader.go:100-304. *)
Fixpoint run (fuel : nat) (c : pc) (st : list frame) (s : src) : pstep :=
  match fuel with
  | O => PStop (EMsg "out of fuel") s
  | S f => match pstep1 c st s with
           | PGo c' st' s' => run f c' st' s'
           | r => r
           end
  end.

(** Every step but the last consumes input, so this much fuel is always enough
    (proved: [run_fuel] in Proof/NarReaderFacts.v).  reader.go:100-304. *)
Definition run_all (c : pc) (st : list frame) (s : src) : pstep :=
  run (S (S (length (src_data s) + length st))) c st s.

(** The goroutine.  reader.go:78-95. *)
Inductive gor :=
| GFirst                                  (* waiting for the first Next *)
| GWait (w : wait) (st : list frame)      (* waiting in parseNode *)
| GExit                                   (* terminated *)
| GBlocked.                               (* blocked in a send nobody will receive *)

(** reader.go:31-55. [rd_content] is None for the dummy empty reader. *)
Record rd := RD {
  rd_src : src;
  rd_gor : gor;
  rd_err : option error;
  rd_prev : bytes;
  rd_content : option bytes_reader;
  rd_closed : bool
}.

(** reader.go:59-98 NewReader. *)
Definition NewReader (s : src) : res rd * src :=
  let '(e, s') := expectString s narVersionMagic1 in
  match e with
  | Some EEOF => (Err (EMsg "invalid nar version magic"), s')   (* wrapped; expectString never gives io.EOF *)
  | Some er => (Err er, s')
  | None => (Ok (RD s' GFirst None [] None false), s')
  end.

(** What the parser does when it receives [true]; the content reader is the one
    stored in the Reader (reader.go:177-187, 220-224, 245). *)
Definition resume (g : gor) (content : option bytes_reader) (s : src)
  : pstep * option bytes_reader :=
  match g with
  | GFirst => (run_all (CNode (bs "/")) [] s, content)
  | GWait WReg st =>
      match content with
      | None => (PStop (EMsg "unreachable") s, content)
      | Some br =>
          let '(e, (br', s)) := br_close br s in
          (match e with
           | Some er => PStop er s
           | None =>
               let '(t, s) := tok s tokenLenMax in
               match t with
               | inr er => PStop er s
               | inl t => match close_paren t st s with
                          | PGo c st s => run_all c st s
                          | r => r
                          end
               end
           end, Some br')
      end
  | GWait WSym st =>
      (let '(t, s) := tok s tokenLenMax in
       match t with
       | inr er => PStop er s
       | inl t => match close_paren t st s with
                  | PGo c st s => run_all c st s
                  | r => r
                  end
       end, content)
  | GWait (WDir p) st => (run_all (CLoop p) st s, content)
  | _ => (PStop (EMsg "unreachable") s, content)
  end.

(** reader.go:313-346 Next. *)
Definition Next (r : rd) : res header * rd :=
  match rd_err r with
  | Some e => (Err e, r)
  | None =>
      if rd_closed r then (Panic "send on closed channel", r)
      else
        match resume (rd_gor r) (rd_content r) (rd_src r) with
        | (PYield h w st content s', _) =>
            if PathIsLexicographicallyOrdered (rd_prev r) (hd_path h)
            then (Ok h, RD s' (GWait w st) None (hd_path h) content false)
            else (Err (EMsg "received header in the wrong order"),
                  RD s' (GWait w st) (Some (EMsg "received header in the wrong order")) (rd_prev r) content false)
        | (PStop e s', content) => (Err e, RD s' GExit (Some e) (rd_prev r) content false)
        | (PGo _ _ s', content) => (Panic "unreachable", RD s' GExit None (rd_prev r) content false)
        end
  end.

(** reader.go:354-356 Read with a buffer of n bytes. *)
Definition rd_Read (n : N) (r : rd) : bytes * option error * rd :=
  match rd_content r with
  | None => ([], Some EEOF, r)
  | Some br =>
      let '(b, e, (br', s')) := br_read n br (rd_src r) in
      (b, e, RD s' (rd_gor r) (rd_err r) (rd_prev r) (Some br') (rd_closed r))
  end.

(** reader.go:359-366 Close, including what the parser does afterwards: it
    receives false, parseNode returns nil and the parent goes on parsing until
    it sends a header or the final error, which nobody receives any more. *)
Definition rd_Close (r : rd) : res unit * rd :=
  match rd_err r with
  | Some EEOF => (Ok tt, r)
  | _ =>
      if rd_closed r then (Panic "close of closed channel", r)
      else
        let closed g c s := RD s g (rd_err r) (rd_prev r) c true in
        (Ok tt,
         match rd_gor r with
         | GFirst => closed GExit (rd_content r) (rd_src r)
         | GWait _ st =>
             match run_all CRet st (rd_src r) with
             | PYield _ _ _ c s' => closed GBlocked c s'
             | PGo _ _ s' | PStop _ s' => closed GBlocked (rd_content r) s'
             end
         | g => closed g (rd_content r) (rd_src r)
         end)
  end.
