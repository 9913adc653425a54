(** nar.Reader on a machine that has [mem] bytes for one buffer.

    The only buffers whose size the stream decides are those of wire.ReadBytesFull
    (make([]byte, contentLength), read.go:90); this file is Model/Wire.v and
    Model/NarReader.v once more, except that asking for more than [mem] bytes at once
    ends in a panic.  The 1024 byte blocks of BytesReader.Close (bytes_reader.go:46)
    and the 8 byte buffers of the pool have constant size; not counted are the path
    strings, which are made of names read before, and the goroutine's stack. *)
From Verif Require Import Base.Bytes Model.GoIO Model.GoStd Model.Wire Model.Nar Model.NarReader.

Section Mem.
Variable mem : N.

(** read.go:77-96 ReadBytesFull: make([]byte, contentLength) fails beyond the budget. *)
Definition m_ReadBytesFull (s : src) (maxBytes : N) : res bytes * src :=
  let '(r, s1) := ReadBytes s in
  match r with
  | Err e => (Err e, s1)
  | Panic w => (Panic w, s1)
  | Ok (contentLength, rd) =>
      if N.ltb maxBytes contentLength
      then (Err (EMsg "content length exceeds maximum"), s1)
      else if N.ltb mem contentLength then (Panic "out of memory", s1)
      else
        let '(r2, (rem2, s2)) := lim_read_full contentLength (br_rem rd, s1) in
        let '(_, (_, s3)) := br_close (BR (br_len rd) rem2) s2 in
        (r2, s3)
  end.
(** read.go:99-103 ReadString. *)
Definition m_ReadString (s : src) (maxBytes : N) : res bytes * src := m_ReadBytesFull s maxBytes.

(** reader.go:370-385 expectString. *)
Definition m_expectString (s : src) (expected : bytes) : option error * src :=
  let '(r, s') := m_ReadString s (lenN expected) in
  (match r with
   | Err EEOF => Some EUnexpectedEOF
   | Err e => Some e
   | Panic w => Some (EMsg w)
   | Ok x => if beq x expected then None else Some (EMsg "unexpected token")
   end, s').

(** Sequencing over the stream; running out of memory, which ends the program, shows
    up as an error with that text.  reader.go:370-385. *)
Definition m_tok (s : src) (max : N) : (bytes + error) * src :=
  let '(r, s') := m_ReadString s max in
  (match r with Ok x => inl x | Err e => inr e | Panic w => inr (EMsg w) end, s').

(** reader.go:100-241: parseNode up to the header, for the three types. *)
Definition m_parse_head (p : bytes) (st : list frame) (s : src) : pstep :=
  let '(e, s) := m_expectString s (bs "(") in
  match e with Some er => PStop er s | None =>
  let '(e, s) := m_expectString s (bs "type") in
  match e with Some er => PStop er s | None =>
  let '(t, s) := m_tok s tokenLenMax in
  match t with
  | inr er => PStop er s
  | inl t =>
    if beq t (bs "regular") then
      (* reader.go:122-169 *)
      let '(t, s) := m_tok s 10 in
      match t with
      | inr er => PStop er s
      | inl t =>
        let '(t, exec, s) :=
          if beq t (bs "executable") then
            let '(r, s) := m_ReadBytesFull s 0 in
            match r with
            | Ok _ => let '(t, s) := m_tok s tokenLenMax in (t, true, s)
            | Err e => (inr (match e with EEOF => EMsg "error reading placeholder" | _ => e end), true, s)
            | Panic w => (inr (EMsg w), true, s)
            end
          else (inl t, false, s) in
        match t with
        | inr er => PStop er s
        | inl t =>
          if negb (beq t (bs "contents")) then PStop (EMsg "expected contents") s
          else
            let '(r, s) := ReadBytes s in
            match r with
            | Err er => PStop er s
            | Panic w => PStop (EMsg w) s
            | Ok (n, br) =>
                if (2 ^ 63 - 1 <? n)%N then PStop (EMsg "content length too large") s
                else PYield (Header p TypeRegular [] (Z.of_N n) exec) WReg st (Some br) s
            end
        end
      end
    else if beq t (bs "symlink") then
      (* reader.go:189-212 *)
      let '(e, s) := m_expectString s (bs "target") in
      match e with Some er => PStop er s | None =>
      let '(t, s) := m_tok s pathLenMax in
      match t with
      | inr er => PStop er s
      | inl t => PYield (Header p TypeSymlink t 0 false) WSym st None s
      end end
    else if beq t (bs "directory") then
      (* reader.go:226-235 *)
      PYield (Header p TypeDirectory [] 0 false) (WDir p) st None s
    else close_paren t st s
  end end end.

(** One step of the parser. *)
Definition m_pstep1 (c : pc) (st : list frame) (s : src) : pstep :=
  match c with
  | CNode p => m_parse_head p st s
  | CLoop p =>
      (* reader.go:245-282 *)
      let '(t, s) := m_tok s tokenLenMax in
      match t with
      | inr er => PStop er s
      | inl t =>
          if beq t (bs "entry") then
            let '(e, s) := m_expectString s (bs "(") in
            match e with Some er => PStop er s | None =>
            let '(e, s) := m_expectString s (bs "name") in
            match e with Some er => PStop er s | None =>
            let '(t, s) := m_tok s nameLenMax in
            match t with
            | inr er => PStop er s
            | inl name =>
                if negb (IsValidNodeName name) then PStop (EMsg "name is invalid") s
                else
                  let '(e, s) := m_expectString s (bs "node") in
                  match e with
                  | Some er => PStop er s
                  | None => PGo (CNode (Join2 p name)) (Frame p name :: st) s
                  end
            end end end
          else if beq t (bs ")") then PGo CRet st s
          else PGo (CLoop p) st s
      end
  | CRet =>
      match st with
      | [] => PStop EEOF s                       (* reader.go:87-91 *)
      | Frame p name :: st' =>
          (* reader.go:287-303: currentToken still holds the entry's name *)
          let '(e, s) := m_expectString s (bs ")") in
          match e with
          | Some er => PStop er s
          | None => if beq name (bs ")") then PGo CRet st' s else PGo (CLoop p) st' s
          end
      end
  end.

(** The parser runs until it sends something.  reader.go:100-304. *)
Fixpoint m_run (fuel : nat) (c : pc) (st : list frame) (s : src) : pstep :=
  match fuel with
  | O => PStop (EMsg "out of fuel") s
  | S f => match m_pstep1 c st s with
           | PGo c' st' s' => m_run f c' st' s'
           | r => r
           end
  end.

(** Every step but the last consumes input, so this much fuel is always enough
    (proved: [run_fuel] in Proof/NarReaderFacts.v).  reader.go:100-304. *)
Definition m_run_all (c : pc) (st : list frame) (s : src) : pstep :=
  m_run (S (S (length (src_data s) + length st))) c st s.

(** reader.go:59-98 NewReader. *)
Definition m_NewReader (s : src) : res rd * src :=
  let '(e, s') := m_expectString s narVersionMagic1 in
  match e with
  | Some EEOF => (Err (EMsg "invalid nar version magic"), s')   (* wrapped; expectString never gives io.EOF *)
  | Some er => (Err er, s')
  | None => (Ok (RD s' GFirst None [] None false), s')
  end.

(** What the parser does when it receives [true]; the content reader is the one
    stored in the Reader (reader.go:177-187, 220-224, 245). *)
Definition m_resume (g : gor) (content : option bytes_reader) (s : src)
  : pstep * option bytes_reader :=
  match g with
  | GFirst => (m_run_all (CNode (bs "/")) [] s, content)
  | GWait WReg st =>
      match content with
      | None => (PStop (EMsg "unreachable") s, content)
      | Some br =>
          let '(e, (br', s)) := br_close br s in
          (match e with
           | Some er => PStop er s
           | None =>
               let '(t, s) := m_tok s tokenLenMax in
               match t with
               | inr er => PStop er s
               | inl t => match close_paren t st s with
                          | PGo c st s => m_run_all c st s
                          | r => r
                          end
               end
           end, Some br')
      end
  | GWait WSym st =>
      (let '(t, s) := m_tok s tokenLenMax in
       match t with
       | inr er => PStop er s
       | inl t => match close_paren t st s with
                  | PGo c st s => m_run_all c st s
                  | r => r
                  end
       end, content)
  | GWait (WDir p) st => (m_run_all (CLoop p) st s, content)
  | _ => (PStop (EMsg "unreachable") s, content)
  end.

(** reader.go:313-346 Next. *)
Definition m_Next (r : rd) : res header * rd :=
  match rd_err r with
  | Some e => (Err e, r)
  | None =>
      if rd_closed r then (Panic "send on closed channel", r)
      else
        match m_resume (rd_gor r) (rd_content r) (rd_src r) with
        | (PYield h w st content s', _) =>
            if PathIsLexicographicallyOrdered (rd_prev r) (hd_path h)
            then (Ok h, RD s' (GWait w st) None (hd_path h) content false)
            else (Err (EMsg "received header in the wrong order"),
                  RD s' (GWait w st) (Some (EMsg "received header in the wrong order")) (rd_prev r) content false)
        | (PStop e s', content) => (Err e, RD s' GExit (Some e) (rd_prev r) content false)
        | (PGo _ _ s', content) => (Panic "unreachable", RD s' GExit None (rd_prev r) content false)
        end
  end.

(** reader.go:359-366 Close, including what the parser does afterwards: it
    receives false, parseNode returns nil and the parent goes on parsing until
    it sends a header or the final error, which nobody receives any more. *)
Definition m_rd_Close (r : rd) : res unit * rd :=
  match rd_err r with
  | Some EEOF => (Ok tt, r)
  | _ =>
      if rd_closed r then (Panic "close of closed channel", r)
      else
        let closed g c s := RD s g (rd_err r) (rd_prev r) c true in
        (Ok tt,
         match rd_gor r with
         | GFirst => closed GExit (rd_content r) (rd_src r)
         | GWait _ st =>
             match m_run_all CRet st (rd_src r) with
             | PYield _ _ _ c s' => closed GBlocked c s'
             | PGo _ _ s' | PStop _ s' => closed GBlocked (rd_content r) s'
             end
         | g => closed g (rd_content r) (rd_src r)
         end)
  end.
End Mem.
