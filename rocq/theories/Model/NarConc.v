(** The goroutines of /repo/pkg/nar, as threads that take their steps in any
    order.  Model/NarReader.v and Model/NarWriter.v let the two goroutines take
    turns; here nothing is assumed about the schedule: the threads share
    variables and meet at Go's unbuffered channels, which are modelled as Go
    defines them (a send and a receive happen together; a receive from a closed
    channel gives the zero value at once; sending on or closing a closed channel
    panics).  A stretch of code without a channel operation is one step; that
    the two threads never work on the shared variables at the same time is a
    theorem, not an assumption (C73).

    There is one calling goroutine: the types are not safe for concurrent use. *)
From Verif Require Import Base.Bytes Model.GoIO Model.GoStd Model.Wire Model.Nar Model.NarReader Model.NarWriter Spec.NarHist.

(** * The Reader *)
(** The goroutine started by NewReader (reader.go:78-95). *)
Inductive pthread :=
| TRecv (g : gor)                              (* <-nr.next: reader.go:80, 172, 215, 238 *)
| TGo (g : gor)                                (* received true *)
| TRun (c : pc) (st : list frame)              (* parseNode *)
| TSendH (h : header) (w : wait) (st : list frame)   (* nr.headers <- h *)
| TSendE (e : error)                           (* nr.errors <- err, reader.go:87-91 *)
| TCloseH | TCloseE                            (* reader.go:93-94 *)
| TDone.
(** The caller.  reader.go:59-98, 313-366. *)
Inductive mthread :=
| MIdle                                        (* outside of the package *)
| MSend                                        (* nr.next <- true, reader.go:320 *)
| MSelect                                      (* reader.go:323-345 *)
| MPanicked (w : string).
(** reader.go:31-55. *)
Record conf := Conf {
  cf_ops : list rd_op;              (* the calls still to make *)
  cf_main : mthread;
  cf_par : pthread;
  cf_src : src; cf_content : option bytes_reader; cf_err : option error; cf_prev : bytes;
  cf_next_closed : bool; cf_headers_closed : bool; cf_errors_closed : bool;
  cf_seen : list rd_seen            (* what the calls returned *)
}.
(** What the parser does between receiving true and the next pass of the parse
    loop (reader.go:177-187, 220-224, 245). *)
Definition go_step (g : gor) (content : option bytes_reader) (s : src) : pthread * option bytes_reader * src :=
  match g with
  | GFirst => (TRun (CNode (bs "/")) [], content, s)
  | GWait (WDir p) st => (TRun (CLoop p) st, content, s)
  | GWait w st =>
      let '(e, ct, s) := match w, content with
                         | WReg, Some br => let '(e, (br', s')) := br_close br s in (e, Some br', s')
                         | _, ct => (None, ct, s)          (* the dummy's Close does nothing *)
                         end in
      match e with
      | Some er => (TSendE er, ct, s)
      | None =>
          let '(t, s) := tok s tokenLenMax in
          (match t with
           | inr er => TSendE er
           | inl t => match close_paren t st s with
                      | PGo c st _ => TRun c st
                      | PStop er _ => TSendE er
                      | PYield _ _ _ _ _ => TDone       (* unreachable *)
                      end
           end, ct, s)
      end
  | _ => (TDone, content, s)
  end.
(** One step of either thread.  reader.go:78-95, 313-366. *)
Inductive cstep : conf -> conf -> Prop :=
(* the caller enters Next *)
| s_next_err ops p s ct e pv nc hc ec seen :
    cstep (Conf (ONext :: ops) MIdle p s ct (Some e) pv nc hc ec seen)
          (Conf ops MIdle p s ct (Some e) pv nc hc ec (seen ++ [SNext (Err e)]))
| s_next_send ops p s ct pv nc hc ec seen :
    cstep (Conf (ONext :: ops) MIdle p s ct None pv nc hc ec seen)
          (Conf (ONext :: ops) MSend p s ct None pv nc hc ec seen)
| s_send_panic ops p s ct er pv hc ec seen :
    cstep (Conf (ONext :: ops) MSend p s ct er pv true hc ec seen)
          (Conf ops (MPanicked "send on closed channel") p s ct er pv true hc ec (seen ++ [SNext (Panic "send on closed channel")]))
| s_send ops g s ct er pv hc ec seen :           (* the rendezvous on next *)
    cstep (Conf (ONext :: ops) MSend (TRecv g) s ct er pv false hc ec seen)
          (Conf (ONext :: ops) MSelect (TGo g) s ct er pv false hc ec seen)
(* the select *)
| s_header ops h w st s ct er pv nc hc ec seen :
    cstep (Conf (ONext :: ops) MSelect (TSendH h w st) s ct er pv nc hc ec seen)
          (if PathIsLexicographicallyOrdered pv (hd_path h)
           then Conf ops MIdle (TRecv (GWait w st)) s ct er (hd_path h) nc hc ec (seen ++ [SNext (Ok h)])
           else Conf ops MIdle (TRecv (GWait w st)) s ct (Some (EMsg "received header in the wrong order")) pv nc hc ec
                     (seen ++ [SNext (Err (EMsg "received header in the wrong order"))]))
| s_error ops e s ct er pv nc hc ec seen :
    cstep (Conf (ONext :: ops) MSelect (TSendE e) s ct er pv nc hc ec seen)
          (Conf ops MIdle TCloseH s ct (Some e) pv nc hc ec (seen ++ [SNext (Err e)]))
| s_headers_closed ops p s ct er pv nc ec seen : (* hdr is nil: hdr.Path panics *)
    cstep (Conf (ONext :: ops) MSelect p s ct er pv nc true ec seen)
          (Conf ops (MPanicked "nil pointer dereference") p s ct er pv nc true ec (seen ++ [SNext (Panic "nil pointer dereference")]))
| s_errors_closed ops p s ct er pv nc hc seen :  (* err is nil: Next returns (nil, nil) *)
    cstep (Conf (ONext :: ops) MSelect p s ct er pv nc hc true seen)
          (Conf ops (MPanicked "Next returned nil, nil") p s ct er pv nc hc true (seen ++ [SNext (Panic "Next returned nil, nil")]))
(* Read and Close *)
| s_read n ops p s ct er pv nc hc ec seen b e ct' s' :
    match ct with
    | None => ([], Some EEOF, (None, s))
    | Some br => let '(b, e, (br', s')) := br_read n br s in (b, e, (Some br', s'))
    end = (b, e, (ct', s')) ->
    cstep (Conf (ORead n :: ops) MIdle p s ct er pv nc hc ec seen)
          (Conf ops MIdle p s' ct' er pv nc hc ec (seen ++ [SRead b e]))
| s_close_eof ops p s ct pv nc hc ec seen :
    cstep (Conf (OClose :: ops) MIdle p s ct (Some EEOF) pv nc hc ec seen)
          (Conf ops MIdle p s ct (Some EEOF) pv nc hc ec (seen ++ [SClosed (Ok tt)]))
| s_close ops p s ct er pv hc ec seen : er <> Some EEOF ->
    cstep (Conf (OClose :: ops) MIdle p s ct er pv false hc ec seen)
          (Conf ops MIdle p s ct er pv true hc ec (seen ++ [SClosed (Ok tt)]))
| s_close_panic ops p s ct er pv hc ec seen : er <> Some EEOF ->
    cstep (Conf (OClose :: ops) MIdle p s ct er pv true hc ec seen)
          (Conf ops (MPanicked "close of closed channel") p s ct er pv true hc ec (seen ++ [SClosed (Panic "close of closed channel")]))
(* the parser *)
| s_closed_first ops m s ct er pv hc ec seen :   (* reader.go:82-84 *)
    cstep (Conf ops m (TRecv GFirst) s ct er pv true hc ec seen)
          (Conf ops m TDone s ct er pv true hc ec seen)
| s_closed ops m w st s ct er pv hc ec seen :    (* parseNode returns nil *)
    cstep (Conf ops m (TRecv (GWait w st)) s ct er pv true hc ec seen)
          (Conf ops m (TRun CRet st) s ct er pv true hc ec seen)
| s_go ops m g s ct er pv nc hc ec seen p' ct' s' : go_step g ct s = (p', ct', s') ->
    cstep (Conf ops m (TGo g) s ct er pv nc hc ec seen)
          (Conf ops m p' s' ct' er pv nc hc ec seen)
| s_run_go ops m c st s ct er pv nc hc ec seen c' st' s' : pstep1 c st s = PGo c' st' s' ->
    cstep (Conf ops m (TRun c st) s ct er pv nc hc ec seen)
          (Conf ops m (TRun c' st') s' ct er pv nc hc ec seen)
| s_run_yield ops m c st s ct er pv nc hc ec seen h w st' ct' s' : pstep1 c st s = PYield h w st' ct' s' ->
    cstep (Conf ops m (TRun c st) s ct er pv nc hc ec seen)
          (Conf ops m (TSendH h w st') s' ct' er pv nc hc ec seen)
| s_run_stop ops m c st s ct er pv nc hc ec seen e s' : pstep1 c st s = PStop e s' ->
    cstep (Conf ops m (TRun c st) s ct er pv nc hc ec seen)
          (Conf ops m (TSendE e) s' ct er pv nc hc ec seen)
| s_close_headers ops m s ct er pv nc ec seen :
    cstep (Conf ops m TCloseH s ct er pv nc false ec seen)
          (Conf ops m TCloseE s ct er pv nc true ec seen)
| s_close_errors ops m s ct er pv nc hc seen :
    cstep (Conf ops m TCloseE s ct er pv nc hc false seen)
          (Conf ops m TDone s ct er pv nc hc true seen).
(** reader.go:59-98 NewReader, for a caller about to make the calls [ops]. *)
Definition conc_start (ops : list rd_op) (s : src) : conf :=
  Conf ops MIdle (TRecv GFirst) s None None [] false false false [].
