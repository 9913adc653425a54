(** The goroutines of the nar Writer (/repo/pkg/nar/writer.go), as threads that
    take their steps in any order; see Model/NarConc.v for the Reader and for what
    is assumed of channels. *)
From Verif Require Import Base.Bytes Model.GoIO Model.GoStd Model.Wire Model.Nar Model.NarWriter Spec.NarWHist.

(** The goroutine started by NewWriter (writer.go:51-81). *)
Inductive ethread :=
| ERecv (g : wgor)                               (* <-headers: writer.go:53, 169 *)
| ERun (g : wgor) (x : option header)            (* received x; None: the channel is closed *)
| ESendDone (cur : header) (up : list header)    (* doneWritingHeader <- struct{}{}, writer.go:166 *)
| ESendErr (e : error)                           (* errors <- err *)
| EClose                                         (* close(errors) *)
| EExit.
(** The caller.  writer.go:32-84, 296-337. *)
Inductive wthread :=
| WIdle                                          (* outside of the package *)
| WSend (h : header)                             (* nw.headers <- hdr, writer.go:301 *)
| WSelect                                        (* writer.go:302-306 *)
| WRecvErr                                       (* <-nw.errors, writer.go:336 *)
| WPanicked (m : string).                        (* the process is gone *)
(** writer.go:16-29. *)
Record wconf := WConf {
  wc_ops : list wr_op;                           (* the calls still to make *)
  wc_main : wthread; wc_em : ethread;
  wc_sink : sink; wc_cw : cwriter; wc_closed : bool;
  wc_headers_closed : bool; wc_errors_closed : bool;
  wc_seen : list wr_seen                         (* what the calls returned *)
}.
(** What the emitter does between a receive from headers and its next channel
    operation; None: it panics (writer.go:54-78, 171-289). *)
Definition em_step (g : wgor) (x : option header) (cw : cwriter) (w : sink) : option (ethread * cwriter * sink) :=
  match g, x with
  | WFirst, None => Some (ESendErr (EMsg "unexpected Close()"), cw, w)
  | WFirst, Some h =>
      if negb (beq (hd_path h) (bs "/")) then Some (ESendErr (EMsg "first header always needs to have a / as path"), cw, w)
      else let '(e, (cw, w)) := emit_head h cw w in
           Some (match e with Some er => ESendErr er | None => ESendDone h [] end, cw, w)
  | WWait cur up, x =>
      match cw_close cw w with
      | (None, _) => None
      | (Some (Some er), (cw, w)) => Some (ESendErr er, cw, w)
      | (Some None, (cw, w)) =>
          match x with
          | None => let '(e, w) := finish up w in
                    Some (match e with Some er => ESendErr er | None => EClose end, cw, w)
          | Some h => match handle cur up h cw w with
                      | HErr er cw w => Some (ESendErr er, cw, w)
                      | HWait cur' up' cw w => Some (ESendDone cur' up', cw, w)
                      end
          end
      end
  | WGone, _ => None
  end.
(** One step of either thread. *)
Inductive wcstep : wconf -> wconf -> Prop :=
(* WriteHeader, writer.go:296-309 *)
| t_invalid h ops em w cw cl hc ec seen x : hd_Validate h = x -> x <> Ok tt ->
    wcstep (WConf (WHeader h :: ops) WIdle em w cw cl hc ec seen)
           (WConf ops match x with Panic m => WPanicked m | _ => WIdle end em w cw cl hc ec
              (seen ++ [SHeader match x with Err e => WErr e | Panic m => WPanic m | Ok _ => WOk end]))
| t_send h ops em w cw cl hc ec seen : hd_Validate h = Ok tt ->
    wcstep (WConf (WHeader h :: ops) WIdle em w cw cl hc ec seen)
           (WConf (WHeader h :: ops) (WSend h) em w cw cl hc ec seen)
| t_send_panic h o ops em w cw cl ec seen :
    wcstep (WConf (o :: ops) (WSend h) em w cw cl true ec seen)
           (WConf ops (WPanicked "send on closed channel") em w cw cl true ec (seen ++ [SHeader (WPanic "send on closed channel")]))
| t_header h ops g w cw cl ec seen :             (* the rendezvous on headers *)
    wcstep (WConf ops (WSend h) (ERecv g) w cw cl false ec seen)
           (WConf ops WSelect (ERun g (Some h)) w cw cl false ec seen)
| t_done o ops cur up w cw cl hc ec seen :       (* on doneWritingHeader *)
    wcstep (WConf (o :: ops) WSelect (ESendDone cur up) w cw cl hc ec seen)
           (WConf ops WIdle (ERecv (WWait cur up)) w cw cl hc ec (seen ++ [SHeader WOk]))
| t_error o ops e w cw cl hc ec seen :           (* on errors *)
    wcstep (WConf (o :: ops) WSelect (ESendErr e) w cw cl hc ec seen)
           (WConf ops WIdle EClose w cw cl hc ec (seen ++ [SHeader (WErr e)]))
| t_closed_nil o ops em w cw cl hc seen :        (* errors is closed: WriteHeader returns nil *)
    wcstep (WConf (o :: ops) WSelect em w cw cl hc true seen)
           (WConf ops WIdle em w cw cl hc true (seen ++ [SHeader WOk]))
(* Write, writer.go:318-320 *)
| t_write p ops em w cw cl hc ec seen n x r' : wr_Write p (WR w WGone cw cl) = ((n, x), r') ->
    wcstep (WConf (WBytes p :: ops) WIdle em w cw cl hc ec seen)
           (WConf ops match x with WPanic m => WPanicked m | _ => WIdle end em (wr_sink r') (wr_cw r') cl hc ec (seen ++ [SWrote n x]))
(* Close, writer.go:325-337 *)
| t_close_again ops em w cw hc ec seen :
    wcstep (WConf (WClose :: ops) WIdle em w cw true hc ec seen)
           (WConf ops WIdle em w cw true hc ec (seen ++ [SClosed (WErr (EMsg "already closed"))]))
| t_close_panic ops em w cw ec seen :
    wcstep (WConf (WClose :: ops) WIdle em w cw false true ec seen)
           (WConf ops (WPanicked "close of closed channel") em w cw false true ec (seen ++ [SClosed (WPanic "close of closed channel")]))
| t_close ops em w cw ec seen :
    wcstep (WConf (WClose :: ops) WIdle em w cw false false ec seen)
           (WConf (WClose :: ops) WRecvErr em w cw true true ec seen)
| t_close_err o ops e w cw cl hc ec seen :
    wcstep (WConf (o :: ops) WRecvErr (ESendErr e) w cw cl hc ec seen)
           (WConf ops WIdle EClose w cw cl hc ec (seen ++ [SClosed (WErr e)]))
| t_close_nil o ops em w cw cl hc seen :
    wcstep (WConf (o :: ops) WRecvErr em w cw cl hc true seen)
           (WConf ops WIdle em w cw cl hc true (seen ++ [SClosed WOk]))
(* the emitter *)
| t_recv_closed ops m g w cw cl ec seen :
    wcstep (WConf ops m (ERecv g) w cw cl true ec seen)
           (WConf ops m (ERun g None) w cw cl true ec seen)
| t_run ops m g x w cw cl hc ec seen em' cw' w' : em_step g x cw w = Some (em', cw', w') ->
    wcstep (WConf ops m (ERun g x) w cw cl hc ec seen)
           (WConf ops m em' w' cw' cl hc ec seen)
| t_run_panic ops m g x w cw cl hc ec seen : em_step g x cw w = None ->
    wcstep (WConf ops m (ERun g x) w cw cl hc ec seen)
           (WConf ops (WPanicked "emitter") EExit w cw cl hc ec seen)
| t_close_errors ops m w cw cl hc seen :
    wcstep (WConf ops m EClose w cw cl hc false seen)
           (WConf ops m EExit w cw cl hc true seen).
(** writer.go:32-84 NewWriter, for a caller about to make the calls [ops]. *)
Definition wconc_start (ops : list wr_op) (w : sink) : wconf :=
  WConf ops WIdle (ERecv WFirst) w CWNil false false false [].
