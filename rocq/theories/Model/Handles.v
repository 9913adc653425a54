(** What the functions of pkg/nar/dump.go and pkg/derivation/store open and
    close: the models of NarDumpOS.v and StoreBackends.v again, with a trace.
    (Theorems C107_dump_trace and C107_store_trace: without the trace they are
    the same.)  Files that os.ReadDir, os.Lstat and os.Readlink open inside the
    standard library are closed there and not shown. *)
From Verif Require Import Base.Bytes Model.GoIO Model.GoStd Model.Wire Model.Nar Model.NarWriter
  Model.NarDump Model.NarDumpOS Model.Storepath Model.Derivation Model.DrvParser Model.StoreBackends.

(** filesystem.go:54-68, nar/writer.go:32-84, nar/dump.go:25-41. *)
Inductive event := Opened (what : bytes) | Closed (what : bytes).

Section Dump.
Variable filter : option (bytes -> bytes -> bool).
Variable path : bytes.
Variable W : nat -> bytes -> os_answer.
(** dump.go:44-150.  [defer f.Close()] (dump.go:133) runs when the call that
    opened the file returns or panics. *)
Fixpoint dumpEv (fuel : nat) (subpath : bytes) (k : nat) (r : wr) : (wres * (nat * wr)) * list event :=
  match fuel with
  | O => ((WPanic "out of fuel", (k, r)), [])
  | S fuel =>
      let p := Join2 path subpath in
      match a_lstat (W k p) with
      | LErr e => ((WErr e, (S k, r)), [])
      | LSpecial => ((WErr (EMsg "unknown type"), (S k, r)), [])
      | LSym =>
          if rejects filter p TypeSymlink then ((WOk, (S k, r)), [])
          else
            match a_readlink (W (S k) p) with
            | inr e => ((WErr e, (S (S k), r)), [])
            | inl target =>
                let '(x, r) := WriteHeader (Header subpath TypeSymlink target 0 false) r in
                ((x, (S (S k), r)), [])
            end
      | LDir =>
          if rejects filter p TypeDirectory then ((WOk, (S k, r)), [])
          else
            let '(x, r) := WriteHeader (Header subpath TypeDirectory [] 0 false) r in
            match x with
            | WOk =>
                match a_readdir (W (S k) p) with
                | inr e => ((WErr e, (S (S k), r)), [])
                | inl names =>
                    (fix loop (names : list bytes) (k : nat) (r : wr) : (wres * (nat * wr)) * list event :=
                       match names with
                       | [] => ((WOk, (k, r)), [])
                       | name :: names' =>
                           let '((x, (k, r)), evs) := dumpEv fuel (Join2 subpath name) k r in
                           match x with
                           | WOk => let '(res, evs') := loop names' k r in (res, evs ++ evs')
                           | _ => ((x, (k, r)), evs)
                           end
                       end) names (S (S k)) r
                end
            | _ => ((x, (S k, r)), [])
            end
      | LReg mode size =>
          if rejects filter p TypeRegular then ((WOk, (S k, r)), [])
          else
            let '(x, r) := WriteHeader (Header subpath TypeRegular [] size
                             (negb (N.eqb (N.land mode S_IXUSR) 0))) r in
            match x with
            | WOk =>
                match a_open (W (S k) p) with
                | inr e => ((WErr e, (S (S k), r)), [])
                | inl data =>
                    let '((n, x), r) := io_copy (S (src_size data)) data 0 r in
                    ((match x with
                      | WOk => if Z.eqb n size then WOk else WErr (EMsg "unexpected number of bytes")
                      | _ => x
                      end, (S (S k), r)), Opened p :: match x with WBlocked => [] | _ => [Closed p] end)
                end
            | _ => ((x, (S k, r)), [])
            end
      end
  end.

(** What is left of the writer's goroutine when DumpPathFilter has returned.
    nar/writer.go:51-81. *)
Inductive goroutine := NotStarted | Running | Ended.
Definition goroutine_of (r : wr) : goroutine := match wr_gor r with WGone => Ended | _ => Running end.
(** dump.go:25-41 DumpPathFilter, with its deferred Close. *)
Definition DumpEv (fuel : nat) (w : sink) : (wres * (nat * sink)) * (list event * goroutine) :=
  match NewWriter w with
  | (Err e, w) => ((WErr e, (0, w)), ([], NotStarted))
  | (Panic m, w) => ((WPanic m, (0, w)), ([], NotStarted))
  | (Ok r, _) =>
      let '((x, (k, r)), evs) := dumpEv fuel (bs "/") 0 r in
      match x with
      | WOk =>
          let '(x, r) := wr_Close r in
          match x with
          | WBlocked => ((x, (k, wr_sink r)), (evs, goroutine_of r))
          | _ => let '(_, r) := wr_Close r in ((x, (k, wr_sink r)), (evs, goroutine_of r))
          end
      | WPanic _ | WBlocked => ((x, (k, wr_sink r)), (evs, goroutine_of r))
      | WErr _ => let '(_, r) := wr_Close r in ((x, (k, wr_sink r)), (evs, goroutine_of r))
      end
  end.
End Dump.

Section Stores.
Variable json : bytes -> res (option bytes).
(** filesystem.go:54-68 Get: there is no Close of [f] on any path. *)
Definition fs_Get_ev (o : os) (dir p : bytes) : res drv * list event :=
  let f := getFilepath dir p in
  match os_open o f with
  | Err e => (Err e, [])
  | Panic w => (Panic w, [])
  | Ok s =>
      (match ReadDerivation json s with
       | Ok d => Ok d
       | Err _ => Err (EMsg "unable to parse derivation")
       | Panic w => Panic w
       end, [Opened f])
  end.
(** http.go:73-105 Get: [defer resp.Body.Close()] (http.go:83) runs however the
    call returns. *)
Definition http_Get_ev (ask : bytes -> res response) (base p : bytes) : res drv * list event :=
  let u := getURL_path base p in
  match ask u with
  | Panic w => (Panic w, [])
  | Err _ => (Err (EMsg "error doing request"), [])
  | Ok r =>
      let result :=
        if (r_status r <? 200)%N || (300 <=? r_status r)%N then Err (EMsg "bad status code")
        else match ReadAll (r_body r) with
             | Panic w => Panic w
             | Err _ => Err (EMsg "error reading body")
             | Ok b =>
                 match ReadDerivation json (Src [b] EEOF false) with
                 | Ok d => Ok d
                 | Err _ => Err (EMsg "error parsing derivation")
                 | Panic w => Panic w
                 end
             end in
      (result, [Opened u; Closed u])
  end.
(** http.go:109-134 Has (http.go:119). *)
Definition http_Has_ev (ask : bytes -> res response) (base p : bytes) : res bool * list event :=
  let u := getURL_path base p in
  match ask u with
  | Panic w => (Panic w, [])
  | Err _ => (Err (EMsg "error doing request"), [])
  | Ok r =>
      (if (r_status r =? 404)%N then Ok false
       else if (200 <=? r_status r)%N && (r_status r <? 300)%N then Ok true
       else Err (EMsg "bad status code"), [Opened u; Closed u])
  end.
(** Several Get calls on one FSStore.  filesystem.go:54-68. *)
Fixpoint fs_Gets_ev (o : os) (dir : bytes) (ps : list bytes) : list (res drv) * list event :=
  match ps with
  | [] => ([], [])
  | p :: ps =>
      let '(d, e1) := fs_Get_ev o dir p in
      let '(ds, e2) := fs_Gets_ev o dir ps in
      (d :: ds, e1 ++ e2)
  end.
End Stores.
