(** Model of /repo/pkg/derivation/store: filesystem.go, http.go, uri.go. *)
From Verif Require Import Base.Bytes Model.GoIO Model.GoStd Model.Storepath Model.Derivation Model.DrvParser.

(** What lies at a path, as os.Lstat says.  filesystem.go:73-95. *)
Inductive file_kind := KRegular | KDirectory | KSymlink | KOther.
(** The operating system's answers: os.Lstat (no such file, another error, the
    kind of the file) and os.Open, which follows symlinks.  filesystem.go:73-95. *)
Inductive lstat_answer := LNotExist | LError (e : error) | LKind (k : file_kind).
(** filesystem.go:21-29, 54-95. *)
Record os := Os { os_lstat : bytes -> lstat_answer; os_open : bytes -> res src }.
(** net/http: the answer to a request is an error, or a status code and a body.
    Redirects, if any, are followed by the client.  http.go:73-134. *)
Record response := Response { r_status : N; r_body : src }.

Section Json.
Variable json : bytes -> res (option bytes).

(** * filesystem.go *)
(** filesystem.go:21-29 NewFSStore: the storage directory. *)
Definition NewFSStore (dir : bytes) : bytes := match dir with [] => StoreDir | _ => dir end.
(** filesystem.go:43-45 Put. *)
Definition fs_Put (dir : bytes) (d : drv) : res bytes := Err (EMsg "not implemented").
(** filesystem.go:49-51 getFilepath. *)
Definition getFilepath (dir p : bytes) : bytes := Join2 dir (Base p).
(** filesystem.go:54-68 Get.  (The file is never closed, see Handles.v.) *)
Definition fs_Get (o : os) (dir p : bytes) : res drv :=
  let* f := os_open o (getFilepath dir p) in
  match ReadDerivation json f with
  | Ok d => Ok d
  | Err _ => Err (EMsg "unable to parse derivation")
  | Panic w => Panic w
  end.
(** filesystem.go:73-95 Has. *)
Definition fs_Has (o : os) (dir p : bytes) : res bool :=
  match os_lstat o (getFilepath dir p) with
  | LNotExist => Ok false
  | LError _ => Err (EMsg "unable to stat")
  | LKind KRegular => Ok true
  | LKind _ => Err (EMsg "file is not regular")
  end.

(** * http.go *)
(** http.go:47-53 getURL: the path of the URL; the rest is the base URL's. *)
Definition getURL_path (base p : bytes) : bytes := Join2 base (Base p).
(** http.go:73-105 Get.  [ask] is the client's answer for a URL path. *)
Definition http_Get (ask : bytes -> res response) (base p : bytes) : res drv :=
  match ask (getURL_path base p) with
  | Panic w => Panic w
  | Err _ => Err (EMsg "error doing request")
  | Ok r =>
      if (r_status r <? 200)%N || (300 <=? r_status r)%N then Err (EMsg "bad status code")
      else match ReadAll (r_body r) with            (* io.Copy into a buffer *)
           | Panic w => Panic w
           | Err _ => Err (EMsg "error reading body")
           | Ok b =>
               match ReadDerivation json (Src [b] EEOF false) with
               | Ok d => Ok d
               | Err _ => Err (EMsg "error parsing derivation")
               | Panic w => Panic w
               end
           end
  end.
(** http.go:109-134 Has. *)
Definition http_Has (ask : bytes -> res response) (base p : bytes) : res bool :=
  match ask (getURL_path base p) with
  | Panic w => Panic w
  | Err _ => Err (EMsg "error doing request")
  | Ok r =>
      if (r_status r =? 404)%N then Ok false
      else if (200 <=? r_status r)%N && (r_status r <? 300)%N then Ok true
      else Err (EMsg "bad status code")
  end.
(** http.go:39-41 Put. *)
Definition http_Put (d : drv) : res bytes := Err (EMsg "not implemented").
End Json.

(** * uri.go *)
(** The parts of a parsed URL that matter here (net/url.Parse is not modelled).
    http.go:32-53. *)
Record url := Url { u_scheme : bytes; u_path : bytes }.
Inductive store_kind := SFS (dir : bytes) | SBadger (dir : bytes) | SHTTP (u : url).
(** uri.go:16-36 NewFromURI, after url.Parse. *)
Definition NewFromURI (u : url) : res store_kind :=
  if beq (u_scheme u) [] then Ok (SFS (NewFSStore (u_path u)))
  else if beq (u_scheme u) (bs "badger") then Ok (SBadger [])
  else if beq (u_scheme u) (bs "file") then Ok (SFS (NewFSStore (u_path u)))
  else if beq (u_scheme u) (bs "http") then Ok (SHTTP u)
  else if beq (u_scheme u) (bs "https") then Ok (SHTTP u)
  else Err (EMsg "unknown scheme").
