(** Model of /repo/cmd/gonix: nar/cat.go, nar/ls.go, drv/cmd.go (the Run
    functions, after kong has parsed the command line). *)
From Verif Require Import Base.Bytes Model.GoIO Model.GoStd Model.Wire Model.Nar Model.NarReader Model.Derivation.

(** * nar cat *)
(** cat.go:47 io.Copy(w, nr): w is a bufio.Writer over os.Stdout, whose ReadFrom hands over to
    os.Stdout's, which reads into a buffer and writes what it got until io.EOF.  The sizes of the
    buffers are arbitrary: [sizes k] is used when k more rounds are allowed.  The number of rounds is
    proved to suffice.  (A reader that returns nothing and no error is retried for ever here; an
    *os.File never does so.) *)
Fixpoint copy_rounds (sizes : nat -> N) (rounds : nat) (r : rd) (w : sink) : res unit * sink :=
  match rounds with
  | O => (Panic "out of fuel", w)
  | S k =>
      let '(b, e, r') := rd_Read (sizes k) r in
      let '(we, w') := match b with [] => (None, w) | _ => wwrite_ b w end in
      match we with
      | Some er => (Err er, w')
      | None => match e with
                | None => copy_rounds sizes k r' w'
                | Some EEOF => (Ok tt, w')
                | Some er => (Err er, w')
                end
      end
  end.
Definition copy_all (sizes : nat -> N) (r : rd) (w : sink) : res unit * sink :=
  copy_rounds sizes (S (src_size (rd_src r))) r w.
(** cat.go:28-55: the loop.  The number of rounds is proved to suffice. *)
Fixpoint cat_loop (sizes : nat -> N) (path : bytes) (rounds : nat) (r : rd) (w : sink) : res unit * sink :=
  match rounds with
  | O => (Panic "out of fuel", w)
  | S k =>
      match Next r with
      | (Panic m, _) => (Panic m, w)
      | (Err EEOF, _) => (Err (EMsg "requested path not found"), w)
      | (Err e, _) => (Err e, w)
      | (Ok h, r') =>
          if beq (hd_path h) path then
            if negb (beq (hd_type h) TypeRegular) then (Err (EMsg "unable to cat non-regular file"), w)
            else copy_all sizes r' w             (* w.Flush has nothing to do *)
          else cat_loop sizes path k r' w
      end
  end.
(** cat.go:17-55 Run, after os.Open gave the file [f]. *)
Definition cat_Run (sizes : nat -> N) (f : src) (path : bytes) (w : sink) : res unit * sink :=
  match NewReader f with
  | (Ok r, _) => cat_loop sizes path (S (length (src_data f))) r w
  | (Err e, _) => (Err e, w)
  | (Panic m, _) => (Panic m, w)
  end.

(** * nar ls *)
(** io/fs FileMode.String (Go standard library).  cmd/gonix/nar/ls.go:23. *)
Fixpoint flag_letters (l : bytes) (bit : N) (m : N) : bytes :=
  match l with
  | [] => []
  | c :: l' => (if N.testbit m bit then [c] else []) ++ flag_letters l' (bit - 1) m
  end.
(** cmd/gonix/nar/ls.go:23. *)
Fixpoint perm_letters (l : bytes) (bit : N) (m : N) : bytes :=
  match l with
  | [] => []
  | c :: l' => (if N.testbit m bit then c else "-"%byte) :: perm_letters l' (bit - 1) m
  end.
Definition mode_String (m : N) : bytes :=
  match flag_letters (bs "dalTLDpSugct?") 31 m with [] => bs "-" | f => f end ++ perm_letters (bs "rwxrwxrwx") 8 m.
(** ls.go:20-42 headerLineString; %v of a positive int64 is its decimal form. *)
Definition headerLineString (h : header) : bytes :=
  mode_String (fi_Mode h) ++ bs " " ++ hd_path h ++
  (if (0 <? hd_size h)%Z then bs " (" ++ FormatUint (Z.to_N (hd_size h)) ++ bs " bytes)" else []) ++
  (match hd_target h with [] => [] | t => bs " -> " ++ t end) ++ [x0a].
(** ls.go:55-82: the loop; the second result is the text given to print, which
    writes to the standard error stream and reports nothing.  The number of
    rounds is proved to suffice. *)
Fixpoint ls_loop (path : bytes) (recursive : bool) (rounds : nat) (r : rd) : res unit * bytes :=
  match rounds with
  | O => (Panic "out of fuel", [])
  | S k =>
      match Next r with
      | (Panic m, _) => (Panic m, [])
      | (Err EEOF, _) => (Ok tt, [])
      | (Err e, _) => (Err e, [])
      | (Ok h, r') =>
          if has_prefix (hd_path h) path then
            let remainder := skipn (length path) (hd_path h) in
            let line := if recursive || negb (contains_byte remainder "/"%byte) then headerLineString h else [] in
            let '(x, o) := ls_loop path recursive k r' in (x, line ++ o)
          else if blt path (hd_path h) then (Ok tt, [])
          else ls_loop path recursive k r'
      end
  end.
(** ls.go:44-83 Run, after os.Open gave the file [f]. *)
Definition ls_Run (f : src) (path : bytes) (recursive : bool) : res unit * bytes :=
  match NewReader f with
  | (Ok r, _) => ls_loop path recursive (S (length (src_data f))) r
  | (Err e, _) => (Err e, [])
  | (Panic m, _) => (Panic m, [])
  end.

(** * drv show *)
(** drv/cmd.go:23-53 Run; [get] is the store's Get.  [enc] stands for
    json.NewEncoder(os.Stdout).Encode, with or without indentation (Json.v, Encode). *)
Definition show_Run (get : bytes -> res drv) (enc : bool -> drv -> sink -> res unit * sink)
  (path format : bytes) (w : sink) : res unit * sink :=
  match get path with
  | Err e => (Err e, w)
  | Panic m => (Panic m, w)
  | Ok d =>
      if beq format (bs "json") then enc false d w
      else if beq format (bs "json-pretty") then enc true d w
      else if beq format (bs "aterm") then WriteDerivation d w
      else (Err (EMsg "invalid format"), w)
  end.
