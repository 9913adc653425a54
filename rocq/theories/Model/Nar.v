(** Model of /repo/pkg/nar: util.go, header.go, header_mode.go, types.go. *)
From Verif Require Import Base.Bytes.

(** types.go:3, 10-15.  NodeType is a string; any string is possible. *)
Definition narVersionMagic1 : bytes := bs "nix-archive-1".
(** types.go:10. *)
Definition TypeRegular : bytes := bs "regular".
(** types.go:12. *)
Definition TypeDirectory : bytes := bs "directory".
(** types.go:14. *)
Definition TypeSymlink : bytes := bs "symlink".

(** util.go:7-9 IsValidNodeName. *)
Definition IsValidNodeName (n : bytes) : bool :=
  negb (contains_byte n "/"%byte) && negb (contains_byte n x00).

(** util.go:12-39 PathIsLexicographicallyOrdered; [lex_loop] is the loop of
    lines 25-35 followed by line 38. *)
Fixpoint lex_loop (a b : bytes) : bool :=
  match a, b with
  | x :: a', y :: b' =>
      if byte_eqb x y then lex_loop a' b'
      else if byte_eqb x "/"%byte && negb (byte_eqb y "/"%byte) then true
      else byte_lt x y
  | [], _ => true        (* len(path2) >= len(path1) *)
  | _ :: _, [] => false
  end.
(** util.go:12-39. *)
Definition PathIsLexicographicallyOrdered (path1 path2 : bytes) : bool :=
  if ble path1 path2 then true else lex_loop path1 path2.

(** header.go:13-19. Size is an int64. *)
Record header := Header {
  hd_path : bytes;
  hd_type : bytes;
  hd_target : bytes;
  hd_size : Z;
  hd_exec : bool
}.

(** header.go:24-61 Validate.  filepath.ToSlash is the identity on Unix. *)
Definition hd_Validate (h : header) : res unit :=
  if match hd_path h with [] => true | c :: _ => negb (byte_eqb c "/"%byte) end
  then Err (EMsg "path must start with a /")
  else if contains_byte (hd_path h) x00 then Err (EMsg "path may not contain null bytes")
  else if (beq (hd_type h) TypeRegular || beq (hd_type h) TypeDirectory) && negb (beq (hd_target h) [])
  then Err (EMsg "LinkTarget is not empty")
  else if (beq (hd_type h) TypeDirectory || beq (hd_type h) TypeSymlink) && negb (Z.eqb (hd_size h) 0)
  then Err (EMsg "Size is not 0")
  else if (beq (hd_type h) TypeDirectory || beq (hd_type h) TypeSymlink) && hd_exec h
  then Err (EMsg "Executable is true")
  else if beq (hd_type h) TypeSymlink && beq (hd_target h) []
  then Err (EMsg "LinkTarget is empty")
  else Ok tt.

(** header.go:68-79 headerFileInfo (ModTime is the constant epoch, Sys the header). *)
Definition fi_Size (h : header) : Z := hd_size h.
(** header.go:73. *)
Definition fi_IsDir (h : header) : bool := beq (hd_type h) TypeDirectory.
(** header.go:79. *)
Definition fi_Name (h : header) : bytes := hd_path h.

(** io/fs FileMode bits.  header_mode.go:11-29. *)
Definition ModeDir : N := 2147483648.      (* 1 << 31 *)
(** header_mode.go:11-29. *)
Definition ModeSymlink : N := 134217728.   (* 1 << 27 *)
(** header_mode.go:11-29. *)
Definition ModePerm : N := 511.            (* 0o777 *)

(** header_mode.go:11-29 Mode (the Unix variant). *)
Definition fi_Mode (h : header) : N :=
  if beq (hd_type h) TypeRegular then
    (if hd_exec h then N.lor 292 73 else 292)   (* 0o444, 0o111 *)
  else if beq (hd_type h) TypeDirectory then N.lor 292 73
  else if beq (hd_type h) TypeSymlink then N.lor ModePerm ModeSymlink
  else 0.
(** header_mode_windows.go:7-25 Mode (the Windows variant): [mode & ^fs.FileMode(0o200)]. *)
Definition fi_Mode_windows (h : header) : N :=
  N.ldiff (if beq (hd_type h) TypeRegular then ModePerm
           else if beq (hd_type h) TypeDirectory then ModeDir
           else if beq (hd_type h) TypeSymlink then ModeSymlink
           else 0) 128.
