(** Model of /repo/pkg/storepath/storepath.go. *)
From Verif Require Import Base.Bytes Model.GoStd Model.Nixbase32.

(** storepath.go:13-14, 29-34. *)
Definition StoreDir : bytes := bs "/nix/store".
(** storepath.go:14. *)
Definition PathHashSize : nat := 20.
(** storepath.go:29. *)
Definition encodedPathHashSize : nat := EncodedLen PathHashSize.
(** storepath.go:32. *)
Definition hashOffset : nat := length StoreDir + 1.
(** storepath.go:34. *)
Definition nameOffset : nat := encodedPathHashSize + 1.

(** storepath.go:38-41. *)
Record store_path := SP { sp_name : bytes; sp_digest : bytes }.

(** storepath.go:46-48 String. *)
Definition sp_String (p : store_path) : bytes := EncodeToString (sp_digest p) ++ bs "-" ++ sp_name p.
(** storepath.go:53-55 Absolute. *)
Definition sp_Absolute (p : store_path) : bytes := Join2 StoreDir (sp_String p).

(** storepath.go:107-121: the characters the loop lets pass.  Go ranges over
    runes: a byte >= 0x80 starts or is a rune >= 0x80 or U+FFFD, all of which
    are rejected, so a byte-wise test is the same. *)
Definition name_char (c : byte) : bool :=
  let n := b2n c in
  ((97 <=? n)%N && (n <=? 122)%N) || ((65 <=? n)%N && (n <=? 90)%N) ||
  ((48 <=? n)%N && (n <=? 57)%N) ||
  existsb (byte_eqb c) (bs "-_.+?=").

(** s[a:b] with Go's bounds check.  storepath.go:65-79, 93-128. *)
Definition slice (s : bytes) (a b : nat) : res bytes :=
  if (a <=? b) && (b <=? length s) then Ok (firstn (b - a) (skipn a s))
  else Panic "slice bounds out of range".

(** storepath.go:93-128 Validate.  Note that the name loop starts at
    nameOffset (33), an offset into the *relative* string, although s is the
    absolute path: it covers the end of the hash, the separator and the name. *)
Definition Validate (s : bytes) : res unit :=
  if length s <? hashOffset + encodedPathHashSize + 1
  then Err (EMsg "invalid path length")
  else
    let* pre := slice s 0 (length StoreDir) in
    if negb (beq pre StoreDir) then Err (EMsg "mismatching store path prefix")
    else
      let* h := slice s hashOffset (hashOffset + encodedPathHashSize) in
      match ValidateString h with
      | Panic w => Panic w
      | Err _ => Err (EMsg "error validating path nixbase32")
      | Ok _ =>
          let* tail := slice s nameOffset (length s) in
          if forallb name_char tail then Ok tt
          else Err (EMsg "invalid character in path")
      end.

(** storepath.go:58-60 (method) Validate. *)
Definition sp_Validate (p : store_path) : res unit := Validate (sp_Absolute p).

(** storepath.go:65-79 FromString. *)
Definition FromString (s : bytes) : res store_path :=
  let* _ := Validate (Join2 StoreDir s) in
  let* h := slice s 0 (nameOffset - 1) in
  let* d := DecodeString h in
  let* n := slice s nameOffset (length s) in
  Ok (SP n d).

(** storepath.go:84-90 FromAbsolutePath. *)
Definition FromAbsolutePath (s : bytes) : res store_path :=
  if length s <? hashOffset + nameOffset + 1 then Err (EMsg "invalid path length")
  else let* r := slice s hashOffset (length s) in FromString r.
