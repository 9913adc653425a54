(** Models of Go standard library functions called by /repo (Go 1.20+, Linux).
    These model documented library behaviour, not code of /repo. *)
From Verif Require Import Base.Bytes.

(** * encoding/hex *)
(** (nixhash/hash.go:59, derivation/hashes.go:36, 88, 148, 166, drv_path.go:78-79.) *)
Definition hex_digits : bytes := bs "0123456789abcdef".
(** (nixhash/hash.go:59, derivation/hashes.go:36, 88, 148, 166, drv_path.go:78-79.) *)
Definition hex_char (n : N) : byte := nth (N.to_nat n) hex_digits x00.
(** hex.EncodeToString: lower case.
    (nixhash/hash.go:59, derivation/hashes.go:36, 88, 148, 166, drv_path.go:78-79.) *)
Fixpoint hex_encode (l : bytes) : bytes :=
  match l with
  | [] => []
  | b :: l' => hex_char (b2n b / 16) :: hex_char (b2n b mod 16) :: hex_encode l'
  end.
(** (nixhash/hash.go:59, derivation/hashes.go:36, 88, 148, 166, drv_path.go:78-79.) *)
Definition hex_EncodedLen (n : nat) : nat := n * 2.
(** hex digit value; upper and lower case are accepted.  (nixhash/parse.go:59-61.) *)
Definition hex_val (c : byte) : option N :=
  let n := b2n c in
  if (48 <=? n)%N && (n <=? 57)%N then Some (n - 48)%N
  else if (97 <=? n)%N && (n <=? 102)%N then Some (n - 87)%N
  else if (65 <=? n)%N && (n <=? 70)%N then Some (n - 55)%N
  else None.
(** hex.DecodeString.  (nixhash/parse.go:59-61.) *)
Fixpoint hex_decode (s : bytes) : res bytes :=
  match s with
  | [] => Ok []
  | [c] => match hex_val c with
           | None => Err (EMsg "hex: invalid byte")
           | Some _ => Err (EMsg "hex: odd length")
           end
  | a :: b :: s' =>
      match hex_val a, hex_val b with
      | Some x, Some y => let* r := hex_decode s' in Ok (n2b (16 * x + y) :: r)
      | _, _ => Err (EMsg "hex: invalid byte")
      end
  end.

(** * encoding/base64 StdEncoding (padded, not strict) *)
(** (signature/util.go:48, nixhash/hash.go:63.) *)
Definition b64_alphabet : bytes :=
  bs "ABCDEFGHIJKLMNOPQRSTUVWXYZabcdefghijklmnopqrstuvwxyz0123456789+/".
(** (signature/util.go:48, nixhash/hash.go:63.) *)
Definition b64_char (n : N) : byte := nth (N.to_nat n) b64_alphabet x00.
(** (signature/util.go:33, nixhash/parse.go:67.) *)
Definition b64_val (c : byte) : option N :=
  match index_byte b64_alphabet c with Some i => Some (N.of_nat i) | None => None end.
(** (signature/util.go:48, nixhash/hash.go:63.) *)
Definition b64_EncodedLen (n : nat) : nat := (n + 2) / 3 * 4.
(** (signature/util.go:48, nixhash/hash.go:63.) *)
Definition pad_char : byte := "="%byte.

(** EncodeToString.  (signature/util.go:48, nixhash/hash.go:63.) *)
Fixpoint b64_encode (l : bytes) : bytes :=
  match l with
  | [] => []
  | [a] =>
      let v := (b2n a * 65536)%N in
      [b64_char (v / 262144); b64_char (v / 4096 mod 64); pad_char; pad_char]
  | [a; b] =>
      let v := (b2n a * 65536 + b2n b * 256)%N in
      [b64_char (v / 262144); b64_char (v / 4096 mod 64); b64_char (v / 64 mod 64); pad_char]
  | a :: b :: c :: l' =>
      let v := (b2n a * 65536 + b2n b * 256 + b2n c)%N in
      b64_char (v / 262144) :: b64_char (v / 4096 mod 64) :: b64_char (v / 64 mod 64)
        :: b64_char (v mod 64) :: b64_encode l'
  end.

(** (signature/util.go:33, nixhash/parse.go:67.) *)
Definition is_newline (c : byte) : bool := byte_eqb c x0a || byte_eqb c x0d.

(** Decoding after removal of '\r' and '\n', which Go's decoder skips wherever
    they occur.  Quanta of four characters; '=' only as "x=" or "==" at the very
    end; the unused low bits of a padded quantum are not checked (the decoder is
    not strict).  (signature/util.go:33, nixhash/parse.go:67.) *)
Fixpoint b64_decode_go (s : bytes) : res bytes :=
  match s with
  | [] => Ok []
  | a :: b :: c :: d :: s' =>
      match b64_val a, b64_val b with
      | Some x, Some y =>
          match b64_val c with
          | Some z =>
              match b64_val d with
              | Some w =>
                  let v := (x * 262144 + y * 4096 + z * 64 + w)%N in
                  let* r := b64_decode_go s' in
                  Ok (n2b (v / 65536) :: n2b (v / 256 mod 256) :: n2b (v mod 256) :: r)
              | None =>
                  if byte_eqb d pad_char then
                    match s' with
                    | [] => let v := (x * 262144 + y * 4096 + z * 64)%N in
                            Ok [n2b (v / 65536); n2b (v / 256 mod 256)]
                    | _ => Err (EMsg "base64: corrupt input")
                    end
                  else Err (EMsg "base64: corrupt input")
              end
          | None =>
              if byte_eqb c pad_char && byte_eqb d pad_char then
                match s' with
                | [] => let v := (x * 262144 + y * 4096)%N in Ok [n2b (v / 65536)]
                | _ => Err (EMsg "base64: corrupt input")
                end
              else Err (EMsg "base64: corrupt input")
          end
      | _, _ => Err (EMsg "base64: corrupt input")
      end
  | _ => Err (EMsg "base64: corrupt input")
  end.
(** StdEncoding.DecodeString.  (signature/util.go:33, nixhash/parse.go:67.) *)
Definition b64_decode (s : bytes) : res bytes :=
  b64_decode_go (filter (fun c => negb (is_newline c)) s).

(** * strconv *)
(** (narinfo/fingerprint.go:16, narinfo/types.go:44-90.) *)
Definition digit_char (n : N) : byte := n2b (48 + n).
(** (narinfo/fingerprint.go:16, narinfo/types.go:44-90.) *)
Fixpoint fmt_uint_go (fuel : nat) (n : N) (acc : bytes) : bytes :=
  match fuel with
  | O => acc
  | S f => if (n <? 10)%N then digit_char n :: acc
           else fmt_uint_go f (n / 10) (digit_char (n mod 10) :: acc)
  end.
(** strconv.FormatUint(n, 10), and fmt's %d on a uint64.
    (narinfo/fingerprint.go:16, narinfo/types.go:44-90.) *)
Definition FormatUint (n : N) : bytes := fmt_uint_go (S (N.size_nat n)) n [].
(** (narinfo/parser.go:54, 64.) *)
Definition digit_val (c : byte) : option N :=
  let n := b2n c in if (48 <=? n)%N && (n <=? 57)%N then Some (n - 48)%N else None.
(** (narinfo/parser.go:54, 64.) *)
Fixpoint parse_uint_go (s : bytes) (acc : N) : res N :=
  match s with
  | [] => Ok acc
  | c :: s' =>
      match digit_val c with
      | None => Err (EMsg "strconv: invalid syntax")
      | Some d =>
          let acc' := (acc * 10 + d)%N in
          if (2 ^ 64 <=? acc')%N then
            (* a later invalid character would be reported as range error too;
               both are errors *)
            Err (EMsg "strconv: value out of range")
          else parse_uint_go s' acc'
      end
  end.
(** strconv.ParseUint(s, 10, 0) on a 64-bit platform.  (narinfo/parser.go:54, 64.) *)
Definition ParseUint (s : bytes) : res N :=
  match s with
  | [] => Err (EMsg "strconv: invalid syntax")
  | _ => parse_uint_go s 0
  end.

(** * path and path/filepath (Unix) *)
(** (nar/reader.go:274, nar/dump.go:46, storepath.go:54, 66, store/filesystem.go:50, store/http.go:50.) *)
Definition slash : byte := "/"%byte.
(** (nar/reader.go:274, nar/dump.go:46, storepath.go:54, 66, store/filesystem.go:50, store/http.go:50.) *)
Definition dot : bytes := bs ".".
(** (nar/reader.go:274, nar/dump.go:46, storepath.go:54, 66, store/filesystem.go:50, store/http.go:50.) *)
Definition dotdot : bytes := bs "..".

(** Components of path.Clean: [acc] is the reversed output stack.
    (nar/reader.go:274, nar/dump.go:46, storepath.go:54, 66, store/filesystem.go:50, store/http.go:50.) *)
Fixpoint clean_go (rooted : bool) (acc : list bytes) (l : list bytes) : list bytes :=
  match l with
  | [] => rev acc
  | c :: l' =>
      if beq c [] || beq c dot then clean_go rooted acc l'
      else if beq c dotdot then
        match acc with
        | [] => if rooted then clean_go rooted [] l' else clean_go rooted [c] l'
        | x :: acc' => if beq x dotdot then clean_go rooted (c :: acc) l'
                       else clean_go rooted acc' l'
        end
      else clean_go rooted (c :: acc) l'
  end.
(** (nar/reader.go:274, nar/dump.go:46, storepath.go:54, 66, store/filesystem.go:50, store/http.go:50.) *)
Definition is_rooted (p : bytes) : bool :=
  match p with c :: _ => byte_eqb c slash | [] => false end.
(** (nar/reader.go:274, nar/dump.go:46, storepath.go:54, 66, store/filesystem.go:50, store/http.go:50.) *)
Definition clean_comps (p : bytes) : list bytes :=
  clean_go (is_rooted p) [] (split_byte p slash).
(** path.Clean / filepath.Clean.
    (nar/reader.go:274, nar/dump.go:46, storepath.go:54, 66, store/filesystem.go:50, store/http.go:50.) *)
Definition Clean (p : bytes) : bytes :=
  let cs := clean_comps p in
  if is_rooted p then slash :: join_byte cs slash
  else match cs with [] => dot | _ => join_byte cs slash end.
(** path.Join(a, b) / filepath.Join(a, b).
    (nar/reader.go:274, nar/dump.go:46, storepath.go:54, 66, store/filesystem.go:50, store/http.go:50.) *)
Definition Join2 (a b : bytes) : bytes :=
  match a, b with
  | [], [] => []
  | [], _ => Clean b
  | _, _ => Clean (a ++ slash :: b)
  end.
(** path.Base.  (store/filesystem.go:50, store/http.go:50.) *)
Fixpoint strip_leading (c : byte) (l : bytes) : bytes :=
  match l with x :: l' => if byte_eqb x c then strip_leading c l' else l | [] => [] end.
(** (store/filesystem.go:50, store/http.go:50.) *)
Fixpoint take_until (c : byte) (l : bytes) : bytes :=
  match l with x :: l' => if byte_eqb x c then [] else x :: take_until c l' | [] => [] end.
(** (store/filesystem.go:50, store/http.go:50.) *)
Definition Base (p : bytes) : bytes :=
  match p with
  | [] => dot
  | _ => match rev (take_until slash (strip_leading slash (rev p))) with
         | [] => [slash]
         | r => r
         end
  end.
(** filepath.Rel(base, targ) for two rooted paths (it cannot fail then).
    (nar/writer.go:215.) *)
Fixpoint drop_common (a b : list bytes) : list bytes * list bytes :=
  match a, b with
  | x :: a', y :: b' => if beq x y then drop_common a' b' else (a, b)
  | _, _ => (a, b)
  end.
(** (nar/writer.go:215.) *)
Definition Rel_abs (base targ : bytes) : bytes :=
  let '(u, d) := drop_common (clean_comps base) (clean_comps targ) in
  match u, d with
  | [], [] => dot
  | _, _ => join_byte (repeat dotdot (length u) ++ d) slash
  end.

(** strings.SplitN(s, sep, 2) for a one-byte separator: one or two parts.
    (signature/util.go:14.) *)
Definition split2 (s : bytes) (c : byte) : bytes * option bytes :=
  match index_byte s c with
  | Some i => (firstn i s, Some (skipn (S i) s))
  | None => (s, None)
  end.
