(** Model of /repo/pkg/nixhash. *)
From Verif Require Import Base.Bytes Model.GoStd Model.Nixbase32.

(** algo.go:9-19.  Algorithm is a uint8; the four named values and all others. *)
Inductive algo := MD5 | SHA1 | SHA256 | SHA512 | ABad (n : N).

(** algo.go:9. *)
Definition algo_eqb (a b : algo) : bool :=
  match a, b with
  | MD5, MD5 | SHA1, SHA1 | SHA256, SHA256 | SHA512, SHA512 => true
  | ABad m, ABad n => N.eqb m n
  | _, _ => false
  end.

(** algo.go:21-34 ParseAlgorithm. *)
Definition ParseAlgorithm (s : bytes) : res algo :=
  if beq s (bs "md5") then Ok MD5
  else if beq s (bs "sha1") then Ok SHA1
  else if beq s (bs "sha256") then Ok SHA256
  else if beq s (bs "sha512") then Ok SHA512
  else Err (EMsg "unknown algorithm").

(** algo.go:36-49 String. *)
Definition algo_String (a : algo) : res bytes :=
  match a with
  | MD5 => Ok (bs "md5")
  | SHA1 => Ok (bs "sha1")
  | SHA256 => Ok (bs "sha256")
  | SHA512 => Ok (bs "sha512")
  | ABad _ => Panic "bug: unknown algorithm"
  end.

(** algo.go:54-67 Func followed by crypto.Hash.Size(), as used by the callers. *)
Definition algo_Size (a : algo) : res nat :=
  match a with
  | MD5 => Ok 16
  | SHA1 => Ok 20
  | SHA256 => Ok 32
  | SHA512 => Ok 64
  | ABad _ => Panic "Invalid hash type"
  end.

(** encoding.go:8-18. *)
Inductive encoding := Base16 | Base64 | NixBase32 | SRI | EBad (n : N).

(** hash.go:15-18. *)
Record hash := Hash { h_algo : algo; h_digest : bytes }.

(** hash.go:20-26 NewHash. *)
Definition NewHash (a : algo) (digest : bytes) : res hash :=
  let* n := algo_Size a in
  if Nat.eqb n (length digest) then Ok (Hash a digest)
  else Err (EMsg "algo length doesn't match digest size").

(** hash.go:28-35 MustNewHash: panic(err) instead of an error. *)
Definition must {A} (r : res A) : res A :=
  match r with
  | Err _ => Panic "error"
  | r => r
  end.
(** hash.go:28-35. *)
Definition MustNewHash (a : algo) (digest : bytes) : res hash :=
  must (NewHash a digest).

(** hash.go:37-39 Algo, hash.go:41-43 Digest. *)
Definition h_Algo (h : hash) : algo := h_algo h.
(** hash.go:41-43. *)
Definition h_Digest (h : hash) : bytes := h_digest h.

(** hash.go:46-69 Format. *)
Definition Format (h : hash) (e : encoding) (includeAlgo : bool) : res bytes :=
  let is_sri := match e with SRI => true | _ => false end in
  let* prefix :=
    if is_sri || includeAlgo then
      let* a := algo_String (h_algo h) in
      Ok (a ++ (if is_sri then bs "-" else bs ":"))
    else Ok [] in
  let* body :=
    match e with
    | Base16 => Ok (hex_encode (h_digest h))
    | NixBase32 => Ok (EncodeToString (h_digest h))
    | Base64 | SRI => Ok (b64_encode (h_digest h))
    | EBad _ => Panic "bug: unknown encoding"
    end in
  Ok (prefix ++ body).

(** hash_with_encoding.go:4-8. *)
Record hash_enc := HashEnc { he_hash : hash; he_enc : encoding; he_incl : bool }.

(** hash_with_encoding.go:10-26 NewHashWithEncoding. *)
Definition NewHashWithEncoding (a : algo) (d : bytes) (e : encoding) (incl : bool) : res hash_enc :=
  let* h := NewHash a d in Ok (HashEnc h e incl).

(** hash_with_encoding.go:28-36 MustNewHashWithEncoding. *)
Definition MustNewHashWithEncoding (a : algo) (d : bytes) (e : encoding) (incl : bool) : res hash_enc :=
  let* h := MustNewHash a d in Ok (HashEnc h e incl).

(** hash_with_encoding.go:39-41 String. *)
Definition he_String (h : hash_enc) : res bytes := Format (he_hash h) (he_enc h) (he_incl h).

(** parse.go:25, 27 (strings.IndexByte). *)
Definition index_pos (s : bytes) (c : byte) : option nat :=
  match index_byte s c with Some (S k) => Some (S k) | _ => None end.

(** parse.go:56-86: decoding the remainder once the algorithm is known. *)
Definition parse_rest (a : algo) (incl isSRI : bool) (s : bytes) : res hash_enc :=
  let* sz := algo_Size a in
  let* p :=
    (if Nat.eqb (length s) (hex_EncodedLen sz) then
       let* d := hex_decode s in Ok (Base16, d)
     else if Nat.eqb (length s) (EncodedLen sz) then
       let* d := DecodeString s in Ok (NixBase32, d)
     else if Nat.eqb (length s) (b64_EncodedLen sz) then
       let* d := b64_decode s in Ok (Base64, d)
     else Err (EMsg "unknown encoding")) in
  let '(e, d) := p in
  if isSRI then
    match e with
    | Base64 => Ok (HashEnc (Hash a d) SRI incl)
    | _ => Err (EMsg "invalid encoding for SRI")
    end
  else Ok (HashEnc (Hash a d) e incl).

(** parse.go:16-86 ParseAny.  On an error the Go function may return a partly
    filled struct next to the error; callers in /repo ignore it. *)
Definition ParseAny (s : bytes) (optAlgo : option algo) : res hash_enc :=
  let '(i, isSRI) :=
    match index_pos s ":"%byte with
    | Some i => (Some i, false)
    | None => match index_pos s "-"%byte with
              | Some i => (Some i, true)
              | None => (None, false)
              end
    end in
  match i with
  | Some i =>
      let* a := ParseAlgorithm (firstn i s) in
      match optAlgo with
      | Some o => if algo_eqb a o then parse_rest a true isSRI (skipn (S i) s)
                  else Err (EMsg "algo doesn't match expected algo")
      | None => parse_rest a true isSRI (skipn (S i) s)
      end
  | None =>
      match optAlgo with
      | Some o => parse_rest o false isSRI s
      | None => Err (EMsg "unable to find separator")
      end
  end.

(** parse.go:89-100 ParseNixBase32. *)
Definition ParseNixBase32 (s : bytes) : res hash :=
  let* h := ParseAny s None in
  match he_enc h with
  | NixBase32 => Ok (he_hash h)
  | _ => Err (EMsg "expected NixBase32 encoding")
  end.

(** parse.go:103-110 MustParseNixBase32. *)
Definition MustParseNixBase32 (s : bytes) : res hash := must (ParseNixBase32 s).

(** util.go:8-15 CompressHash: loop over i, buf[i%outputSize] ^= input[i].
    outputSize 0 with a non-empty input divides by zero. *)
Fixpoint compress_loop (input : bytes) (i size : nat) (buf : bytes) : bytes :=
  match input with
  | [] => buf
  | b :: input' => compress_loop input' (S i) size (upd buf (i mod size) (fun x => byte_xor x b))
  end.
(** util.go:8-15. *)
Definition CompressHash (input : bytes) (outputSize : nat) : res bytes :=
  match outputSize, input with
  | O, _ :: _ => Panic "integer divide by zero"
  | _, _ => Ok (compress_loop input 0 outputSize (repeat x00 outputSize))
  end.
