(** Model of /repo/pkg/nixbase32/nixbase32.go. *)
From Verif Require Import Base.Bytes.

(** nixbase32.go:21 Alphabet. *)
Definition Alphabet : bytes := bs "0123456789abcdfghijklmnpqrsvwxyz".

(** nixbase32.go:98-100, 106-108. *)
Definition EncodedLen (n : nat) : nat := (n * 8 + 4) / 5.
(** nixbase32.go:106-108. *)
Definition DecodedLen (n : nat) : nat := (n * 5) / 8.

(** byte-typed shifts: x << j and x >> j on a Go byte (shifting by 8 or more
    gives 0, truncation to 8 bits).  nixbase32.go:35-67, 112-128. *)
Definition byte_shl (x : byte) (j : nat) : byte := n2b (N.shiftl (b2n x) (N.of_nat j)).
(** nixbase32.go:35-67, 112-128. *)
Definition byte_shr (x : byte) (j : nat) : byte := n2b (N.shiftr (b2n x) (N.of_nat j)).
(** nixbase32.go:35-67, 112-128. *)
Definition byte_or (x y : byte) : byte := n2b (N.lor (b2n x) (b2n y)).
(** nixbase32.go:35-67, 112-128. *)
Definition byte_and (x y : byte) : byte := n2b (N.land (b2n x) (b2n y)).
(** nixbase32.go:35-67, 112-128. *)
Definition byte_xor (x y : byte) : byte := n2b (N.lxor (b2n x) (b2n y)).

(** dst[i] |= v; out of range is a Go panic, checked by the callers.
    nixbase32.go:35-67. *)
Fixpoint upd (l : bytes) (i : nat) (f : byte -> byte) : bytes :=
  match l, i with
  | [], _ => []
  | x :: l', O => f x :: l'
  | x :: l', S i' => x :: upd l' i' f
  end.

(** One pass of the loop body of Decode, nixbase32.go:38-64, for loop variable
    [n]; [maxDst] is maxDstSize.  [inl dst'] continues, [inr] returns: the
    count i and the error, or a panic for an out-of-range dst[i+1]. *)
Definition decode_step (src : bytes) (maxDst : nat) (dst : bytes) (n : nat)
  : bytes + (res nat * bytes) :=
  let b := n * 5 in
  let i := b / 8 in
  let j := b mod 8 in
  match nth_error src (length src - n - 1) with
  | None => inr (Panic "index out of range", dst)
  | Some c =>
      match index_byte Alphabet c with
      | None => inr (Err (EMsg "character not in Nix alphabet"), dst)
      | Some digit =>
          if length dst <=? i then inr (Err (EMsg "ErrInvalidHash"), dst)
          else
            let d := n2b (N.of_nat digit) in
            let dst1 := upd dst i (fun x => byte_or x (byte_shl d j)) in
            let carry := byte_shr d (8 - j) in
            if i + 1 <? maxDst then
              if i + 1 <? length dst1 then inl (upd dst1 (i + 1) (fun x => byte_or x carry))
              else inr (Panic "index out of range", dst1)
            else if negb (byte_eqb carry x00) then inr (Err (EMsg "non-zero padding"), dst1)
            else inl dst1
      end
  end.

(** The for loop, [k] iterations left starting at [n].  nixbase32.go:35-67. *)
Fixpoint decode_loop (src : bytes) (maxDst : nat) (k n : nat) (dst : bytes) : res nat * bytes :=
  match k with
  | O => (Ok maxDst, dst)
  | S k' =>
      match decode_step src maxDst dst n with
      | inl dst' => decode_loop src maxDst k' (S n) dst'
      | inr r => r
      end
  end.

(** nixbase32.go:35-67 Decode(dst, src): the result and the new contents of dst.
    (On an error the Go code also returns the index i; callers only use it to
    re-slice a buffer they then discard.) *)
Definition Decode (dst src : bytes) : res nat * bytes :=
  decode_loop src (DecodedLen (length src)) (length src) 0 dst.

(** nixbase32.go:25-30 DecodeString. *)
Definition DecodeString (s : bytes) : res bytes :=
  let '(r, dst) := Decode (repeat x00 (DecodedLen (length s))) s in
  let* n := r in Ok (firstn n dst).

(** nixbase32.go:73-91 the loop of ValidateString. *)
Fixpoint validate_loop (src : bytes) (maxDst : nat) (k n : nat) : res unit :=
  match k with
  | O => Ok tt
  | S k' =>
      let b := n * 5 in
      let i := b / 8 in
      let j := b mod 8 in
      match nth_error src (length src - n - 1) with
      | None => Panic "index out of range"
      | Some c =>
          match index_byte Alphabet c with
          | None => Err (EMsg "character not in Nix alphabet")
          | Some digit =>
              let carry := byte_shr (n2b (N.of_nat digit)) (8 - j) in
              if (maxDst <=? i + 1) && negb (byte_eqb carry x00)
              then Err (EMsg "non-zero padding")
              else validate_loop src maxDst k' (S n)
          end
      end
  end.

(** nixbase32.go:70-94 ValidateString. *)
Definition ValidateString (src : bytes) : res unit :=
  validate_loop src (DecodedLen (length src)) (length src) 0.

(** nixbase32.go:139-148: the character emitted for loop variable [n];
    an out-of-range src[i] would be a panic, but Go's i is always in range
    (proved: [enc_index_in_range]). *)
Definition encode_char (src : bytes) (n : nat) : byte :=
  let b := n * 5 in
  let i := b / 8 in
  let j := b mod 8 in
  let c := byte_shr (nth i src x00) j in
  let c := if i + 1 <? length src then byte_or c (byte_shl (nth (i + 1) src x00) (8 - j)) else c in
  nth (N.to_nat (b2n (byte_and c x1f))) Alphabet x00.

(** The loop for n = k-1 downto 0.  nixbase32.go:112-128. *)
Fixpoint encode_loop (src : bytes) (k : nat) : bytes :=
  match k with
  | O => []
  | S n => encode_char src n :: encode_loop src n
  end.

(** nixbase32.go:131-152 EncodeToString. *)
Definition EncodeToString (src : bytes) : bytes := encode_loop src (EncodedLen (length src)).

(** nixbase32.go:112-128 Encode(dst, src): the new contents of dst.  [capacity]
    is cap(dst) with dst = the first len(dst) bytes; dst[:0:n] panics when
    n > cap(dst).  The appended bytes land in dst's backing array. *)
Definition Encode (dst src : bytes) : res bytes :=
  let n := EncodedLen (length src) in
  if length dst <? n then Panic "slice bounds out of range"
  else Ok (EncodeToString src ++ skipn n dst).

(** nixbase32.go:155-158 Is. *)
Definition Is (c : byte) : bool :=
  let n := b2n c in
  ((48 <=? n)%N && (n <=? 57)%N) ||
  ((97 <=? n)%N && (n <=? 122)%N &&
   negb (N.eqb n 101) && negb (N.eqb n 111) && negb (N.eqb n 117) && negb (N.eqb n 116)).
