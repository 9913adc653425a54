(** Specification vocabulary for the nixhash properties (C14-C18). *)
From Verif Require Import Base.Bytes Model.GoStd Model.Nixhash.

(** Digest sizes of the four known algorithms (RFC 1321, FIPS 180-4), in bytes. *)
Definition digest_size (a : algo) : option nat :=
  match a with
  | MD5 => Some 16 | SHA1 => Some 20 | SHA256 => Some 32 | SHA512 => Some 64
  | ABad _ => None
  end.
Definition algo_name (a : algo) : bytes :=
  match a with
  | MD5 => bs "md5" | SHA1 => bs "sha1" | SHA256 => bs "sha256" | SHA512 => bs "sha512"
  | ABad _ => []
  end.
Definition known_encoding (e : encoding) : bool := match e with EBad _ => false | _ => true end.
Definition is_SRI (e : encoding) : bool := match e with SRI => true | _ => false end.

(** A hash with a digest of the size its algorithm demands. *)
Definition wf_hash (h : hash) : Prop := digest_size (h_algo h) = Some (length (h_digest h)).

(** What stands before the digest text. *)
Definition hash_prefix (a : algo) (e : encoding) (incl : bool) : bytes :=
  if is_SRI e then algo_name a ++ bs "-"
  else if incl then algo_name a ++ bs ":" else [].

(** Canonical spellings of the digest text. *)
Definition is_upper_hex (c : byte) : bool := existsb (byte_eqb c) (bs "ABCDEF").
(** No line breaks inside, and the bits that padding leaves over are zero. *)
Fixpoint b64_spare_bits_zero (s : bytes) : Prop :=
  match s with
  | [a; b; c; d] =>
      (d = "="%byte -> if byte_eqb c "="%byte then forall v, b64_val b = Some v -> (v mod 16 = 0)%N
                       else forall v, b64_val c = Some v -> (v mod 4 = 0)%N)
  | a :: b :: c :: d :: s' => b64_spare_bits_zero s'
  | _ => True
  end.
Definition canonical_text (e : encoding) (s : bytes) : Prop :=
  match e with
  | Base16 => Forall (fun c => is_upper_hex c = false) s
  | Base64 | SRI => Forall (fun c => c <> x0a /\ c <> x0d) s /\ b64_spare_bits_zero s
  | _ => True
  end.

(** The XOR of the bytes of [input] at the positions congruent to [i] modulo [n]. *)
Definition byte_lxor (a b : byte) : byte := n2b (N.lxor (b2n a) (b2n b)).
Definition xor_fold (input : bytes) (n i : nat) : byte :=
  fold_right byte_lxor x00
    (map (fun k => nth k input x00) (filter (fun k => k mod n =? i) (seq 0 (length input)))).
Fixpoint xor_bytes (a b : bytes) : bytes :=
  match a, b with x :: a', y :: b' => byte_lxor x y :: xor_bytes a' b' | _, _ => [] end.
