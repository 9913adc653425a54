(** Independent specification of Nix base 32: the bytes are read as one
    little-endian number, which is written in base 32, most significant digit
    first, with the fixed alphabet and the fixed number of digits. *)
From Verif Require Import Base.Bytes.

Definition b32_alphabet : bytes := bs "0123456789abcdfghijklmnpqrsvwxyz".

(** The little-endian value of a byte string. *)
Fixpoint le_value (b : bytes) : N :=
  match b with [] => 0 | x :: b' => b2n x + 256 * le_value b' end%N.

(** [is_digit c d]: the character c stands for the digit d. *)
Definition is_digit (c : byte) (d : N) : Prop := nth_error b32_alphabet (N.to_nat d) = Some c.

(** [b32_value s v]: s, most significant digit first, denotes v. *)
Inductive b32_value : bytes -> N -> Prop :=
| bv_nil : b32_value [] 0
| bv_snoc s v c d : b32_value s v -> is_digit c d -> b32_value (s ++ [c]) (32 * v + d).

(** n characters are just enough for m bytes. *)
Definition min_chars (m n : nat) : Prop := 8 * m <= 5 * n /\ forall k, 8 * m <= 5 * k -> n <= k.

(** s is the base 32 form of b. *)
Definition b32_form (s b : bytes) : Prop :=
  min_chars (length b) (length s) /\ b32_value s (le_value b).
