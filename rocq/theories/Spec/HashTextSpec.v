(** What the texts of hashes, signatures and keys mean (C126, C45): base 16 and
    base 64, written down without reference to a decoder. *)
From Verif Require Import Base.Bytes Model.Nixhash Spec.Base32Spec Spec.HashSpec.

(** * Base 16, in either case *)
Definition nibble (c : byte) (v : N) : Prop :=
  nth_error (bs "0123456789abcdef") (N.to_nat v) = Some c \/ nth_error (bs "0123456789ABCDEF") (N.to_nat v) = Some c.
Inductive hex_text : bytes -> bytes -> Prop :=
| ht_nil : hex_text [] []
| ht_byte a b x y c t d : nibble a x -> nibble b y -> b2n c = (16 * x + y)%N -> hex_text t d -> hex_text (a :: b :: t) (c :: d).

(** * Base 64 (RFC 4648, section 4) *)
Definition b64_digits : bytes := bs "ABCDEFGHIJKLMNOPQRSTUVWXYZabcdefghijklmnopqrstuvwxyz0123456789+/".
(** The number a string of digits denotes, most significant digit first. *)
Inductive b64_value : bytes -> N -> Prop :=
| b6_nil : b64_value [] 0
| b6_snoc s v c d : b64_value s v -> nth_error b64_digits (N.to_nat d) = Some c -> b64_value (s ++ [c]) (64 * v + d).
(** The number a string of bytes denotes, most significant byte first. *)
Definition be_value (b : bytes) : N := fold_left (fun v x => 256 * v + b2n x)%N b 0%N.
Definition unbroken (t : bytes) : bytes := filter (fun c => negb (byte_eqb c x0a || byte_eqb c x0d)) t.
(** Line breaks apart, digits and up to two "=" to fill the last group of four;
    each "=" stands for two bits of the last digit that are not looked at. *)
Definition b64_text (t d : bytes) : Prop :=
  exists digits pad v, unbroken t = digits ++ repeat "="%byte pad /\ pad <= 2 /\ b64_value digits v /\
    6 * length digits = 8 * length d + 2 * pad /\ be_value d = (v / 4 ^ N.of_nat pad)%N.

(** * Hashes *)
(** [text] stands for [digest], of [n] bytes, in the encoding [e].  In base 64
    only the length of the text is tied to [n]. *)
Definition digest_text (e : encoding) (n : nat) (text digest : bytes) : Prop :=
  match e with
  | Base16 => hex_text text digest /\ length digest = n
  | NixBase32 => b32_form text digest /\ length digest = n
  | Base64 | SRI => b64_text text digest /\ length text = 4 * ((n + 2) / 3)
  | EBad _ => False
  end.
(** [s] says [h]: "<algo>:<text>", "<algo>-<base64>", or only the text where the
    algorithm is known from elsewhere. *)
Definition hash_says (s : bytes) (known : option algo) (h : hash_enc) : Prop :=
  let a := h_algo (he_hash h) in
  exists n text, digest_size a = Some n /\ digest_text (he_enc h) n text (h_digest (he_hash h)) /\
    (known = None \/ known = Some a) /\
    ((he_incl h = true /\ he_enc h <> SRI /\ s = algo_name a ++ bs ":" ++ text) \/
     (he_incl h = true /\ he_enc h = SRI /\ s = algo_name a ++ bs "-" ++ text) \/
     (he_incl h = false /\ he_enc h <> SRI /\ s = text /\ known = Some a)).
