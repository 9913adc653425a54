(** JSON texts: RFC 8259, with UTF-8 as of RFC 3629, for C88-C94.
    [jtext lax v t]: the text [t] stands for the value [v].  With [lax = false]
    this is the RFC's grammar, for texts that are UTF-8 and whose \u escapes are
    not lone surrogates.  With [lax = true], what is not Unicode is a text too: a
    byte that starts no character, or half a surrogate pair, stands for U+FFFD, as
    Go's decoder reads it. *)
From Coq Require Import Permutation.
From Verif Require Import Base.Bytes Base.BytesFacts Model.Derivation Model.NarLs Model.Json.

(** * Characters *)
(** Code points that are not surrogates. *)
Definition scalar (c : N) : Prop := (c < 55296 \/ (57343 < c /\ c < 1114112))%N.
(** Their UTF-8 encodings (RFC 3629, section 3), x, y, z, u: groups of six bits. *)
Inductive utf8 : N -> bytes -> Prop :=
| utf8_1 c : (c < 128)%N -> utf8 c [n2b c]
| utf8_2 y x : (y < 32 -> x < 64 -> 128 <= y * 64 + x -> utf8 (y * 64 + x) [n2b (192 + y); n2b (128 + x)])%N
| utf8_3 z y x : (z < 16 -> y < 64 -> x < 64 -> 2048 <= z * 4096 + y * 64 + x -> scalar (z * 4096 + y * 64 + x) ->
    utf8 (z * 4096 + y * 64 + x) [n2b (224 + z); n2b (128 + y); n2b (128 + x)])%N
| utf8_4 u z y x : (u < 8 -> z < 64 -> y < 64 -> x < 64 -> 65536 <= u * 262144 + z * 4096 + y * 64 + x -> scalar (u * 262144 + z * 4096 + y * 64 + x) ->
    utf8 (u * 262144 + z * 4096 + y * 64 + x) [n2b (240 + u); n2b (128 + z); n2b (128 + y); n2b (128 + x)])%N.
(** A string that is the UTF-8 encoding of some code points. *)
Inductive is_utf8 : bytes -> Prop :=
| iu_nil : is_utf8 []
| iu_cons c b s : utf8 c b -> is_utf8 s -> is_utf8 (b ++ s).
Definition replacement : bytes := [xef; xbf; xbd].     (* U+FFFD *)
(** The string with every byte that starts no character replaced by U+FFFD. *)
Inductive repaired : bytes -> bytes -> Prop :=
| rp_nil : repaired [] []
| rp_char c b s s' : utf8 c b -> repaired s s' -> repaired (b ++ s) (b ++ s')
| rp_byte x s s' : (forall c b r, utf8 c b -> x :: s <> b ++ r) -> repaired s s' -> repaired (x :: s) (replacement ++ s').

Definition hexes : list (byte * N) :=
  map (fun p => (fst p, N.of_nat (snd p)))
    (combine (bs "0123456789abcdef") (seq 0 16) ++ combine (bs "ABCDEF") (seq 10 6)).
(** Four hexadecimal digits. *)
Inductive hex_quad : N -> bytes -> Prop :=
| hq a b c d va vb vc vd : In (a, va) hexes -> In (b, vb) hexes -> In (c, vc) hexes -> In (d, vd) hexes ->
    hex_quad (((va * 16 + vb) * 16 + vc) * 16 + vd)%N [a; b; c; d].
Definition short_escapes : list (byte * byte) :=
  [(x22, x22); ("\"%byte, "\"%byte); ("/"%byte, "/"%byte); ("b"%byte, x08); ("f"%byte, x0c); ("n"%byte, x0a); ("r"%byte, x0d); ("t"%byte, x09)].
(** [jchar s t]: in a string, the text t stands for the (UTF-8 encoded) character s. *)
Inductive jchar : bytes -> bytes -> Prop :=
| jc_plain c b : utf8 c b -> (32 <= c)%N -> c <> 34%N -> c <> 92%N -> jchar b b
| jc_short e c : In (e, c) short_escapes -> jchar [c] ["\"%byte; e]
| jc_hex c b q : hex_quad c q -> utf8 c b -> jchar b (bs "\u" ++ q)
| jc_pair h l b q1 q2 : hex_quad (55296 + h) q1 -> hex_quad (56320 + l) q2 -> (h < 1024)%N -> (l < 1024)%N ->
    utf8 (65536 + h * 1024 + l) b -> jchar b (bs "\u" ++ q1 ++ bs "\u" ++ q2).
(** A byte above 127 with which no character of the text starts, and an escape
    that is half of a surrogate pair without the other half. *)
Definition stray_byte (c : byte) (t : bytes) : Prop := (128 <= b2n c)%N /\ forall n b r, utf8 n b -> c :: t <> b ++ r.
Definition stray_half (c : N) (t : bytes) : Prop :=
  ~ scalar c /\ forall h l q r, (h < 1024)%N -> (l < 1024)%N -> hex_quad (56320 + l) q -> c = (55296 + h)%N -> t <> bs "\u" ++ q ++ r.
Inductive jchars (lax : bool) : bytes -> bytes -> Prop :=
| jcs_nil : jchars lax [] []
| jcs_cons s t s' t' : jchar s t -> jchars lax s' t' -> jchars lax (s ++ s') (t ++ t')
| jcs_byte c s' t' : lax = true -> stray_byte c t' -> jchars lax s' t' -> jchars lax (replacement ++ s') (c :: t')
| jcs_half c q s' t' : lax = true -> hex_quad c q -> stray_half c t' -> jchars lax s' t' -> jchars lax (replacement ++ s') (bs "\u" ++ q ++ t').
Definition jstring (lax : bool) (s t : bytes) : Prop := exists u, jchars lax s u /\ t = [x22] ++ u ++ [x22].

(** * Numbers *)
Definition digits (t : bytes) : Prop := t <> [] /\ Forall (fun c => In c (bs "0123456789")) t.
Inductive jint : bytes -> Prop :=
| ji_zero : jint (bs "0")
| ji_pos c t : In c (bs "123456789") -> Forall (fun c => In c (bs "0123456789")) t -> jint (c :: t).
Inductive jfrac : bytes -> Prop :=
| jf_none : jfrac []
| jf_some t : digits t -> jfrac (bs "." ++ t).
Inductive jexp : bytes -> Prop :=
| je_none : jexp []
| je_some e sg t : In e (bs "eE") -> In sg [[]; bs "+"; bs "-"] -> digits t -> jexp (e :: sg ++ t).
Definition jnumber (t : bytes) : Prop :=
  exists sg i f e, In sg [[]; bs "-"] /\ jint i /\ jfrac f /\ jexp e /\ t = sg ++ i ++ f ++ e.

(** * Values *)
Definition white (t : bytes) : Prop := Forall (fun c => In c [x20; x09; x0a; x0d]) t.
Inductive jvalue (lax : bool) : jv -> bytes -> Prop :=
| jt_null : jvalue lax JNull (bs "null")
| jt_true : jvalue lax (JBool true) (bs "true")
| jt_false : jvalue lax (JBool false) (bs "false")
| jt_num t : jnumber t -> jvalue lax (JNum t) t
| jt_str s t : jstring lax s t -> jvalue lax (JStr s) t
| jt_arr0 w : white w -> jvalue lax (JArr []) (bs "[" ++ w ++ bs "]")
| jt_arr l t : jelems lax l t -> jvalue lax (JArr l) (bs "[" ++ t ++ bs "]")
| jt_obj0 w : white w -> jvalue lax (JObj []) (bs "{" ++ w ++ bs "}")
| jt_obj l t : jmembers lax l t -> jvalue lax (JObj l) (bs "{" ++ t ++ bs "}")
with jelems (lax : bool) : list jv -> bytes -> Prop :=
| jl_one w1 v t w2 : white w1 -> jvalue lax v t -> white w2 -> jelems lax [v] (w1 ++ t ++ w2)
| jl_cons w1 v t w2 l t' : white w1 -> jvalue lax v t -> white w2 -> jelems lax l t' -> jelems lax (v :: l) (w1 ++ t ++ w2 ++ bs "," ++ t')
with jmembers (lax : bool) : list (bytes * jv) -> bytes -> Prop :=
| jm_one w1 k tk w2 w3 v t w4 : white w1 -> jstring lax k tk -> white w2 -> white w3 -> jvalue lax v t -> white w4 ->
    jmembers lax [(k, v)] (w1 ++ tk ++ w2 ++ bs ":" ++ w3 ++ t ++ w4)
| jm_cons w1 k tk w2 w3 v t w4 l t' : white w1 -> jstring lax k tk -> white w2 -> white w3 -> jvalue lax v t -> white w4 ->
    jmembers lax l t' -> jmembers lax ((k, v) :: l) (w1 ++ tk ++ w2 ++ bs ":" ++ w3 ++ t ++ w4 ++ bs "," ++ t').
Definition jtext (lax : bool) (v : jv) (t : bytes) : Prop :=
  exists w1 u w2, white w1 /\ jvalue lax v u /\ white w2 /\ t = w1 ++ u ++ w2.
(** How deep arrays and objects are nested. *)
Fixpoint nesting (v : jv) : nat :=
  match v with
  | JArr l => S (list_max (map nesting l))
  | JObj l => S (list_max (map (fun p => nesting (snd p)) l))
  | _ => 0
  end.

(** * Derivations *)
(** The value with its strings and keys repaired. *)
Inductive jrepaired : jv -> jv -> Prop :=
| jr_null : jrepaired JNull JNull
| jr_bool b : jrepaired (JBool b) (JBool b)
| jr_num t : jrepaired (JNum t) (JNum t)
| jr_str s s' : repaired s s' -> jrepaired (JStr s) (JStr s')
| jr_arr l l' : Forall2 jrepaired l l' -> jrepaired (JArr l) (JArr l')
| jr_obj l l' : Forall2 (fun p q => repaired (fst p) (fst q) /\ jrepaired (snd p) (snd q)) l l' -> jrepaired (JObj l) (JObj l').
(** A list of strings is an array; a nil one may be null.  A map is an object
    with the keys in order; a nil one may be null. *)
Definition json_strings (l : list bytes) (j : jv) : Prop := j = JArr (map JStr l) \/ (l = [] /\ j = JNull).
Definition json_map {A} (f : A -> jv -> Prop) (m : amap A) (j : jv) : Prop :=
  (exists m' l, Permutation m m' /\ strictly_sorted (map fst m') /\ Forall2 (fun p q => fst q = fst p /\ f (snd p) (snd q)) m' l /\ j = JObj l) \/
  (m = [] /\ j = JNull).
Definition optional (k : string) (s : bytes) : list (bytes * jv) := if bytes_eq_dec s [] then [] else [(bs k, JStr s)].
Definition json_output (o : output) (j : jv) : Prop :=
  j = JObj ([(bs "path", JStr (o_path o))] ++ optional "hashAlgo" (o_algo o) ++ optional "hash" (o_hash o)).
(** The object nix show-derivation prints for a derivation. *)
Definition json_of (d : drv) (j : jv) : Prop :=
  exists outputs srcs inputs args env,
    json_map json_output (d_outputs d) outputs /\ json_strings (d_srcs d) srcs /\ json_map json_strings (d_inputs d) inputs /\
    json_strings (d_args d) args /\ json_map (fun s v => v = JStr s) (d_env d) env /\
    j = JObj [(bs "outputs", outputs); (bs "inputSrcs", srcs); (bs "inputDrvs", inputs); (bs "system", JStr (d_platform d));
              (bs "builder", JStr (d_builder d)); (bs "args", args); (bs "env", env)].
(** The value printed for a slice or map is null exactly if that is nil (a nil one is empty). *)
Definition null_iff {A} (j : jv) (is_nil : bool) (l : list A) : Prop := j = JNull <-> is_nil = true /\ l = [].
(** All the strings of a derivation are UTF-8. *)
Definition drv_utf8 (d : drv) : Prop :=
  Forall (fun p => is_utf8 (fst p) /\ is_utf8 (o_path (snd p)) /\ is_utf8 (o_algo (snd p)) /\ is_utf8 (o_hash (snd p))) (d_outputs d) /\
  Forall is_utf8 (d_srcs d) /\ Forall (fun p => is_utf8 (fst p) /\ Forall is_utf8 (snd p)) (d_inputs d) /\
  is_utf8 (d_platform d) /\ is_utf8 (d_builder d) /\ Forall is_utf8 (d_args d) /\
  Forall (fun p => is_utf8 (fst p) /\ is_utf8 (snd p)) (d_env d).
(** Two spaces for every open bracket. *)
Fixpoint margin (depth : nat) : bytes := match depth with O => [] | S k => bs "  " ++ margin k end.
Definition new_line (depth : nat) : bytes := [x0a] ++ margin depth.
Fixpoint between (sep : bytes) (l : list bytes) : bytes :=
  match l with
  | [] => []
  | x :: l' => x ++ match l' with [] => [] | _ => sep ++ between sep l' end
  end.
(** The usual layout: every element and member on a line of its own; [quote]
    is what a string is written as. *)
Fixpoint laid_out (quote : bytes -> bytes) (depth : nat) (v : jv) : bytes :=
  match v with
  | JNull => bs "null"
  | JBool b => if b then bs "true" else bs "false"
  | JNum t => t
  | JStr s => quote s
  | JArr [] => bs "[]"
  | JArr l => bs "[" ++ new_line (S depth) ++ between (bs "," ++ new_line (S depth)) (map (laid_out quote (S depth)) l) ++ new_line depth ++ bs "]"
  | JObj [] => bs "{}"
  | JObj l => bs "{" ++ new_line (S depth) ++
      between (bs "," ++ new_line (S depth)) (map (fun p => quote (fst p) ++ bs ": " ++ laid_out quote (S depth) (snd p)) l) ++ new_line depth ++ bs "}"
  end.
(** On one line, without any space. *)
Fixpoint tight (quote : bytes -> bytes) (v : jv) : bytes :=
  match v with
  | JNull => bs "null"
  | JBool b => if b then bs "true" else bs "false"
  | JNum t => t
  | JStr s => quote s
  | JArr l => bs "[" ++ between (bs ",") (map (tight quote) l) ++ bs "]"
  | JObj l => bs "{" ++ between (bs ",") (map (fun p => quote (fst p) ++ bs ":" ++ tight quote (snd p)) l) ++ bs "}"
  end.
(** A way of writing strings. *)
Definition quoting (quote : bytes -> bytes) : Prop := forall s, exists s', repaired s s' /\ jstring false s' (quote s).
(** No null in it. *)
Inductive null_free : jv -> Prop :=
| nn_bool b : null_free (JBool b)
| nn_num t : null_free (JNum t)
| nn_str s : null_free (JStr s)
| nn_arr l : Forall null_free l -> null_free (JArr l)
| nn_obj l : Forall (fun p => null_free (snd p)) l -> null_free (JObj l).
(** Two derivations with the same fields; maps in any iteration order. *)
Definition same_fields (d d' : drv) : Prop :=
  Permutation (d_outputs d) (d_outputs d') /\ d_srcs d = d_srcs d' /\ Permutation (d_inputs d) (d_inputs d') /\ d_platform d = d_platform d' /\
  d_builder d = d_builder d' /\ d_args d = d_args d' /\ Permutation (d_env d) (d_env d').

(** * Objects read into structs *)
(** Keys are compared without regard to case; U+017F is an s and U+212A a k. *)
Fixpoint folded (k : bytes) : bytes :=
  match k with
  | [] => []
  | c :: r =>
      let plain := (if (65 <=? b2n c)%N && (b2n c <=? 90)%N then n2b (b2n c + 32) else c) :: folded r in
      match r with
      | [] => plain
      | d :: r1 =>
          if beq [c; d] [xc5; xbf] then "s"%byte :: folded r1
          else match r1 with
               | [] => plain
               | e :: r2 => if beq [c; d; e] [xe2; x84; xaa] then "k"%byte :: folded r2 else plain
               end
      end
  end.
(** The values of the members with that name, in order. *)
Definition named (f : string) (ms : list (bytes * jv)) : list jv := map snd (filter (fun p => beq (folded (fst p)) (folded (bs f))) ms).
Definition only_known (fields : list string) (ms : list (bytes * jv)) : Prop := Forall (fun p => exists f, In f fields /\ folded (fst p) = folded (bs f)) ms.
(** null is passed over; of the others, which must all be strings (booleans,
    integers), the last counts; without any, the zero value. *)
Definition given {A} (of : jv -> A -> Prop) (zero : A) (vs : list jv) (a : A) : Prop :=
  exists os, Forall2 (fun v o => match o with None => v = JNull | Some x => of v x end) vs os /\
    a = last (flat_map (fun o : option A => match o with None => [] | Some x => [x] end) os) zero.
Definition str_of (v : jv) (s : bytes) : Prop := v = JStr s.
Definition bool_of (v : jv) (b : bool) : Prop := v = JBool b.
(** Decimal digits and their value. *)
Fixpoint dec_val (acc : N) (t : bytes) : N := match t with [] => acc | c :: t' => dec_val (10 * acc + (b2n c - 48)) t' end.
Definition decimal (t : bytes) (n : N) : Prop := digits t /\ n = dec_val 0 t.
(** A number without fraction and exponent that fits in 64 bits. *)
Definition int_of (v : jv) (z : Z) : Prop :=
  exists t n, decimal t n /\ ((v = JNum t /\ z = Z.of_N n) \/ (v = JNum (bs "-" ++ t) /\ z = (- Z.of_N n)%Z)) /\ (- 2 ^ 63 <= z < 2 ^ 63)%Z.

(** * Listings (nar/ls) *)
(** A map got from several objects ([None]: a null, which drops what was there):
    the last value of each key. *)
Definition since_null {A} (gs : list (option (list A))) : list A :=
  fold_left (fun acc g => match g with None => [] | Some l => acc ++ l end) gs [].
Definition last_wins {A} (l m : list (bytes * A)) : Prop :=
  NoDup (map fst m) /\ forall k x, In (k, x) m <-> exists a b, l = a ++ (k, x) :: b /\ ~ In k (map fst b).
Definition node_names : list string := ["type"; "entries"; "size"; "target"; "executable"; "narOffset"]%string.
Inductive node_of : jv -> lnode -> Prop :=
| no_null : node_of JNull (LNode [] [] 0 [] false 0)
| no_obj ms ty gs es size target exec off :
    only_known node_names ms ->
    given str_of [] (named "type" ms) ty -> given int_of 0%Z (named "size" ms) size -> given str_of [] (named "target" ms) target ->
    given bool_of false (named "executable" ms) exec -> given int_of 0%Z (named "narOffset" ms) off ->
    Forall2 group_of (named "entries" ms) gs -> last_wins (since_null gs) es ->
    node_of (JObj ms) (LNode ty es size target exec off)
with group_of : jv -> option (list (bytes * option lnode)) -> Prop :=
| go_null : group_of JNull None
| go_obj l l' : Forall2 (fun p q => fst q = fst p /\ entry_of (snd p) (snd q)) l l' -> group_of (JObj l) (Some l')
with entry_of : jv -> option lnode -> Prop :=
| eo_null : entry_of JNull None
| eo_node v n : v <> JNull -> node_of v n -> entry_of v (Some n).
(** The listing an object stands for.  Several members "root" are read one after
    the other into the same node. *)
Definition listing_of (v : jv) (root : lroot) : Prop :=
  exists ms, v = JObj ms /\ only_known ["version"; "root"]%string ms /\ given int_of 0%Z (named "version" ms) (lversion root) /\
    Forall (fun v => v = JNull \/ exists l, v = JObj l) (named "root" ms) /\
    node_of (JObj (flat_map (fun v => match v with JObj l => l | _ => [] end) (named "root" ms))) (lroot_node root).
(** The name in an object of structured attributes. *)
Definition attr_name (v : jv) (n : bytes) : Prop := exists ms, v = JObj ms /\ given str_of [] (named "name" ms) n.
