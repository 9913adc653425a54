(** Model of the parts of Go's encoding/json (and unicode/utf8) that the
    repository uses: json.NewEncoder(os.Stdout).Encode of a *Derivation
    (cmd/gonix/drv/cmd.go:35-41, the struct tags of pkg/derivation/derivation.go:23-39
    and output.go:8-10), json.Unmarshal of the "__json" variable
    (pkg/derivation/parser.go:264-268) and the Decoder of pkg/nar/ls/list.go:76-79
    (struct tags list.go:13-24).

    The library is modelled by what it computes.  Decoding is modelled as
    parsing into a value and storing the value in the Go variable; the library
    checks the syntax first and then does both at once.  It goes on after a
    value of the wrong type and reports the first such error at the end; here
    decoding stops, which makes no difference, since neither caller looks at the
    variable after an error.  Error texts are not modelled. *)
From Verif Require Import Base.Bytes Model.GoIO Model.GoStd Model.Derivation Model.NarLs.

(** * unicode/utf8 *)
(** (encoding/json, called at drv/cmd.go:35-41 and nar/ls/list.go:76-79.) *)
Definition runeError : N := 65533.
(** (encoding/json, called at drv/cmd.go:35-41 and nar/ls/list.go:76-79.) *)
Definition inr_ (lo hi : N) (b : byte) : bool := (lo <=? b2n b)%N && (b2n b <=? hi)%N.
(** utf8.DecodeRuneInString: the rune and its width; (U+FFFD, 1) for a byte that
    starts no valid encoding.
    (encoding/json, called at drv/cmd.go:35-41 and nar/ls/list.go:76-79.) *)
Definition decode_rune (s : bytes) : N * nat :=
  match s with
  | [] => (runeError, 0)
  | b0 :: r0 =>
      let n0 := b2n b0 in
      if (n0 <? 128)%N then (n0, 1)
      else match r0 with
      | [] => (runeError, 1)
      | b1 :: r1 =>
          let n1 := b2n b1 in
          if inr_ 194 223 b0 then
            if inr_ 128 191 b1 then ((n0 - 192) * 64 + (n1 - 128), 2%nat)%N else (runeError, 1)
          else match r1 with
          | [] => (runeError, 1)
          | b2 :: r2 =>
              let n2 := b2n b2 in
              if inr_ 224 239 b0 then
                if inr_ (if (n0 =? 224)%N then 160 else 128) (if (n0 =? 237)%N then 159 else 191) b1 && inr_ 128 191 b2
                then ((n0 - 224) * 4096 + (n1 - 128) * 64 + (n2 - 128), 3%nat)%N else (runeError, 1)
              else match r2 with
              | [] => (runeError, 1)
              | b3 :: _ =>
                  if inr_ 240 244 b0 && inr_ (if (n0 =? 240)%N then 144 else 128) (if (n0 =? 244)%N then 143 else 191) b1 &&
                     inr_ 128 191 b2 && inr_ 128 191 b3
                  then ((n0 - 240) * 262144 + (n1 - 128) * 4096 + (n2 - 128) * 64 + (b2n b3 - 128), 4%nat)%N else (runeError, 1)
              end
          end
      end
  end.
(** utf8.EncodeRune of a code point that is not a surrogate.
    (encoding/json, called at nar/ls/list.go:76-79.) *)
Definition encode_rune (c : N) : bytes :=
  if (c <? 128)%N then [n2b c]
  else if (c <? 2048)%N then [n2b (192 + c / 64); n2b (128 + c mod 64)]
  else if (c <? 65536)%N then [n2b (224 + c / 4096); n2b (128 + c / 64 mod 64); n2b (128 + c mod 64)]
  else [n2b (240 + c / 262144); n2b (128 + c / 4096 mod 64); n2b (128 + c / 64 mod 64); n2b (128 + c mod 64)].

(** * JSON values.  Strings are Go strings; numbers are kept as their text. *)
(** (encoding/json, called at drv/cmd.go:35-41 and nar/ls/list.go:76-79.) *)
Inductive jv :=
| JNull
| JBool (b : bool)
| JNum (text : bytes)
| JStr (s : bytes)
| JArr (l : list jv)
| JObj (l : list (bytes * jv)).

(** * Encoding *)
(** (encoding/json, called at drv/cmd.go:35-41.) *)
Definition quote_c : byte := x22.
(** (encoding/json, called at drv/cmd.go:35-41.) *)
Definition back_c : byte := "\"%byte.
(** encode.go htmlSafeSet. *)
Definition html_safe (c : byte) : bool :=
  (32 <=? b2n c)%N && negb (existsb (byte_eqb c) [x22; "&"%byte; "<"%byte; ">"%byte; "\"%byte]).
(** Which maps and slices are nil, by the name of the field, and for the output
    names of an input derivation, by its path; a nil map or slice is empty.
    (Those of a derivation read from a text have no nil slices, and nil maps only
    if the text has fewer fields: parser.go:60-61, 68, 127, 132, 210.) *)
Record nils := Nils { nil_field : bytes -> bool; nil_names : bytes -> bool }.
Section Encode.
(** Since Go 1.22 backspace and form feed are written \b and \f. *)
Variable short : bool.
(** encode.go appendString with escapeHTML; one ASCII byte that is not safe.
    (encoding/json, called at drv/cmd.go:35-41.) *)
Definition esc_byte (c : byte) : bytes :=
  back_c ::
  (if byte_eqb c "\"%byte || byte_eqb c x22 then [c]
   else if byte_eqb c x0a then bs "n" else if byte_eqb c x0d then bs "r" else if byte_eqb c x09 then bs "t"
   else if short && byte_eqb c x08 then bs "b" else if short && byte_eqb c x0c then bs "f"
   else bs "u00" ++ [hex_char (b2n c / 16); hex_char (b2n c mod 16)]).
(** (encoding/json, called at drv/cmd.go:35-41.) *)
Fixpoint enc_chars (fuel : nat) (s : bytes) : bytes :=
  match fuel with
  | O => []
  | S k =>
      match s with
      | [] => []
      | c :: s' =>
          if (b2n c <? 128)%N then (if html_safe c then [c] else esc_byte c) ++ enc_chars k s'
          else
            let '(r, n) := decode_rune s in
            (if (r =? runeError)%N && (n =? 1) then bs "\ufffd"
             else if (r =? 8232)%N || (r =? 8233)%N then bs "\u202" ++ [hex_char (r mod 16)]
             else firstn n s) ++ enc_chars k (skipn n s)
      end
  end.
(** (encoding/json, called at drv/cmd.go:35-41.) *)
Definition enc_string (s : bytes) : bytes := [quote_c] ++ enc_chars (length s) s ++ [quote_c].
(** (encoding/json, called at drv/cmd.go:35-41.) *)
Fixpoint sep_by (sep : bytes) (l : list bytes) : bytes :=
  match l with
  | [] => []
  | [x] => x
  | x :: l' => x ++ sep ++ sep_by sep l'
  end.
(** encode.go: the encoders of the types involved.  Object members are in the
    order of the struct's fields, or of the sorted keys (see [drv_json]).
    (encoding/json, called at drv/cmd.go:35-41.) *)
Fixpoint compact (v : jv) : bytes :=
  match v with
  | JNull => bs "null"
  | JBool b => if b then bs "true" else bs "false"
  | JNum t => t
  | JStr s => enc_string s
  | JArr l => bs "[" ++ sep_by (bs ",") (map compact l) ++ bs "]"
  | JObj l => bs "{" ++ sep_by (bs ",") (map (fun p => enc_string (fst p) ++ bs ":" ++ compact (snd p)) l) ++ bs "}"
  end.

(** indent.go appendIndent with an empty prefix and the indentation "  ": outside
    strings white space is dropped and spacing added.
    (encoding/json, called at drv/cmd.go:35-41.) *)
Fixpoint spaces (n : nat) : bytes := match n with O => [] | S k => x20 :: x20 :: spaces k end.
(** (encoding/json, called at drv/cmd.go:35-41.) *)
Definition newline (depth : nat) : bytes := x0a :: spaces depth.
(** (encoding/json, called at drv/cmd.go:35-41.) *)
Inductive in_string := Outside | Inside | Escaped.
(** (encoding/json, called at drv/cmd.go:35-41.) *)
Fixpoint indent (st : in_string) (need : bool) (depth : nat) (src : bytes) : bytes :=
  match src with
  | [] => []
  | c :: src' =>
      match st with
      | Inside => c :: indent (if byte_eqb c back_c then Escaped else if byte_eqb c quote_c then Outside else Inside) need depth src'
      | Escaped => c :: indent Inside need depth src'
      | Outside =>
          if byte_eqb c x20 || byte_eqb c x0a || byte_eqb c x0d || byte_eqb c x09 then indent Outside need depth src'
          else if byte_eqb c "}" || byte_eqb c "]" then
            if need then c :: indent Outside false depth src'
            else newline (depth - 1) ++ c :: indent Outside false (depth - 1) src'
          else
            let depth' := if need then S depth else depth in
            (if need then newline depth' else []) ++
            (if byte_eqb c "{" || byte_eqb c "[" then c :: indent Outside true depth' src'
             else if byte_eqb c "," then (c :: newline depth') ++ indent Outside false depth' src'
             else if byte_eqb c ":" then c :: x20 :: indent Outside false depth' src'
             else c :: indent (if byte_eqb c quote_c then Inside else Outside) false depth' src')
      end
  end.

(** encode.go mapEncoder and sliceEncoder: the members sorted by key; null if nil.
    (encoding/json, called at drv/cmd.go:35-41.) *)
Definition map_json {A} (nil : bool) (f : bytes -> A -> jv) (m : amap A) : jv :=
  match m with
  | [] => if nil then JNull else JObj []
  | _ => JObj (map (fun k => (k, match mget m k with Some x => f k x | None => JNull end)) (sort_strings (mkeys m)))
  end.
Definition strings_json (nil : bool) (l : list bytes) : jv :=
  match l with
  | [] => if nil then JNull else JArr []
  | _ => JArr (map JStr l)
  end.
(** output.go:7-11.  (A nil *Output, which no store returns, is not modelled.) *)
Definition output_json (o : output) : jv :=
  JObj ((bs "path", JStr (o_path o)) ::
        (match o_algo o with [] => [] | a => [(bs "hashAlgo", JStr a)] end) ++
        (match o_hash o with [] => [] | h => [(bs "hash", JStr h)] end)).
(** derivation.go:16-40; name is not exported. *)
Definition drv_json (nl : nils) (d : drv) : jv :=
  JObj [(bs "outputs", map_json (nil_field nl (bs "outputs")) (fun _ => output_json) (d_outputs d));
        (bs "inputSrcs", strings_json (nil_field nl (bs "inputSrcs")) (d_srcs d));
        (bs "inputDrvs", map_json (nil_field nl (bs "inputDrvs")) (fun p => strings_json (nil_names nl p)) (d_inputs d));
        (bs "system", JStr (d_platform d)); (bs "builder", JStr (d_builder d));
        (bs "args", strings_json (nil_field nl (bs "args")) (d_args d));
        (bs "env", map_json (nil_field nl (bs "env")) (fun _ => JStr) (d_env d))].
(** stream.go Encode, drv/cmd.go:35-41: one Write.  (The newline is appended
    before indenting, which keeps it.) *)
Definition Encode (nl : nils) (pretty : bool) (d : drv) (w : sink) : res unit * sink :=
  let t := compact (drv_json nl d) in
  let '(e, w') := wwrite_ ((if pretty then indent Outside false 0 t else t) ++ [x0a]) w in
  (match e with None => Ok tt | Some er => Err er end, w').
End Encode.

(** * Decoding *)
(** (encoding/json, called at nar/ls/list.go:76-79 and derivation/parser.go:264-268.) *)
Definition is_space (c : byte) : bool := byte_eqb c x20 || byte_eqb c x09 || byte_eqb c x0a || byte_eqb c x0d.
(** (encoding/json, called at nar/ls/list.go:76-79 and derivation/parser.go:264-268.) *)
Fixpoint skip_ws (t : bytes) : bytes :=
  match t with
  | c :: t' => if is_space c then skip_ws t' else t
  | [] => []
  end.
(** decode.go getu4, without the leading backslash and u.
    (encoding/json, called at nar/ls/list.go:76-79 and derivation/parser.go:264-268.) *)
Definition hex4 (t : bytes) : option (N * bytes) :=
  match t with
  | a :: b :: c :: d :: t' =>
      match hex_val a, hex_val b, hex_val c, hex_val d with
      | Some a, Some b, Some c, Some d => Some (a * 4096 + b * 256 + c * 16 + d, t')%N
      | _, _, _, _ => None
      end
  | _ => None
  end.
(** decode.go unquoteBytes: the escapes with one letter.
    (encoding/json, called at nar/ls/list.go:76-79 and derivation/parser.go:264-268.) *)
Definition escape_letter (e : byte) : option byte :=
  if byte_eqb e x22 || byte_eqb e "\" || byte_eqb e "/" then Some e
  else if byte_eqb e "b" then Some x08 else if byte_eqb e "f" then Some x0c
  else if byte_eqb e "n" then Some x0a else if byte_eqb e "r" then Some x0d
  else if byte_eqb e "t" then Some x09 else None.
(** (encoding/json, called at nar/ls/list.go:76-79 and derivation/parser.go:264-268.) *)
Definition is_high (r : N) : bool := (55296 <=? r)%N && (r <? 56320)%N.
(** (encoding/json, called at nar/ls/list.go:76-79 and derivation/parser.go:264-268.) *)
Definition is_low (r : N) : bool := (56320 <=? r)%N && (r <? 57344)%N.
(** The second half of a surrogate pair.
    (encoding/json, called at nar/ls/list.go:76-79 and derivation/parser.go:264-268.) *)
Definition low_half (t : bytes) : option (N * bytes) :=
  match t with
  | b :: u :: t' =>
      if byte_eqb b "\" && byte_eqb u "u" then
        match hex4 t' with
        | Some (r, t'') => if is_low r then Some (r, t'') else None
        | None => None
        end
      else None
  | _ => None
  end.
(** scanner.go stateInString..., decode.go unquoteBytes: the characters up to the closing quote.
    (encoding/json, called at nar/ls/list.go:76-79 and derivation/parser.go:264-268.) *)
Fixpoint dec_chars (fuel : nat) (t : bytes) : option (bytes * bytes) :=
  match fuel with
  | O => None
  | S k =>
      let emit (r : bytes) (t' : bytes) := match dec_chars k t' with Some (s, t'') => Some (r ++ s, t'') | None => None end in
      match t with
      | [] => None
      | c :: t' =>
          if byte_eqb c quote_c then Some ([], t')
          else if byte_eqb c back_c then
            match t' with
            | [] => None
            | e :: t2 =>
                if byte_eqb e "u" then
                  match hex4 t2 with
                  | None => None
                  | Some (r, t3) =>
                      if is_high r then
                        match low_half t3 with
                        | Some (r2, t4) => emit (encode_rune ((r - 55296) * 1024 + (r2 - 56320) + 65536)%N) t4
                        | None => emit (encode_rune runeError) t3
                        end
                      else if is_low r then emit (encode_rune runeError) t3
                      else emit (encode_rune r) t3
                  end
                else match escape_letter e with Some x => emit [x] t2 | None => None end
            end
          else if (b2n c <? 32)%N then None
          else let '(r, n) := decode_rune t in emit (encode_rune r) (skipn n t)
      end
  end.
(** (encoding/json, called at nar/ls/list.go:76-79 and derivation/parser.go:264-268.) *)
Definition is_digit (c : byte) : bool := inr_ 48 57 c.
(** (encoding/json, called at nar/ls/list.go:76-79 and derivation/parser.go:264-268.) *)
Fixpoint span_digits (t : bytes) : bytes * bytes :=
  match t with
  | c :: t' => if is_digit c then let '(a, b) := span_digits t' in (c :: a, b) else ([], t)
  | [] => ([], [])
  end.
(** scanner.go stateNeg, state0, state1, stateDot, stateE...: a number and what follows.
    (encoding/json, called at nar/ls/list.go:76-79 and derivation/parser.go:264-268.) *)
Definition dec_exp (t : bytes) : option (bytes * bytes) :=
  match t with
  | e :: t' =>
      if byte_eqb e "e" || byte_eqb e "E" then
        let '(sg, t2) := match t' with
                         | s :: t2 => if byte_eqb s "+" || byte_eqb s "-" then ([s], t2) else ([], t')
                         | [] => ([], t')
                         end in
        match span_digits t2 with
        | ([], _) => None
        | (ds, t3) => Some (e :: sg ++ ds, t3)
        end
      else Some ([], t)
  | [] => Some ([], t)
  end.
(** (encoding/json, called at nar/ls/list.go:76-79 and derivation/parser.go:264-268.) *)
Definition dec_frac (t : bytes) : option (bytes * bytes) :=
  match t with
  | d :: t' =>
      if byte_eqb d "." then
        match span_digits t' with
        | ([], _) => None
        | (ds, t2) => Some (d :: ds, t2)
        end
      else Some ([], t)
  | [] => Some ([], t)
  end.
(** (encoding/json, called at nar/ls/list.go:76-79 and derivation/parser.go:264-268.) *)
Definition dec_int (t : bytes) : option (bytes * bytes) :=
  match t with
  | c :: t' =>
      if byte_eqb c "0" then Some ([c], t')
      else match span_digits t with
           | ([], _) => None
           | (ds, t2) => Some (ds, t2)
           end
  | [] => None
  end.
(** (encoding/json, called at nar/ls/list.go:76-79 and derivation/parser.go:264-268.) *)
Definition dec_number (t : bytes) : option (bytes * bytes) :=
  let '(sg, t1) := match t with
                   | c :: t' => if byte_eqb c "-" then ([c], t') else ([], t)
                   | [] => ([], t)
                   end in
  match dec_int t1 with
  | None => None
  | Some (i, t2) =>
      match dec_frac t2 with
      | None => None
      | Some (f, t3) =>
          match dec_exp t3 with
          | None => None
          | Some (e, t4) => Some (sg ++ i ++ f ++ e, t4)
          end
      end
  end.
(** (encoding/json, called at nar/ls/list.go:76-79 and derivation/parser.go:264-268.) *)
Definition dec_word (w : string) (v : jv) (t : bytes) : option (jv * bytes) :=
  if has_prefix t (bs w) then Some (v, skipn (length (bs w)) t) else None.
(** encoding/json scanner.go, line 153: maxNestingDepth.
    (encoding/json, called at nar/ls/list.go:76-79 and derivation/parser.go:264-268.) *)
Definition max_depth : N := 10000.
(** A value, after white space, and what follows it; [d] containers are open.
    The fuel given by [parse_value] is proved to suffice.
    (encoding/json, called at nar/ls/list.go:76-79 and derivation/parser.go:264-268.) *)
Fixpoint dec_value (fuel : nat) (d : N) (t : bytes) {struct fuel} : option (jv * bytes) :=
  match fuel with
  | O => None
  | S k =>
      match skip_ws t with
      | [] => None
      | c :: t' =>
          if byte_eqb c quote_c then
            match dec_chars (S (length t')) t' with Some (s, r) => Some (JStr s, r) | None => None end
          else if byte_eqb c "[" then
            if (max_depth <=? d)%N then None
            else if match skip_ws t' with b :: _ => byte_eqb b "]" | [] => false end then Some (JArr [], tl (skip_ws t'))
            else match dec_elems k (d + 1) t' with Some (l, r) => Some (JArr l, r) | None => None end
          else if byte_eqb c "{" then
            if (max_depth <=? d)%N then None
            else if match skip_ws t' with b :: _ => byte_eqb b "}" | [] => false end then Some (JObj [], tl (skip_ws t'))
            else match dec_members k (d + 1) t' with Some (l, r) => Some (JObj l, r) | None => None end
          else if byte_eqb c "n" then dec_word "null" JNull (c :: t')
          else if byte_eqb c "t" then dec_word "true" (JBool true) (c :: t')
          else if byte_eqb c "f" then dec_word "false" (JBool false) (c :: t')
          else match dec_number (c :: t') with Some (n, r) => Some (JNum n, r) | None => None end
      end
  end
with dec_elems (fuel : nat) (d : N) (t : bytes) {struct fuel} : option (list jv * bytes) :=
  match fuel with
  | O => None
  | S k =>
      match dec_value k d t with
      | None => None
      | Some (v, t1) =>
          match skip_ws t1 with
          | [] => None
          | c :: t2 =>
              if byte_eqb c "," then match dec_elems k d t2 with Some (l, r) => Some (v :: l, r) | None => None end
              else if byte_eqb c "]" then Some ([v], t2)
              else None
          end
      end
  end
with dec_members (fuel : nat) (d : N) (t : bytes) {struct fuel} : option (list (bytes * jv) * bytes) :=
  match fuel with
  | O => None
  | S k =>
      match skip_ws t with
      | [] => None
      | q :: t0 =>
          if negb (byte_eqb q quote_c) then None else
          match dec_chars (S (length t0)) t0 with
          | None => None
          | Some (key, t1) =>
              match skip_ws t1 with
              | [] => None
              | c :: t2 =>
                  if negb (byte_eqb c ":") then None else
                  match dec_value k d t2 with
                  | None => None
                  | Some (v, t3) =>
                      match skip_ws t3 with
                      | [] => None
                      | c2 :: t4 =>
                          if byte_eqb c2 "," then match dec_members k d t4 with Some (l, r) => Some ((key, v) :: l, r) | None => None end
                          else if byte_eqb c2 "}" then Some ([(key, v)], t4)
                          else None
                      end
                  end
              end
          end
      end
  end.
(** (encoding/json, called at nar/ls/list.go:76-79 and derivation/parser.go:264-268.) *)
Definition parse_value (t : bytes) : option (jv * bytes) := dec_value (S (S (2 * length t))) 0 t.

(** fold.go: a key matches a field's name if they are equal up to case; U+017F
    folds to s and U+212A to k.
    (encoding/json, called at nar/ls/list.go:76-79 and derivation/parser.go:264-268.) *)
Definition lower (c : byte) : byte := if inr_ 65 90 c then n2b (b2n c + 32) else c.
(** (encoding/json, called at nar/ls/list.go:76-79 and derivation/parser.go:264-268.) *)
Fixpoint fold_match (name key : bytes) : bool :=
  match name, key with
  | [], [] => true
  | c :: name', k :: key' =>
      if byte_eqb (lower c) (lower k) then fold_match name' key'
      else if byte_eqb (lower c) "s" && has_prefix key [xc5; xbf] then fold_match name' (skipn 2 key)
      else if byte_eqb (lower c) "k" && has_prefix key [xe2; x84; xaa] then fold_match name' (skipn 3 key)
      else false
  | _, _ => false
  end.

(** decode.go object, for a struct: the field a key names, the exact name first
    (no two fields of the structs here are equal up to case).
    (encoding/json, called at nar/ls/list.go:76-79 and derivation/parser.go:264-268.) *)
Fixpoint field_no (fields : list bytes) (key : bytes) : option nat :=
  match fields with
  | [] => None
  | f :: fs => if fold_match f key then Some 0 else option_map S (field_no fs key)
  end.
(** decode.go literalStore: storing into a string, an int (64 bits) and a bool;
    null changes nothing.
    (encoding/json, called at nar/ls/list.go:76-79 and derivation/parser.go:264-268.) *)
Definition into_string (v : jv) (cur : bytes) : option bytes :=
  match v with JNull => Some cur | JStr s => Some s | _ => None end.
(** strconv.ParseInt(s, 10, 64).
    (encoding/json, called at nar/ls/list.go:76-79 and derivation/parser.go:264-268.) *)
Definition ParseInt (s : bytes) : option Z :=
  match s with
  | c :: s' =>
      if byte_eqb c "-" then match ParseUint s' with Ok n => if (n <=? 2 ^ 63)%N then Some (- Z.of_N n)%Z else None | _ => None end
      else match ParseUint s with Ok n => if (n <? 2 ^ 63)%N then Some (Z.of_N n) else None | _ => None end
  | [] => None
  end.
(** (encoding/json, called at nar/ls/list.go:76-79 and derivation/parser.go:264-268.) *)
Definition into_int (v : jv) (cur : Z) : option Z :=
  match v with JNull => Some cur | JNum t => ParseInt t | _ => None end.
Definition into_bool (v : jv) (cur : bool) : option bool :=
  match v with JNull => Some cur | JBool b => Some b | _ => None end.
(** nar/ls/list.go:18-25: storing into a Node; [None] if an error is recorded.
    A key of the entries map gets a new Node; null makes the pointer, or the map, nil. *)
Definition node_fields : list bytes := map bs ["type"; "entries"; "size"; "target"; "executable"; "narOffset"]%string.
(** nar/ls/list.go:18-25. *)
Definition zero_node : lnode := LNode [] [] 0 [] false 0.
(** nar/ls/list.go:18-25. *)
Fixpoint into_node (v : jv) (n : lnode) {struct v} : option lnode :=
  match v with
  | JNull => Some n
  | JObj ms =>
      (fix members (ms : list (bytes * jv)) (n : lnode) : option lnode :=
         match ms with
         | [] => Some n
         | (k, x) :: ms' =>
             let '(LNode ty es sz tg ex off) := n in
             match field_no node_fields k with
             | Some 0 => match into_string x ty with Some ty => members ms' (LNode ty es sz tg ex off) | None => None end
             | Some 1 =>
                 match x with
                 | JNull => members ms' (LNode ty [] sz tg ex off)
                 | JObj l =>
                     match (fix entries (l : list (bytes * jv)) (es : list (bytes * option lnode)) : option (list (bytes * option lnode)) :=
                              match l with
                              | [] => Some es
                              | (k', y) :: l' =>
                                  match y with
                                  | JNull => entries l' (mset es k' None)
                                  | _ => match into_node y zero_node with
                                         | Some c => entries l' (mset es k' (Some c))
                                         | None => None
                                         end
                                  end
                              end) l es with
                     | Some es => members ms' (LNode ty es sz tg ex off)
                     | None => None
                     end
                 | _ => None
                 end
             | Some 2 => match into_int x sz with Some sz => members ms' (LNode ty es sz tg ex off) | None => None end
             | Some 3 => match into_string x tg with Some tg => members ms' (LNode ty es sz tg ex off) | None => None end
             | Some 4 => match into_bool x ex with Some ex => members ms' (LNode ty es sz tg ex off) | None => None end
             | Some 5 => match into_int x off with Some off => members ms' (LNode ty es sz tg ex off) | None => None end
             | _ => None                                   (* DisallowUnknownFields *)
             end
         end) ms n
  | _ => None
  end.
(** nar/ls/list.go:12-15: storing into the Root. *)
Definition root_fields : list bytes := map bs ["version"; "Root"]%string.
(** nar/ls/list.go:12-15. *)
Fixpoint root_members (ms : list (bytes * jv)) (r : lroot) : option lroot :=
  match ms with
  | [] => Some r
  | (k, x) :: ms' =>
      match field_no root_fields k with
      | Some 0 => match into_int x (lversion r) with Some v => root_members ms' (LRoot v (lroot_node r)) | None => None end
      | Some 1 => match into_node x (lroot_node r) with Some n => root_members ms' (LRoot (lversion r) n) | None => None end
      | _ => None
      end
  end.
Definition into_root (v : jv) : option lroot :=
  match v with
  | JNull => Some (LRoot 0 zero_node)
  | JObj ms => root_members ms (LRoot 0 zero_node)
  | _ => None
  end.
(** stream.go Decode, list.go:76-79: the first value of the stream, which ends
    with its closing brace; what follows is not looked at.  (A number needs one
    byte more or the end of the stream; the outcome is an error either way.) *)
Definition ls_Decode (r : src) : res lroot :=
  match parse_value (src_data r) with
  | None => Err (EMsg "json: syntax error or error of the reader")
  | Some (v, _) => match into_root v with Some x => Ok x | None => Err (EMsg "json: cannot unmarshal") end
  end.
(** list.go:73-95 ParseLS. *)
Definition ParseLS_reader (r : src) : res lroot := ParseLS (ls_Decode r).

(** json.Unmarshal(data, &attrs), derivation/parser.go:264-268, where attrs points
    to a struct with the one field Name: the whole text must be one value; null
    makes the pointer nil. *)
Fixpoint name_members (ms : list (bytes * jv)) (name : bytes) : option bytes :=
  match ms with
  | [] => Some name
  | (k, x) :: ms' =>
      if fold_match (bs "Name") k then match into_string x name with Some n => name_members ms' n | None => None end
      else name_members ms' name
  end.
(** derivation/parser.go:264-268. *)
Definition attrs_name (t : bytes) : res (option bytes) :=
  match parse_value t with
  | None => Err (EMsg "json: syntax error")
  | Some (v, rest) =>
      match skip_ws rest with
      | _ :: _ => Err (EMsg "json: syntax error")
      | [] =>
          match v with
          | JNull => Ok None
          | JObj ms => match name_members ms [] with Some n => Ok (Some n) | None => Err (EMsg "json: cannot unmarshal") end
          | _ => Err (EMsg "json: cannot unmarshal")
          end
      end
  end.
