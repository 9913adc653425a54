(** Model of /repo/pkg/derivation/parser.go. *)
From Verif Require Import Base.Bytes Model.GoIO Model.Storepath Model.Derivation.

(** parser.go:17-23: patterns are two bytes long and differ, so at each
    position at most one matches. *)
Definition unescape_byte (c : byte) : option byte :=
  if byte_eqb c "\"%byte then Some "\"%byte
  else if byte_eqb c "n"%byte then Some x0a
  else if byte_eqb c "r"%byte then Some x0d
  else if byte_eqb c "t"%byte then Some x09
  else if byte_eqb c x22 then Some x22
  else None.
(** parser.go:17-23. *)
Fixpoint unescape (s : bytes) : bytes :=
  match s with
  | [] => []
  | c :: s' =>
      if byte_eqb c "\"%byte then
        match s' with
        | x :: s'' => match unescape_byte x with
                      | Some y => y :: unescape s''
                      | None => c :: unescape s'
                      end
        | [] => [c]
        end
      else c :: unescape s'
  end.

(** parser.go:379-391 unquoteSlice. *)
Definition unquoteSlice (b : bytes) : res bytes :=
  if length b <? 2 then Err (EMsg "invalid quoted string length")
  else if negb (byte_eqb (nth 0 b x00) x22) || negb (byte_eqb (nth (length b - 1) b x00) x22)
  then Err (EMsg "string not quoted")
  else slice b 1 (length b - 1).
(** parser.go:363-375 unquote. *)
Definition unquote (b : bytes) : res bytes :=
  let* s := unquoteSlice b in
  if negb (contains_byte b "\"%byte) then Ok s else Ok (unescape s).

(** parser.go:280-360 arrayEach.  The callback threads a state [S] in place of
    the variables it captures. *)
Section ArrayEach.
Context {S : Type}.
Variable cb : S -> bytes -> nat -> res S.
(** The loop over the bytes from position [i].  parser.go:280-360. *)
Fixpoint array_loop (value : bytes) (rest : bytes) (i : nat) (count : Z) (start idx : nat) (escaped inString : bool) (st : S) : res S :=
  match rest with
  | [] => Ok st
  | c :: rest' =>
      if escaped then array_loop value rest' (i + 1) count start idx false inString st
      else if byte_eqb c "\"%byte then array_loop value rest' (i + 1) count start idx true inString st
      else if byte_eqb c x22 then array_loop value rest' (i + 1) count start idx false (negb inString) st
      else if inString then array_loop value rest' (i + 1) count start idx false inString st
      else
        let count' := if byte_eqb c "["%byte then (count + 1)%Z
                      else if byte_eqb c "]"%byte then (count - 1)%Z
                      else if byte_eqb c "("%byte then (count + 1)%Z
                      else if byte_eqb c ")"%byte then (count - 1)%Z
                      else count in
        if (Z.eqb count 1 && byte_eqb c ","%byte) || (i =? length value - 1) then
          let* v := slice value start i in
          let* st := cb st v idx in
          array_loop value rest' (i + 1) count' (i + 1) (idx + 1) false inString st
        else array_loop value rest' (i + 1) count' start idx false inString st
  end.
(** parser.go:280-360. *)
Definition arrayEach (value : bytes) (st : S) : res S :=
  if length value <? 2 then Err (EMsg "array too short")
  else if length value =? 2 then Ok st
  else
    let first := nth 0 value x00 in
    let last := nth (length value - 1) value x00 in
    if byte_eqb first "("%byte then
      if negb (byte_eqb last ")"%byte) then Err (EMsg "array not closed")
      else array_loop value value 0 0 1 0 false false st
    else if byte_eqb first "["%byte then
      if negb (byte_eqb last "]"%byte) then Err (EMsg "array not closed")
      else array_loop value value 0 0 1 0 false false st
    else Err (EMsg "invalid array opening character").
End ArrayEach.

(** parser.go:78-111: the fields of one output; the state is the name and the output. *)
Definition output_field (prev : bytes) (st : bytes * output) (v : bytes) (index : nat) : res (bytes * output) :=
  let '(name, o) := st in
  match index with
  | 0 => let* n := unquoteSlice v in
         if ble n prev then Err (EMsg "invalid output order") else Ok (n, o)
  | 1 => let* s := unquoteSlice v in Ok (name, Output s (o_algo o) (o_hash o))
  | 2 => let* s := unquoteSlice v in Ok (name, Output (o_path o) s (o_hash o))
  | 3 => let* s := unquoteSlice v in Ok (name, Output (o_path o) (o_algo o) s)
  | _ => Err (EMsg "unhandled output index")
  end.
(** parser.go:73-124. *)
Definition output_item (st : amap output * bytes) (v : bytes) (_ : nat) : res (amap output * bytes) :=
  let '(m, prev) := st in
  let* no := arrayEach (output_field prev) v ([], Output [] [] []) in
  let '(name, o) := no in
  match name with
  | [] => Err (EMsg "output name may not be empty")
  | _ => Ok (mset m name o, name)
  end.
(** parser.go:67-124. *)
Definition parse_outputs (v : bytes) : res (amap output) :=
  let* st := arrayEach output_item v ([], []) in Ok (fst st).

(** A list of quoted strings: parser.go:149-158, 180-189, 198-207. *)
Definition string_item (st : list bytes) (v : bytes) (_ : nat) : res (list bytes) :=
  let* s := unquoteSlice v in Ok (st ++ [s]).

(** parser.go:134-168. *)
Definition input_field (prev : bytes) (st : bytes * list bytes) (v : bytes) (index : nat) : res (bytes * list bytes) :=
  let '(path, names) := st in
  match index with
  | 0 => let* p := unquoteSlice v in
         if ble p prev then Err (EMsg "invalid input derivation order") else Ok (p, names)
  | 1 => let* names := arrayEach string_item v names in Ok (path, names)
  | _ => Err (EMsg "unhandled input derivation index")
  end.
(** parser.go:126-177. *)
Definition input_item (st : amap (list bytes) * bytes) (v : bytes) (_ : nat) : res (amap (list bytes) * bytes) :=
  let '(m, prev) := st in
  let* pn := arrayEach (input_field prev) v ([], []) in
  let '(p, names) := pn in Ok (mset m p names, p).
(** parser.go:126-177. *)
Definition parse_inputs (v : bytes) : res (amap (list bytes)) :=
  let* st := arrayEach input_item v ([], []) in Ok (fst st).

(** parser.go:217-240. *)
Definition env_field (prev : bytes) (st : bytes * bytes) (v : bytes) (index : nat) : res (bytes * bytes) :=
  let '(key, value) := st in
  match index with
  | 0 => let* k := unquoteSlice v in
         if ble k prev then Err (EMsg "invalid env var order") else Ok (k, value)
  | 1 => let* x := unquote v in Ok (key, x)
  | _ => Err (EMsg "unhandled env var index")
  end.
(** parser.go:209-249. *)
Definition env_item (st : amap bytes * bytes) (v : bytes) (_ : nat) : res (amap bytes * bytes) :=
  let '(m, prev) := st in
  let* kv := arrayEach (env_field prev) v ([], []) in
  let '(k, x) := kv in Ok (mset m k x, k).
(** parser.go:209-249. *)
Definition parse_env (v : bytes) : res (amap bytes) :=
  let* st := arrayEach env_item v ([], []) in Ok (fst st).

(** parser.go:63-256: one field of Derive(...). *)
Definition drv_field (d : drv) (v : bytes) (index : nat) : res drv :=
  let '(Drv nm outs srcs ins plat bld args env) := d in
  match index with
  | 0 => let* m := parse_outputs v in Ok (Drv nm m srcs ins plat bld args env)
  | 1 => let* m := parse_inputs v in Ok (Drv nm outs srcs m plat bld args env)
  | 2 => let* l := arrayEach string_item v srcs in Ok (Drv nm outs l ins plat bld args env)
  | 3 => let* s := unquoteSlice v in Ok (Drv nm outs srcs ins s bld args env)
  | 4 => let* s := unquoteSlice v in Ok (Drv nm outs srcs ins plat s args env)
  | 5 => let* l := arrayEach string_item v args in Ok (Drv nm outs srcs ins plat bld l env)
  | 6 => let* m := parse_env v in Ok (Drv nm outs srcs ins plat bld args m)
  | _ => Err (EMsg "unhandled derivation index")
  end.

(** io.ReadAll (Go standard library): all bytes up to EOF, or the error.  parser.go:28. *)
Definition ReadAll (s : src) : res bytes := match fin s with EEOF => Ok (src_data s) | e => Err e end.

Section Json.
(** json.Unmarshal of the "__json" variable into a struct with a Name field:
    an error, JSON null ([Ok None]: the struct pointer becomes nil), or the name. *)
Variable json : bytes -> res (option bytes).

(** parser.go:48-277 parseDerivation. *)
Definition parseDerivation (b : bytes) : res drv :=
  if length b <? 8 then Err (EMsg "input too short to be a valid derivation")
  else
    let* pre := slice b 0 6 in
    if negb (beq pre (bs "Derive")) then Err (EMsg "missing derivation prefix")
    else
      let* body := slice b 6 (length b) in
      let* d := arrayEach drv_field body (Drv [] [] [] [] [] [] [] []) in
      match mget (d_env d) (bs "__json") with
      | None => Ok d
      | Some j =>
          let* r := json j in
          match r with
          | None => Panic "nil pointer dereference"
          | Some n => let '(Drv _ outs srcs ins plat bld args env) := d in Ok (Drv n outs srcs ins plat bld args env)
          end
      end.

(** parser.go:27-39 ReadDerivation.  (With a validation error Go returns the
    derivation as well; the error is what counts.) *)
Definition ReadDerivation (r : src) : res drv :=
  let* b := ReadAll r in
  let* d := parseDerivation b in
  let* _ := drv_Validate d in
  Ok d.
End Json.
