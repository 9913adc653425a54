(** Model of /repo/pkg/derivation (derivation.go, output.go, encode.go, drv_path.go, hashes.go). *)
From Verif Require Import Base.Bytes Model.GoIO Model.GoStd Model.Nixhash Model.Storepath.

(** output.go:7-11. *)
Record output := Output { o_path : bytes; o_algo : bytes; o_hash : bytes }.
(** derivation.go:16-40.  Maps are association lists in iteration order; nil and
    empty maps or slices are not distinguished; the *Output pointers are not nil
    (the package never creates a nil one). *)
Record drv := Drv {
  d_name : bytes;
  d_outputs : amap output;
  d_srcs : list bytes;
  d_inputs : amap (list bytes);
  d_platform : bytes;
  d_builder : bytes;
  d_args : list bytes;
  d_env : amap bytes
}.

(** m[k] of a map: the zero value when absent.
    encode.go:99-362 and hashes.go:52-130, where maps are indexed. *)
Definition mget_or {V} (m : amap V) (k : bytes) (z : V) : V := match mget m k with Some v => v | None => z end.

(** * derivation.go *)
(** derivation.go:49-76: the loop over the outputs; [n] is the number of outputs. *)
Fixpoint validate_outputs (n : nat) (l : list (bytes * output)) : res unit :=
  match l with
  | [] => Ok tt
  | (name, o) :: l' =>
      match name with
      | [] => Err (EMsg "empty output name")
      | _ =>
          if negb (beq (o_algo o) []) then
            if negb (n =? 1) then Err (EMsg "encountered fixed-output, but there's more than 1 output in total")
            else if negb (beq name (bs "out")) then Err (EMsg "the fixed-output output name must be called 'out'")
            else Ok tt
          else match Validate (o_path o) with
               | Ok _ => validate_outputs n l'
               | Err _ => Err (EMsg "error validating output")
               | Panic w => Panic w
               end
      end
  end.
(** derivation.go:89-97. *)
Fixpoint validate_names (prev : option bytes) (l : list bytes) : res unit :=
  match l with
  | [] => Ok tt
  | o :: l' =>
      if match prev with Some p => blt o p | None => false end
      then Err (EMsg "invalid input derivation output order")
      else match o with
           | [] => Err (EMsg "Output name entry empty")
           | _ => validate_names (Some o) l'
           end
  end.
(** derivation.go:78-98. *)
Fixpoint validate_inputs (l : list (bytes * list bytes)) : res unit :=
  match l with
  | [] => Ok tt
  | (p, names) :: l' =>
      let* _ := Validate p in
      match names with
      | [] => Err (EMsg "output names list empty")
      | _ => let* _ := validate_names None names in validate_inputs l'
      end
  end.
(** derivation.go:100-109. *)
Fixpoint validate_srcs (prev : option bytes) (l : list bytes) : res unit :=
  match l with
  | [] => Ok tt
  | s :: l' =>
      match Validate s with
      | Panic w => Panic w
      | Err _ => Err (EMsg "error validating input source")
      | Ok _ =>
          if match prev with Some p => blt s p | None => false end
          then Err (EMsg "invalid input source order")
          else validate_srcs (Some s) l'
      end
  end.
(** derivation.go:122-135. *)
Fixpoint validate_env (dname : bytes) (has : bool) (l : list (bytes * bytes)) : res bool :=
  match l with
  | [] => Ok has
  | (k, _) :: l' =>
      match k with
      | [] => Err (EMsg "empty environment variable key")
      | _ =>
          let has := if beq k (bs "name") then true else has in
          let has := if beq k (bs "__json") then negb (beq dname []) else has in
          validate_env dname has l'
      end
  end.
(** derivation.go:42-142 Validate. *)
Definition drv_Validate (d : drv) : res unit :=
  match d_outputs d with
  | [] => Err (EMsg "at least one output must be defined")
  | _ =>
      let* _ := validate_outputs (length (d_outputs d)) (d_outputs d) in
      let* _ := validate_inputs (d_inputs d) in
      let* _ := validate_srcs None (d_srcs d) in
      if beq (d_platform d) [] then Err (EMsg "required attribute 'platform' missing")
      else if beq (d_builder d) [] then Err (EMsg "required attribute 'builder' missing")
      else let* has := validate_env (d_name d) false (d_env d) in
           if has then Ok tt else Err (EMsg "env 'name' not found")
  end.
(** derivation.go:144-155 Name. *)
Definition drv_Name (d : drv) : bytes :=
  match mget (d_env d) (bs "__json") with
  | Some _ => d_name d
  | None => mget_or (d_env d) (bs "name") []
  end.

(** * encode.go *)
(** encode.go:11-17: the replacer with one-byte patterns works byte by byte. *)
Definition escape_byte (c : byte) : bytes :=
  if byte_eqb c "\"%byte then bs "\\"
  else if byte_eqb c x0a then bs "\n"
  else if byte_eqb c x0d then bs "\r"
  else if byte_eqb c x09 then bs "\t"
  else if byte_eqb c x22 then ["\"%byte; x22]
  else [c].
Definition escape (s : bytes) : bytes := concat (map escape_byte s).
(** encode.go:30-34 escapeString. *)
Definition quoteC : bytes := [x22].
(** encode.go:30-34. *)
Definition escapeString (s : bytes) : bytes := quoteC ++ escape s ++ quoteC.

(** encode.go:42-78 writeArrayElems: the Write calls, in order. *)
Fixpoint elem_writes (quote : bool) (first : bool) (elems : list bytes) : list bytes :=
  match elems with
  | [] => []
  | e :: elems' =>
      (if first then [] else [bs ","]) ++
      (if quote then [quoteC; e; quoteC] else [e]) ++
      elem_writes quote false elems'
  end.
(** encode.go:42-78 writeArrayElems. *)
Definition array_writes (quote : bool) (op cl : bytes) (elems : list bytes) : list bytes :=
  [op] ++ elem_writes quote true elems ++ [cl].
(** Items separated by a comma, as the hand-written loops do.  encode.go:99-362. *)
Fixpoint sep_writes {A} (f : A -> list bytes) (first : bool) (l : list A) : list bytes :=
  match l with
  | [] => []
  | x :: l' => (if first then [] else [bs ","]) ++ f x ++ sep_writes f false l'
  end.

(** encode.go:118-137: the input derivations with their paths replaced. *)
Fixpoint replace_inputs (repl : amap bytes) (acc : amap (list bytes)) (l : list (bytes * list bytes)) : res (amap (list bytes)) :=
  match l with
  | [] => Ok acc
  | (p, names) :: l' =>
      match mget repl p with
      | None => Err (EMsg "unable to find replacement, but replacement requested")
      | Some r => replace_inputs repl (mset acc r names) l'
      end
  end.

(** encode.go:99-362 writeDerivation: the sequence of Write calls. *)
Definition drv_writes (d : drv) (strip : bool) (repl : amap bytes) : res (list bytes) :=
  let outputNames := sort_strings (mkeys (d_outputs d)) in
  let* inputs := match repl with [] => Ok (d_inputs d) | _ => replace_inputs repl [] (d_inputs d) end in
  let inputPaths := sort_strings (mkeys inputs) in
  let envKeys := sort_strings (mkeys (d_env d)) in
  Ok ([bs "Derive"; bs "("] ++
      (* outputs *)
      [bs "["] ++
      sep_writes (fun n =>
        let o := mget_or (d_outputs d) n (Output [] [] []) in
        array_writes true (bs "(") (bs ")") [n; (if strip then [] else o_path o); o_algo o; o_hash o]) true outputNames ++
      [bs "]"] ++
      (* input derivations *)
      [bs ","; bs "["] ++
      sep_writes (fun p =>
        [bs "("; quoteC; p; quoteC; bs ","] ++ array_writes true (bs "[") (bs "]") (mget_or inputs p []) ++ [bs ")"]) true inputPaths ++
      [bs "]"] ++
      (* input sources *)
      [bs ","] ++ array_writes true (bs "[") (bs "]") (d_srcs d) ++
      (* platform, builder *)
      [bs ","; escapeString (d_platform d); bs ","; escapeString (d_builder d)] ++
      (* arguments *)
      [bs ","] ++ array_writes true (bs "[") (bs "]") (d_args d) ++
      (* env *)
      [bs ","; bs "["] ++
      sep_writes (fun k =>
        let v := if strip && mhas (d_outputs d) k then [] else mget_or (d_env d) k [] in
        array_writes false (bs "(") (bs ")") [quoteC ++ k ++ quoteC; escapeString v]) true envKeys ++
      [bs "]"] ++
      [bs ")"]).

(** The Write calls against an io.Writer: stop at the first error. *)
Fixpoint run_writes (l : list bytes) (w : sink) : option error * sink :=
  match l with
  | [] => (None, w)
  | p :: l' => match wwrite_ p w with
               | (Some e, w') => (Some e, w')
               | (None, w') => run_writes l' w'
               end
  end.
(** encode.go:81-83 WriteDerivation. *)
Definition WriteDerivation (d : drv) (w : sink) : res unit * sink :=
  match drv_writes d false [] with
  | Ok l => match run_writes l w with
            | (None, w') => (Ok tt, w')
            | (Some e, w') => (Err e, w')
            end
  | Err e => (Err e, w)
  | Panic m => (Panic m, w)
  end.
(** The same against a hash, which never fails: the hashed bytes.
    hashes.go:28-37, drv_path.go:35-103. *)
Definition drv_bytes (d : drv) (strip : bool) (repl : amap bytes) : res bytes :=
  let* l := drv_writes d strip repl in Ok (concat l).

(** * drv_path.go, hashes.go.  [sha] is SHA-256 (crypto/sha256). *)
Section Hashes.
Variable sha : bytes -> bytes.

(** crypto/sha256: a hash.Hash is the bytes written since New or Reset; Sum(nil)
    gives their digest and does not change the state.
    hashes.go:29, 62, 149, 159, drv_path.go:37. *)
Definition h_new : bytes := [].
(** hashes.go:39-48. *)
Definition h_write (h b : bytes) : bytes := h ++ b.
(** hashes.go:36, 47, 166, drv_path.go:44, 95. *)
Definition h_sum (h : bytes) : bytes := sha h.
(** hashes.go:90, 126, drv_path.go:47. *)
Definition h_reset (h : bytes) : bytes := [].
(** hashes.go:39-48. *)
Fixpoint h_writes (h : bytes) (l : list bytes) : bytes :=
  match l with [] => h | b :: l' => h_writes (h_write h b) l' end.

(** drv_path.go:35-103 DrvPath. *)
Definition DrvPath (d : drv) : res bytes :=
  let h := h_new in
  let* w := drv_writes d false [] in
  let h := h_writes h w in
  let atermDigest := h_sum h in
  let h := h_reset h in
  let h := h_write h (bs "text:") in
  let refs := sort_strings (mkeys (d_inputs d) ++ d_srcs d) in
  let h := h_writes h (concat (map (fun r => [r; bs ":"]) refs)) in
  let h := h_write h (bs "sha256:") in
  let h := h_write h (hex_encode atermDigest) in
  let h := h_write h (bs ":") in
  let h := h_write h (StoreDir ++ bs ":") in
  match drv_Name d with
  | [] => Panic "env 'name' not found"
  | name =>
      let h := h_write h name in
      let h := h_write h (bs ".drv") in
      let* c := CompressHash (h_sum h) 20 in
      Ok (sp_Absolute (SP (name ++ bs ".drv") c))
  end.

(** hashes.go:39-48 hashStrings: the sum, and the hash as it is left. *)
Definition hashStrings (h : bytes) (first : bytes) (rest : list bytes) : bytes * bytes :=
  let h := h_write h first in
  let h := h_writes h (concat (map (fun s => [bs ":"; s]) rest)) in
  (h_sum h, h).
(** hashes.go:28-37 getMaskedATermHash. *)
Definition maskedATermHash (d : drv) (repl : amap bytes) : res bytes :=
  let* w := drv_writes d true repl in Ok (hex_encode (h_sum (h_writes h_new w))).

(** hashes.go:65-126: the body of the loop, given the shared hash; the path and
    the hash as it is left. *)
Definition output_path (d : drv) (repl : amap bytes) (h : bytes) (name : bytes) (o : output) : res (bytes * bytes) :=
  let dname := drv_Name d in
  let pathName := if beq name (bs "out") then dname else dname ++ bs "-" ++ name in
  let* sh :=
    if negb (beq (o_algo o) []) then
      if beq (o_algo o) (bs "r:sha256") then
        Ok (hashStrings h (bs "source") [bs "sha256"; o_hash o; StoreDir; dname])
      else
        let (fixedSum, h) := hashStrings h (bs "fixed") [bs "out"; o_algo o; o_hash o; []] in
        let fixedHex := hex_encode fixedSum in
        let h := h_reset h in
        Ok (hashStrings h (bs "output") [bs "out"; bs "sha256"; fixedHex; StoreDir; dname])
    else
      let* m := maskedATermHash d repl in
      Ok (hashStrings h (bs "output") [name; bs "sha256"; m; StoreDir; pathName]) in
  let (storeHash, h) := sh : bytes * bytes in
  let* c := CompressHash storeHash 20 in
  Ok (sp_Absolute (SP pathName c), h_reset h).
Fixpoint output_paths (d : drv) (repl : amap bytes) (h : bytes) (acc : amap bytes) (l : list (bytes * output)) : res (amap bytes) :=
  match l with
  | [] => Ok acc
  | (n, o) :: l' => let* ph := output_path d repl h n o in output_paths d repl (snd ph) (mset acc n (fst ph)) l'
  end.
(** hashes.go:52-130 CalculateOutputPaths. *)
Definition CalculateOutputPaths (d : drv) (repl : amap bytes) : res (amap bytes) :=
  match drv_Name d with
  | [] => Panic "env 'name' not found"
  | _ => output_paths d repl h_new [] (d_outputs d)
  end.

(** hashes.go:143-167 CalculateDrvReplacement. *)
Definition CalculateDrvReplacement (d : drv) (repl : amap bytes) : res bytes :=
  let full := let* w := drv_writes d false repl in Ok (hex_encode (h_sum (h_writes h_new w))) in
  if length (d_outputs d) =? 1 then
    match mget (d_outputs d) (bs "out") with
    | Some o =>
        if negb (beq (o_algo o) []) then
          Ok (hex_encode (fst (hashStrings h_new (bs "fixed") [bs "out"; o_algo o; o_hash o; o_path o])))
        else full
    | None => full
    end
  else full.
End Hashes.
