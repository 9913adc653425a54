(** The ATerm text of a derivation and related vocabulary (C49-C60). *)
From Coq Require Export Permutation.
From Verif Require Import Base.Bytes Base.BytesFacts Model.Nixhash Model.Storepath Model.Derivation Spec.StorePathSpec.

(** * Text *)
Definition quoted (s : bytes) : bytes := [x22] ++ s ++ [x22].
Definition parens (items : list bytes) : bytes := bs "(" ++ join_byte items ","%byte ++ bs ")".
Definition brackets (items : list bytes) : bytes := bs "[" ++ join_byte items ","%byte ++ bs "]".
Definition output_text (no : bytes * output) : bytes :=
  parens [quoted (fst no); quoted (o_path (snd no)); quoted (o_algo (snd no)); quoted (o_hash (snd no))].
Definition input_text (pn : bytes * list bytes) : bytes := parens [quoted (fst pn); brackets (map quoted (snd pn))].
(** How Nix escapes a string. *)
Definition escaped_char (c : byte) : bytes :=
  match c with
  | "\"%byte => bs "\\"
  | x22 => ["\"%byte; x22]
  | x0a => bs "\n"
  | x0d => bs "\r"
  | x09 => bs "\t"
  | _ => [c]
  end.
Definition escaped (s : bytes) : bytes := concat (map escaped_char s).
Definition env_text (kv : bytes * bytes) : bytes := parens [quoted (fst kv); quoted (escaped (snd kv))].
(** Derive([outputs],[inputs],[sources],"platform","builder",[args],[env]) *)
Definition drv_text (outs : list (bytes * output)) (ins : list (bytes * list bytes)) (srcs : list bytes) (plat bld : bytes)
    (args : list bytes) (env : list (bytes * bytes)) : bytes :=
  bs "Derive" ++
  parens [brackets (map output_text outs); brackets (map input_text ins); brackets (map quoted srcs);
          quoted (escaped plat); quoted (escaped bld); brackets (map quoted args); brackets (map env_text env)].
(** [l] lists the map in the order of its keys. *)
Definition in_order {V} (m : amap V) (l : list (bytes * V)) : Prop := Permutation m l /\ strictly_sorted (map fst l).
Definition aterm (d : drv) (text : bytes) : Prop :=
  exists outs ins env, in_order (d_outputs d) outs /\ in_order (d_inputs d) ins /\ in_order (d_env d) env /\
    text = drv_text outs ins (d_srcs d) (d_platform d) (d_builder d) (d_args d) env.

(** * Derivations *)
(** The maps are maps. *)
Definition wf_maps (d : drv) : Prop :=
  NoDup (mkeys (d_outputs d)) /\ NoDup (mkeys (d_inputs d)) /\ NoDup (mkeys (d_env d)).
(** Equal up to the iteration order of the maps. *)
Definition same_drv (d e : drv) : Prop :=
  d_name d = d_name e /\ Permutation (d_outputs d) (d_outputs e) /\ d_srcs d = d_srcs e /\
  Permutation (d_inputs d) (d_inputs e) /\ d_platform d = d_platform e /\ d_builder d = d_builder e /\
  d_args d = d_args e /\ Permutation (d_env d) (d_env e).
(** The inside of a string literal: every quote is escaped, no dangling backslash. *)
Fixpoint literal (s : bytes) : Prop :=
  match s with
  | [] => True
  | c :: s' =>
      if byte_eqb c "\"%byte then match s' with [] => False | _ :: s'' => literal s'' end
      else c <> x22 /\ literal s'
  end.
(** Nothing that needs escaping. *)
Definition plain_text (s : bytes) : Prop := forall c, In c s -> ~ In c ["\"%byte; x22; x0a; x0d; x09].
(** The strings that are written without escaping. *)
Definition raw_strings (d : drv) : list bytes :=
  concat (map (fun no => [fst no; o_path (snd no); o_algo (snd no); o_hash (snd no)]) (d_outputs d)) ++
  concat (map (fun pn => fst pn :: snd pn) (d_inputs d)) ++ d_srcs d ++ d_args d ++ mkeys (d_env d).
Definition printable (d : drv) : Prop :=
  Forall literal (raw_strings d) /\ plain_text (d_platform d) /\ plain_text (d_builder d).
(** The name field is what ReadDerivation would derive from the environment. *)
Definition json_consistent (json : bytes -> res (option bytes)) (d : drv) : Prop :=
  match mget (d_env d) (bs "__json") with
  | None => d_name d = []
  | Some j => json j = Ok (Some (d_name d))
  end.

(** * Masking and replacing (C52, C55-C58) *)
(** Output paths and the variables named like outputs blanked. *)
Definition mask (d : drv) : drv :=
  Drv (d_name d) (map (fun no => (fst no, Output [] (o_algo (snd no)) (o_hash (snd no)))) (d_outputs d)) (d_srcs d) (d_inputs d)
    (d_platform d) (d_builder d) (d_args d)
    (map (fun kv => (fst kv, if existsb (beq (fst kv)) (map fst (d_outputs d)) then [] else snd kv)) (d_env d)).
Definition mask_if (b : bool) (d : drv) : drv := if b then mask d else d.
(** Input derivation paths renamed by [r]; entries that become equal are one entry. *)
Definition entry_eq_dec : forall x y : bytes * list bytes, {x = y} + {x <> y}.
Proof. decide equality; [apply list_eq_dec, list_eq_dec, byte_eq_dec|apply list_eq_dec, byte_eq_dec]. Defined.
Definition rename (r : bytes -> bytes) (d : drv) : drv :=
  Drv (d_name d) (d_outputs d) (d_srcs d) (nodup entry_eq_dec (map (fun pn => (r (fst pn), snd pn)) (d_inputs d)))
    (d_platform d) (d_builder d) (d_args d) (d_env d).
(** Inputs that have the same replacement have the same outputs (mostly: no two inputs have the same replacement). *)
Definition no_clash (repl : amap bytes) (d : drv) : Prop :=
  forall p q a b x, In (p, a) (d_inputs d) -> In (q, b) (d_inputs d) -> mget repl p = Some x -> mget repl q = Some x -> a = b.
(** The replacement map has an entry [r p] for every input [p], and inputs that share one have the same outputs. *)
Definition replaces (repl : amap bytes) (r : bytes -> bytes) (d : drv) : Prop :=
  repl <> [] /\ (forall p, In p (mkeys (d_inputs d)) -> mget repl p = Some (r p)) /\ no_clash repl d.

(** * Validity (C53) *)
Definition fixed_output (o : output) : Prop := o_algo o <> [].
Definition valid_outputs (outs : amap output) : Prop :=
  (exists o, outs = [(bs "out", o)] /\ fixed_output o) \/
  (outs <> [] /\ Forall (fun no => fst no <> [] /\ ~ fixed_output (snd no) /\ Validate (o_path (snd no)) = Ok tt) outs).
Definition valid_inputs (ins : amap (list bytes)) : Prop :=
  Forall (fun pn => Validate (fst pn) = Ok tt /\ snd pn <> [] /\ sortedb (snd pn) /\ ~ In [] (snd pn)) ins.
Definition has_key {V} (k : string) (m : amap V) : Prop := In (bs k) (mkeys m).
Definition valid_drv (d : drv) : Prop :=
  valid_outputs (d_outputs d) /\ valid_inputs (d_inputs d) /\
  Forall (fun s => Validate s = Ok tt) (d_srcs d) /\ sortedb (d_srcs d) /\
  d_platform d <> [] /\ d_builder d <> [] /\ ~ In [] (mkeys (d_env d)) /\
  (has_key "__json" (d_env d) -> d_name d <> []) /\ (~ has_key "__json" (d_env d) -> has_key "name" (d_env d)).
(** Both a name variable and structured attributes without a name. *)
Definition ambiguous (d : drv) : Prop := has_key "name" (d_env d) /\ has_key "__json" (d_env d) /\ d_name d = [].

(** * Texts in canonical form (C50) *)
Definition drv_of (outs : list (bytes * output)) (ins : list (bytes * list bytes)) (srcs : list bytes) (plat bld : bytes)
    (args : list bytes) (env : list (bytes * bytes)) : drv := Drv [] outs srcs ins plat bld args env.
(** The text of lists in key order, with non-empty keys and strings that need no escaping or are already escaped. *)
Definition canonical_text (text : bytes) (plat bld : bytes) : Prop :=
  exists outs ins srcs args env,
    text = drv_text outs ins srcs plat bld args env /\
    Forall literal (raw_strings (drv_of outs ins srcs plat bld args env)) /\
    strictly_sorted (map fst outs) /\ strictly_sorted (map fst ins) /\ strictly_sorted (map fst env) /\
    ~ In [] (map fst outs) /\ ~ In [] (map fst ins) /\ ~ In [] (map fst env).

(** * Results (C52, C57) *)
(** The same outcome, up to the order of the returned map. *)
Definition same_map_result {V} (a b : res (amap V)) : Prop :=
  match a, b with
  | Ok x, Ok y => Permutation x y
  | Err e, Err e' => e = e'
  | Panic _, Panic _ => True
  | _, _ => False
  end.

(** * Filling in output paths (C57) *)
Definition path_of (paths : amap bytes) (n : bytes) : bytes := match mget paths n with Some p => p | None => [] end.
(** The output paths, and the variables named like outputs, set to [paths]. *)
Definition fill (paths : amap bytes) (d : drv) : drv :=
  Drv (d_name d) (map (fun no => (fst no, Output (path_of paths (fst no)) (o_algo (snd no)) (o_hash (snd no)))) (d_outputs d)) (d_srcs d) (d_inputs d)
    (d_platform d) (d_builder d) (d_args d)
    (map (fun kv => (fst kv, if existsb (beq (fst kv)) (map fst (d_outputs d)) then path_of paths (fst kv) else snd kv)) (d_env d)).

(** * What the parser accepts (C59, C60) *)
(** Cut at the commas of bracket depth 1 that are outside string literals; the
    last byte closes the array.  [cur] is the piece read so far.  Text from an
    opening quote that is never closed is not part of any piece. *)
Fixpoint pieces (depth : Z) (after_backslash in_string : bool) (cur : bytes) (s : bytes) : list bytes :=
  match s with
  | [] => []
  | c :: s' =>
      if after_backslash then pieces depth false in_string (cur ++ [c]) s'
      else match c with
           | "\"%byte => pieces depth true in_string (cur ++ [c]) s'
           | x22 => pieces depth false (negb in_string) (cur ++ [c]) s'
           | _ =>
               if in_string then pieces depth false in_string (cur ++ [c]) s'
               else
                 let depth' := match c with
                               | "["%byte | "("%byte => (depth + 1)%Z
                               | "]"%byte | ")"%byte => (depth - 1)%Z
                               | _ => depth
                               end in
                 match s' with
                 | [] => [cur]
                 | _ => if Z.eqb depth 1 && byte_eqb c ","%byte then cur :: pieces depth' false false [] s'
                        else pieces depth' false false (cur ++ [c]) s'
                 end
           end
  end.
Definition closes (o c : byte) : Prop := (o = "("%byte /\ c = ")"%byte) \/ (o = "["%byte /\ c = "]"%byte).
(** [v] is an array with these elements.  Any two bytes are an empty array. *)
Definition array_of (v : bytes) (items : list bytes) : Prop :=
  (length v = 2 /\ items = []) \/
  (exists o s c, v = o :: s ++ [c] /\ s <> [] /\ closes o c /\ items = pieces 1 false false [] (s ++ [c])).
(** The entries.  Trailing fields of an output or variable may be missing and are then empty. *)
Definition reads_output (v : bytes) (no : bytes * output) : Prop :=
  fst no <> [] /\ exists items rest, array_of v items /\ items ++ rest = map quoted [fst no; o_path (snd no); o_algo (snd no); o_hash (snd no)] /\
    items <> [] /\ Forall (fun x => x = quoted []) rest.
Definition reads_input (v : bytes) (pn : bytes * list bytes) : Prop :=
  fst pn <> [] /\ exists w, (array_of v [quoted (fst pn); w] /\ array_of w (map quoted (snd pn))) \/ (array_of v [quoted (fst pn)] /\ snd pn = []).
(** [unescaped w] undoes the escapes. *)
Definition unescaped_char (c : byte) : option byte :=
  match c with
  | "\"%byte => Some "\"%byte | "n"%byte => Some x0a | "r"%byte => Some x0d | "t"%byte => Some x09 | x22 => Some x22
  | _ => None
  end.
Fixpoint unescaped (s : bytes) : bytes :=
  match s with
  | [] => []
  | "\"%byte :: ((x :: s'') as s') => match unescaped_char x with Some y => y :: unescaped s'' | None => "\"%byte :: unescaped s' end
  | c :: s' => c :: unescaped s'
  end.
Definition reads_env (v : bytes) (kv : bytes * bytes) : Prop :=
  fst kv <> [] /\ exists w, snd kv = unescaped w /\ (array_of v [quoted (fst kv); quoted w] \/ (array_of v [quoted (fst kv)] /\ w = [])).
Definition reads_drv (json : bytes -> res (option bytes)) (text : bytes) (d : drv) : Prop :=
  exists body f0 f1 f2 f5 f6 outs ins env,
    text = bs "Derive" ++ body /\
    array_of body [f0; f1; f2; quoted (d_platform d); quoted (d_builder d); f5; f6] /\
    array_of f0 outs /\ Forall2 reads_output outs (d_outputs d) /\ strictly_sorted (mkeys (d_outputs d)) /\
    array_of f1 ins /\ Forall2 reads_input ins (d_inputs d) /\ strictly_sorted (mkeys (d_inputs d)) /\
    array_of f2 (map quoted (d_srcs d)) /\ array_of f5 (map quoted (d_args d)) /\
    array_of f6 env /\ Forall2 reads_env env (d_env d) /\ strictly_sorted (mkeys (d_env d)) /\
    json_consistent json d.
(** The state of the quoting before the last byte. *)
Fixpoint quotes_closed (after_backslash in_string : bool) (s : bytes) : bool :=
  match s with
  | [] => negb after_backslash && negb in_string
  | c :: s' =>
      if after_backslash then quotes_closed false in_string s'
      else match c with
           | "\"%byte => quotes_closed true in_string s'
           | x22 => quotes_closed false (negb in_string) s'
           | _ => quotes_closed false in_string s'
           end
  end.

(** * Fixed-output derivations (C56) *)
Definition is_fixed (d : drv) : Prop := exists o, d_outputs d = [(bs "out", o)] /\ fixed_output o.
