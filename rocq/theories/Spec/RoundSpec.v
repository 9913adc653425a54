(** Which derivations can be read back (C49). *)
From Verif Require Import Base.Bytes Model.Derivation Spec.DerivationSpec.

(** Reads a text from left to right, as a reader of the enclosing array does: [depth]
    counts the brackets outside strings.  The depth at the end; none if the text
    ends within a string or after a backslash, or has a comma outside strings at [level]. *)
Definition bracket (c : byte) : Z := match c with "["%byte | "("%byte => 1 | "]"%byte | ")"%byte => -1 | _ => 0 end.
Fixpoint settles (level depth : Z) (after_backslash in_string : bool) (s : bytes) : option Z :=
  match s with
  | [] => if after_backslash || in_string then None else Some depth
  | c :: s' =>
      if after_backslash then settles level depth false in_string s'
      else if byte_eqb c "\"%byte then settles level depth true in_string s'
      else if byte_eqb c x22 then settles level depth false (negb in_string) s'
      else if in_string then settles level depth false true s'
      else if byte_eqb c ","%byte && Z.eqb depth level then None
      else settles level (depth + bracket c) false false s'
  end.
(** Between two quotes, below [k] brackets, none of which ends, or is cut, in it. *)
Definition neat (k : nat) (a : bytes) : Prop := forall level, (- Z.of_nat k < level <= 0)%Z -> settles level 0 false false (quoted a) = Some 0%Z.
(** The strings that are written without escaping, by the number of brackets around them. *)
Definition neat_drv (d : drv) : Prop :=
  Forall (fun no => Forall (neat 3) [fst no; o_path (snd no); o_algo (snd no); o_hash (snd no)]) (d_outputs d) /\
  Forall (fun pn => neat 3 (fst pn) /\ Forall (neat 4) (snd pn)) (d_inputs d) /\
  Forall (neat 2) (d_srcs d) /\ Forall (neat 2) (d_args d) /\ Forall (fun kv => neat 3 (fst kv)) (d_env d).
(** Nothing to escape in the platform and the builder, and neat strings: such derivations
    can be read back (C49), and no two of them have the same text (C119). *)
Definition readable (d : drv) : Prop := neat_drv d /\ plain_text (d_platform d) /\ plain_text (d_builder d).
