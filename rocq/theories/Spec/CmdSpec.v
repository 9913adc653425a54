(** Vocabulary for the command line tools (C66, C67). *)
From Verif Require Import Base.Bytes Model.GoStd Spec.NarSpec.

(** [at_path t cs n]: following the names [cs] from [t] leads to the node [n]. *)
Inductive at_path : node -> list bytes -> node -> Prop :=
| at_here t : at_path t [] t
| at_entry es name t cs n : In (name, t) es -> at_path t cs n -> at_path (Dir es) (name :: cs) n.

(** What ls should say about a node. *)
Definition mode_of (t : node) : bytes :=
  match t with
  | Reg false _ => bs "-r--r--r--"
  | Reg true _ => bs "-r-xr-xr-x"
  | Sym _ => bs "Lrwxrwxrwx"
  | Dir _ => bs "-r-xr-xr-x"
  end.
Definition detail_of (t : node) : bytes :=
  match t with
  | Reg _ [] => []
  | Reg _ c => bs " (" ++ FormatUint (lenN c) ++ bs " bytes)"
  | Sym target => bs " -> " ++ target
  | Dir _ => []
  end.
Definition line_of (cs : list bytes) (t : node) : bytes :=
  mode_of t ++ bs " " ++ path_of cs ++ detail_of t ++ [x0a].
(** The lines of a node and everything below it, in order. *)
Fixpoint lines (cs : list bytes) (t : node) : bytes :=
  line_of cs t ++
  match t with
  | Dir es => concat (map (fun e => lines (cs ++ [fst e]) (snd e)) es)
  | _ => []
  end.
(** The lines of everything below a node. *)
Definition below_lines (cs : list bytes) (t : node) : bytes :=
  match t with
  | Dir es => concat (map (fun e => lines (cs ++ [fst e]) (snd e)) es)
  | _ => []
  end.
(** The lines of the entries of a directory, without what is below them. *)
Definition entry_lines (cs : list bytes) (t : node) : bytes :=
  match t with
  | Dir es => concat (map (fun e => line_of (cs ++ [fst e]) (snd e)) es)
  | _ => []
  end.
Definition starts_with (s p : bytes) : Prop := exists r, s = p ++ r.
(** Following [cs] from [t] leads to [n], and on the way no other entry of the
    directories passed has a name that begins with the name followed, or that
    the name followed begins with. *)
Inductive clear_path : node -> list bytes -> node -> Prop :=
| clear_here t : clear_path t [] t
| clear_entry es name t cs n : In (name, t) es ->
    (forall m, In m (map fst es) -> m <> name -> ~ starts_with m name /\ ~ starts_with name m) ->
    clear_path t cs n -> clear_path (Dir es) (name :: cs) n.
(** A node and everything below it, in the order of the archive, each with the names that lead to it. *)
Fixpoint all_nodes (cs : list bytes) (t : node) : list (list bytes * node) :=
  (cs, t) ::
  match t with
  | Dir es => concat (map (fun e => all_nodes (cs ++ [fst e]) (snd e)) es)
  | _ => []
  end.
(** [ls_lists p recursive l]: the lines for the nodes of [l] whose path begins with the text [p];
    without -R only those with no slash in the rest of the path. *)
Definition asked (p : bytes) (recursive : bool) (cs : list bytes) : Prop :=
  exists rest, path_of cs = p ++ rest /\ (recursive = true \/ ~ In "/"%byte rest).
Inductive ls_lists (p : bytes) (recursive : bool) : list (list bytes * node) -> bytes -> Prop :=
| lists_none : ls_lists p recursive [] []
| lists_line cs t l o : asked p recursive cs -> ls_lists p recursive l o -> ls_lists p recursive ((cs, t) :: l) (line_of cs t ++ o)
| lists_skip cs t l o : ~ asked p recursive cs -> ls_lists p recursive l o -> ls_lists p recursive ((cs, t) :: l) o.
(** A node at which ls gives up: its path is greater than [p] and does not begin with it. *)
Definition gives_up (p : bytes) (cs : list bytes) : Prop := blt p (path_of cs) = true /\ ~ starts_with (path_of cs) p.
