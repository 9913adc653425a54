(** The tree a file system holds, for C38 and C39. *)
From Verif Require Import Base.Bytes Model.GoIO Model.GoStd Model.Nar Model.NarWriter Model.NarDump Spec.NarSpec.

(** What os.ReadDir and os.Lstat promise: valid names in strictly increasing
    order and int64 sizes. *)
Inductive fs_ok : fs -> Prop :=
| fo_reg m size d : (0 <= size < 2 ^ 63)%Z -> fs_ok (FReg m size d)
| fo_reg' m size e : (0 <= size < 2 ^ 63)%Z -> fs_ok (FRegUnreadable m size e)
| fo_sym t : fs_ok (FSym t)
| fo_sym' e : fs_ok (FSymUnreadable e)
| fo_dir es :
    Forall (fun e => entry_name (fst e)) es -> names_sorted (map fst es) ->
    Forall (fun e => fs_ok (snd e)) es -> fs_ok (FDir es)
| fo_dir' e : fs_ok (FDirUnreadable e)
| fo_special : fs_ok FSpecial
| fo_gone e : fs_ok (FGone e).

(** [keep path type]: whether the filter takes the node. *)
Section Keep.
Variable keep : bytes -> bytes -> bool.
Variable root : bytes.
(** The full path of the node with these components. *)
Definition full_path (cs : list bytes) : bytes := Join2 root (path_of cs).
Definition kept (cs : list bytes) (f : fs) : bool :=
  match f with
  | FReg _ _ _ | FRegUnreadable _ _ _ => keep (full_path cs) (bs "regular")
  | FSym _ | FSymUnreadable _ => keep (full_path cs) (bs "symlink")
  | FDir _ | FDirUnreadable _ => keep (full_path cs) (bs "directory")
  | _ => true
  end.
(** The tree without the rejected nodes; executable iff the owner may execute. *)
Fixpoint tree_of (cs : list bytes) (f : fs) : option node :=
  if kept cs f then
    match f with
    | FReg mode _ d => Some (Reg (N.testbit mode 6) (src_data d))
    | FSym t => Some (Sym t)
    | FDir es =>
        Some (Dir (concat (map (fun e => match tree_of (cs ++ [fst e]) (snd e) with
                                         | Some t => [(fst e, t)]
                                         | None => []
                                         end) es)))
    | _ => None
    end
  else None.
(** Everything that is kept can be read, has a known type, and every file's
    content has exactly its stat size. *)
Fixpoint intact (cs : list bytes) (f : fs) : Prop :=
  if kept cs f then
    match f with
    | FReg _ size d => fin d = EEOF /\ Z.of_nat (length (src_data d)) = size
    | FSym t => t <> []
    | FDir es => fold_right (fun e P => intact (cs ++ [fst e]) (snd e) /\ P) True es
    | _ => False
    end
  else True.
End Keep.
Definition keep_of (filter : option (bytes -> bytes -> bool)) : bytes -> bytes -> bool :=
  match filter with Some f => f | None => fun _ _ => true end.
