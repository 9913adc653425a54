(** What a file system that changes shows of a tree, for C106. *)
From Verif Require Import Base.Bytes Model.GoIO Model.GoStd Model.Nar Model.NarDump Model.NarDumpOS
  Spec.NarSpec Spec.NarDumpSpec.

(** What os.Lstat and os.ReadDir promise at every moment: int64 sizes, and
    valid names in strictly increasing order. *)
Definition os_ok (W : nat -> bytes -> os_answer) : Prop := forall k p,
  (forall m s, a_lstat (W k p) = LReg m s -> (0 <= s < 2 ^ 63)%Z) /\
  (forall ns, a_readdir (W k p) = inl ns -> Forall entry_name ns /\ names_sorted ns).

Definition lstat_type (a : lstat_res) : option bytes :=
  match a with
  | LReg _ _ => Some (bs "regular") | LSym => Some (bs "symlink") | LDir => Some (bs "directory")
  | LSpecial | LErr _ => None
  end.

Section Sees.
Variable keep : bytes -> bytes -> bool.
Variable root : bytes.
Variable W : nat -> bytes -> os_answer.
(** [sees i j cs t]: system calls [i], ..., [j-1] showed the tree [t] at the
    node with components [cs]; every node kept by the filter as it was shown. *)
Inductive sees : nat -> nat -> list bytes -> node -> Prop :=
| see_reg i cs mode size data :
    a_lstat (W i (full_path root cs)) = LReg mode size ->
    a_open (W (S i) (full_path root cs)) = inl data ->
    fin data = EEOF -> Z.of_nat (length (src_data data)) = size ->
    keep (full_path root cs) (bs "regular") = true ->
    sees i (S (S i)) cs (Reg (N.testbit mode 6) (src_data data))
| see_sym i cs target :
    a_lstat (W i (full_path root cs)) = LSym ->
    a_readlink (W (S i) (full_path root cs)) = inl target -> target <> [] ->
    keep (full_path root cs) (bs "symlink") = true ->
    sees i (S (S i)) cs (Sym target)
| see_dir i j cs names es :
    a_lstat (W i (full_path root cs)) = LDir ->
    a_readdir (W (S i) (full_path root cs)) = inl names ->
    keep (full_path root cs) (bs "directory") = true ->
    lists (S (S i)) j cs names es ->
    sees i j cs (Dir es)
(** The listed names, one after the other: each was shown as a subtree, or as
    something the filter rejects. *)
with lists : nat -> nat -> list bytes -> list bytes -> list (bytes * node) -> Prop :=
| list_nil i cs : lists i i cs [] []
| list_keep i j k cs n ns t es :
    sees i j (cs ++ [n]) t -> lists j k cs ns es -> lists i k cs (n :: ns) ((n, t) :: es)
| list_skip i k cs n ns ty es :
    lstat_type (a_lstat (W i (full_path root (cs ++ [n])))) = Some ty ->
    keep (full_path root (cs ++ [n])) ty = false ->
    lists (S i) k cs ns es -> lists i k cs (n :: ns) es.
End Sees.

(** A file system that shows the tree [f] under [root], and does not change. *)
Definition answers (f : fs) (a : os_answer) : Prop :=
  match f with
  | FReg m s d => a_lstat a = LReg m s /\ a_open a = inl d
  | FRegUnreadable m s e => a_lstat a = LReg m s /\ a_open a = inr e
  | FSym t => a_lstat a = LSym /\ a_readlink a = inl t
  | FSymUnreadable e => a_lstat a = LSym /\ a_readlink a = inr e
  | FDir es => a_lstat a = LDir /\ a_readdir a = inl (map fst es)
  | FDirUnreadable e => a_lstat a = LDir /\ a_readdir a = inr e
  | FSpecial => a_lstat a = LSpecial
  | FGone e => a_lstat a = LErr e
  end.
Inductive still (root : bytes) (W : nat -> bytes -> os_answer) : list bytes -> fs -> Prop :=
| still_node cs f :
    (forall k, answers f (W k (full_path root cs))) ->
    (forall es, f = FDir es -> Forall (fun e => still root W (cs ++ [fst e]) (snd e)) es) ->
    still root W cs f.
