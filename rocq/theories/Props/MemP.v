(** C124: the memory a stream can make nar.Reader and wire.ReadBytesFull ask for. *)
From Verif Require Import Base.Bytes Base.BytesFacts Model.GoIO Model.GoStd Model.Wire Model.Nar Model.NarReader Model.NarReaderMem
  Spec.WireSpec Spec.NarSpec Spec.NarHist Spec.MemSpec Proof.WireFacts Proof.WireProps Proof.NarReaderFacts Proof.NarReaderMemFacts.
Ltac Zify.zify_post_hook ::= idtac.

(** With 4095 bytes for one buffer every stream, however hostile and however cut off,
    gives the caller what it gives without a budget, whatever he calls. *)
Theorem C124_budget mem s ops : (4095 <= mem)%N -> m_seen mem s ops = seen_all s ops.
Proof.
  intros H. unfold m_seen, seen_all. rewrite (new_same mem H). destruct (NewReader s) as [[r|e|w] s1]; auto.
  rewrite (calls_same mem H). reflexivity.
Qed.
Print Assumptions C124_budget.

(** A link with a target of 4095 bytes. *)
Definition long_link : bytes :=
  field narVersionMagic1 ++ str "(" ++ str "type" ++ str "symlink" ++ str "target" ++ field (repeat "a"%byte 4095) ++ str ")".
(** 4095 is exact: with one byte less there is an archive that cannot be read any more. *)
Theorem C124_budget_least : exists s ops h, seen_all s ops = (Ok tt, [SNext (Ok h); SNext (Err EEOF)]) /\
  m_seen 4094 s ops = (Ok tt, [SNext (Err (EMsg "out of memory")); SNext (Err (EMsg "out of memory"))]).
Proof.
  exists (Src [long_link] EEOF false), [ONext; ONext], (Header (bs "/") TypeSymlink (repeat "a"%byte 4095) 0 false).
  split; vm_compute; reflexivity.
Qed.
Print Assumptions C124_budget_least.

(** Without a caller's limit it is different: ReadBytesFull asks for as much as the
    length field says, up to the limit, before it has seen a byte of the content. *)
Theorem C124_full mem max : (max < 2 ^ 63)%N -> (forall s, m_ReadBytesFull mem s max = ReadBytesFull s max) <-> (max <= mem)%N.
Proof.
  intros Hm. split; [|intros H s; apply full_same; assumption].
  intros H. destruct (N.le_gt_cases max mem) as [L|L]; [exact L|exfalso].
  specialize (H (Src [le8 max] EEOF false)).
  pose proof (C04_no_panic (Src [le8 max] EEOF false) max Hm) as NP. rewrite <- H in NP.
  assert (2 ^ 63 < 2 ^ 64)%N by (vm_compute; reflexivity).
  revert NP. unfold m_ReadBytesFull. destruct (ReadBytes (Src [le8 max] EEOF false)) as [r s1] eqn:E.
  assert (r = Ok (max, NewBytesReader max)) as ->.
  { unfold ReadBytes in E. destruct (ReadUint64_spec (Src [le8 max] EEOF false) (le8 max) EEOF) as (s2 & _ & _ & R).
    { unfold flat, src_data. cbn [chunks fin concat]. rewrite app_nil_r. reflexivity. }
    assert (8 <=? lenN (le8 max) = true)%N as K by reflexivity. rewrite K in R. destruct R as [R _]. rewrite R in E.
    pose proof (ntake_le8 max []) as T. rewrite app_nil_r in T. rewrite T, le_val_le8 in E by lia. cbn [rbind] in E. congruence. }
  rewrite N.ltb_irrefl. destruct (N.ltb_spec mem max); [|lia]. cbn. discriminate.
Qed.
Print Assumptions C124_full.

(** The names in the paths of all headers are at most 255 bytes long, whatever is called in whatever order. *)
Theorem C124_names s r s1 ops l r' h : NewReader s = (Ok r, s1) -> rd_run ops r = (l, r') -> In (SNext (Ok h)) l ->
  Forall (fun name => (lenN name <= 255)%N) (split_byte (hd_path h) "/"%byte).
Proof.
  intros HN HR Hin. refine (proj2 (run_names ops r l r' _ HR h Hin)).
  unfold NewReader in HN. destruct (expectString s narVersionMagic1) as [[[]|] s2]; try discriminate HN.
  assert (r = RD s2 GFirst None [] None false) as -> by congruence. exact I.
Qed.
Print Assumptions C124_names.

(** The cases the theorems are about: a directory with an entry of a 255 byte name, read with the budget. *)
Definition long_name (k : nat) : bytes :=
  field narVersionMagic1 ++ str "(" ++ str "type" ++ str "directory" ++ str "entry" ++ str "(" ++ str "name" ++ field (repeat "n"%byte k) ++ str "node" ++
  str "(" ++ str "type" ++ str "symlink" ++ str "target" ++ str "t" ++ str ")" ++ str ")" ++ str ")".
Example C124_long_names :
  seen_all (Src [long_name 255] EEOF false) [ONext; ONext; ONext] =
    (Ok tt, [SNext (Ok (Header (bs "/") TypeDirectory [] 0 false)); SNext (Ok (Header (bs "/" ++ repeat "n"%byte 255) TypeSymlink (bs "t") 0 false)); SNext (Err EEOF)]) /\
  seen_all (Src [long_name 256] EEOF false) [ONext; ONext] =
    (Ok tt, [SNext (Ok (Header (bs "/") TypeDirectory [] 0 false)); SNext (Err (EMsg "content length exceeds maximum"))]).
Proof. split; vm_compute; reflexivity. Qed.
(** A hostile length field: 2^62 bytes announced for the target of a link, nothing behind it. *)
Example C124_hostile :
  m_seen 4095 (Src [field narVersionMagic1 ++ str "(" ++ str "type" ++ str "symlink" ++ str "target" ++ le8 (2 ^ 62)] EEOF false) [ONext] =
    (Ok tt, [SNext (Err (EMsg "content length exceeds maximum"))]) /\
  fst (m_ReadBytesFull 4095 (Src [le8 (2 ^ 62)] EEOF false) (2 ^ 63 - 1)) = Panic "out of memory".
Proof. split; vm_compute; reflexivity. Qed.
