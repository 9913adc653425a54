(** Property C109: recreating the nodes of an untrusted archive below a directory. *)
From Verif Require Import Base.Bytes Base.BytesFacts Model.GoIO Model.GoStd Model.Wire Model.Nar Model.NarReader
  Spec.WireSpec Spec.NarSpec Spec.NarHist Spec.BackendSpec Spec.ExtractSpec
  Proof.PathFacts Proof.NarUtilProps Proof.EntryPath Proof.NarReaderAny Proof.NarExtract.
Ltac Zify.zify_post_hook ::= idtac.

(** C109: whatever the stream holds, even entries called "..", "." or "", the path of a header joined
    to a directory never leaves it. *)
Theorem C109_within : forall s r s1 ops l r' h dest,
  NewReader s = (Ok r, s1) -> no_close ops -> rd_run ops r = (l, r') -> In h (headers_of l) ->
  dest <> [] -> within dest (Join2 dest (hd_path h)).
Proof.
  intros s r s1 ops l r' h dest HN Hc HR Hin Hd. destruct (reported _ _ _ _ _ _ HN Hc HR) as (css & P).
  destruct (path_list_in _ _ _ P Hin) as (cs & H1 & H2). exists cs. split; [exact H2|]. rewrite H1. apply join_within; assumption.
Qed.
Print Assumptions C109_within.
(** The headers come in the order of the components of their paths, for every pair and not only for
    neighbours ... *)
Theorem C109_in_order : forall s r s1 ops l r' h1 h2,
  NewReader s = (Ok r, s1) -> no_close ops -> rd_run ops r = (l, r') -> before h1 h2 (headers_of l) ->
  component_le (hd_path h1) (hd_path h2).
Proof.
  intros s r s1 ops l r' h1 h2 HN Hc HR (l1 & l2 & l3 & E). destruct (reported _ _ _ _ _ _ HN Hc HR) as (css & P).
  destruct (path_list_at _ _ _ _ _ P E) as (k1 & c & k2 & -> & H1 & H2 & _ & P2 & F).
  destruct (path_list_at _ _ _ _ _ P2 eq_refl) as (j1 & c2 & j2 & -> & H3 & H4 & _). rewrite H1, H3.
  apply e_component_le_path_of; [assumption..|]. apply (proj1 (Forall_forall _ _) F). apply in_app_iff. right. left. reflexivity.
Qed.
Print Assumptions C109_in_order.
(** ... so the nodes of one directory come together ... *)
Theorem C109_together : forall s r s1 ops l r' l1 d l2 h l3 x,
  NewReader s = (Ok r, s1) -> no_close ops -> rd_run ops r = (l, r') -> headers_of l = l1 ++ d :: l2 ++ h :: l3 ->
  at_or_below (hd_path h) (hd_path d) -> In x l2 -> at_or_below (hd_path x) (hd_path d).
Proof.
  intros s r s1 ops l r' l1 d l2 h l3 x HN Hc HR E B Hx. destruct (reported _ _ _ _ _ _ HN Hc HR) as (css & P).
  destruct (path_list_at _ _ _ _ _ P E) as (k1 & c & k2 & -> & H1 & H2 & _ & P2 & F).
  apply in_split in Hx. destruct Hx as (m1 & m2 & ->). rewrite <- app_assoc in P2. cbn [app] in P2.
  destruct (path_list_at _ _ _ _ _ P2 eq_refl) as (j1 & cx & j2 & -> & H3 & H4 & _ & P3 & F2).
  destruct (path_list_at _ _ _ _ _ P3 eq_refl) as (i1 & ch & i2 & -> & H5 & H6 & _).
  assert (L1 : ccmp c cx <> Gt) by (apply (proj1 (Forall_forall _ _) F); apply in_app_iff; right; left; reflexivity).
  assert (L2 : ccmp cx ch <> Gt) by (apply (proj1 (Forall_forall _ _) F2); apply in_app_iff; right; left; reflexivity).
  assert (B2 : exists ds, ch = c ++ ds).
  { destruct B as [B|(a & b & W & _ & B1 & B2)].
    - exists []. rewrite H5, H1 in B. apply e_path_of_inj in B; [|assumption..]. rewrite app_nil_r. exact B.
    - exists b. rewrite H1 in B1. rewrite H5 in B2. apply e_path_of_inj in B2; [|assumption..].
      apply e_path_of_inj in B1; [|assumption|apply Forall_app in W; apply W]. subst. reflexivity. }
  destruct B2 as (ds & ->). destruct (ccmp_between c cx ds L1 L2) as (z & ->). rewrite H3, H1. destruct z as [|z0 z].
  - left. rewrite app_nil_r. reflexivity.
  - right. exists c, (z0 :: z). split; [exact H4|]. split; [discriminate|]. auto.
Qed.
Print Assumptions C109_together.
(** ... and everything above a reported node was reported before as a directory. *)
Theorem C109_ancestors : forall s r s1 ops l r' l1 h l2 p,
  NewReader s = (Ok r, s1) -> no_close ops -> rd_run ops r = (l, r') -> headers_of l = l1 ++ h :: l2 ->
  strictly_below (hd_path h) p -> exists d, In d l1 /\ hd_type d = bs "directory" /\ hd_path d = p.
Proof.
  intros s r s1 ops l r' l1 h l2 p HN Hc HR E (cs & ds & W & Hd & -> & Hp). destruct (reported _ _ _ _ _ _ HN Hc HR) as (css & P).
  destruct (NarReaderAny.new_inv _ _ _ HN) as (H1 & H2 & _).
  destruct (NarReaderAny.run_inv ops [] _ r l r' H1 H2 Hc HR) as ((_ & T & _) & _). cbn [app] in T.
  destruct (ancestors _ _ T P ds l1 h l2 cs E W Hd Hp) as (a & d & b & -> & D1 & D2). exists d.
  split; [apply in_app_iff; right; left; reflexivity|]. auto.
Qed.
Print Assumptions C109_ancestors.
(** But the same path can be reported as a symlink and then again as a directory with nodes in it: a
    caller that creates what it is told writes /etc/passwd. (Nix itself refuses such an archive.) *)
Definition trojan : node := Dir [(bs "a", Sym (bs "/etc")); (bs "a", Dir [(bs "passwd", Reg false (bs "x"))])].
Theorem C109_symlink_refuted : exists r s1 o r',
  NewReader (Src [nar trojan] EEOF false) = (Ok r, s1) /\ session [[]; []; []; []; []] r = (o, r') /\
  map (fun h => (hd_path h, hd_type h)) (ok_headers o) =
    [(bs "/", bs "directory"); (bs "/a", bs "symlink"); (bs "/a", bs "directory"); (bs "/a/passwd", bs "regular")] /\
  map fst o = map Ok (ok_headers o) ++ [Err EEOF] /\
  strictly_below (bs "/a/passwd") (bs "/a").
Proof.
  eexists _, _, _, _. split; [vm_compute; reflexivity|]. split; [vm_compute; reflexivity|]. split; [vm_compute; reflexivity|]. split; [vm_compute; reflexivity|].
  exists [bs "a"], [bs "passwd"]. split; [|split; [discriminate|split; reflexivity]].
  repeat constructor; try discriminate; intros H; repeat (destruct H as [H|H]; [discriminate H|]); destruct H.
Qed.
Print Assumptions C109_symlink_refuted.
(** It is enough to compare each path with the one before: if no two neighbours have the same path
    then no path comes twice, and nothing is reported below a node that is not a directory reported before. *)
Theorem C109_checked_partial : forall s r s1 ops l r',
  NewReader s = (Ok r, s1) -> no_close ops -> rd_run ops r = (l, r') -> no_repeats (headers_of l) ->
  NoDup (map hd_path (headers_of l)) /\
  forall h1 h2, In h1 (headers_of l) -> In h2 (headers_of l) -> strictly_below (hd_path h2) (hd_path h1) ->
    hd_type h1 = bs "directory" /\ before h1 h2 (headers_of l).
Proof.
  intros s r s1 ops l r' HN Hc HR R. destruct (reported _ _ _ _ _ _ HN Hc HR) as (css & P).
  pose proof (no_repeats_nodup _ _ P R) as ND. split; [exact ND|]. intros h1 h2 I1 I2 B.
  apply in_split in I2. destruct I2 as (l1 & l2 & E).
  destruct (C109_ancestors _ _ _ _ _ _ _ _ _ _ HN Hc HR E B) as (d & Hd & D1 & D2).
  assert (h1 = d) as ->.
  { assert (Id : In d (headers_of l)) by (rewrite E; apply in_app_iff; left; exact Hd). revert ND I1 Id D2. generalize (headers_of l). clear.
    induction l as [|a l IH]; intros ND I1 I2 E; [destruct I1|]. inversion ND as [|? ? N1 N2]; subst.
    destruct I1 as [->|I1], I2 as [->|I2]; [reflexivity| | |apply IH; assumption].
    - exfalso. apply N1. rewrite <- E. apply in_map. exact I2.
    - exfalso. apply N1. rewrite E. apply in_map. exact I1. }
  split; [exact D1|]. apply in_split in Hd. destruct Hd as (a & b & ->). exists a, b, l2. rewrite E, <- app_assoc. reflexivity.
Qed.
Print Assumptions C109_checked_partial.
(** A history with files, directories and a symlink that meets the hypotheses. *)
Definition ordinary : node := Dir [(bs "a", Dir [(bs "b", Reg true (bs "x"))]); (bs "c", Sym (bs "/etc"))].
Example C109_nonvacuous : exists r s1 l r', NewReader (Src [nar ordinary] EEOF false) = (Ok r, s1) /\
  rd_run [ONext; ONext; ONext; ORead 4; ONext; ONext] r = (l, r') /\ no_repeats (headers_of l) /\
  map hd_path (headers_of l) = [bs "/"; bs "/a"; bs "/a/b"; bs "/c"] /\
  Join2 (bs "out/../dest/") (bs "/a/b") = bs "dest/a/b".
Proof.
  eexists _, _, _, _. split; [vm_compute; reflexivity|]. split; [vm_compute; reflexivity|]. split; [|split; reflexivity].
  intros l1 h1 h2 l2 E. cbn [headers_of] in E.
  destruct l1 as [|a0 [|a1 [|a2 l1]]]; cbn [app] in E; inversion E; subst; try discriminate.
  all: repeat match goal with H : [] = ?l ++ _ |- _ => destruct l; discriminate H | H : [_] = ?l ++ _ |- _ => destruct l; inversion H; subst end.
Qed.
