(** C66, C67, C72: the command line tools. *)
From Verif Require Import Base.Bytes Base.BytesFacts Model.GoIO Model.GoStd Model.Wire Model.Nar Model.NarReader Model.Derivation Model.DrvParser Model.StoreBackends Model.Cmd
  Spec.DerivationSpec Props.DerivationP Props.BackendP Spec.WireSpec Spec.NarSpec Spec.NarParenSpec Spec.NarHist Spec.CmdSpec Proof.NarReaderFacts Proof.NarReaderAny Proof.NarParenLast Proof.CmdProps Proof.CmdLs.
Ltac Zify.zify_post_hook ::= idtac.

Definition exa : node := Dir [(bs "a", Dir [(bs "x", Reg false (bs "hello")); (bs "y", Sym (bs "x"))]); (bs "b", Reg true [])].
Lemma exa_wf : wf_tree reader_name exa.
Proof.
  assert (N : forall n, existsb (fun c => byte_eqb c "/"%byte || byte_eqb c x00) n = false -> n <> [] -> n <> bs "." -> n <> bs ".." -> n <> bs ")" -> length n <= 255 -> name_ok n /\ reader_name n).
  { intros n H A B C D L. apply Bool.not_true_iff_false in H. split; [|exact D]. split; [exact A|]. split; [exact B|]. split; [exact C|].
    split; [|split; [|exact L]]; intros X; apply H; apply existsb_exists; eexists; (split; [exact X|]); reflexivity. }
  unfold exa. constructor; [repeat (constructor; [apply N; [reflexivity|discriminate..|cbn; lia]|]); constructor|vm_compute; auto|].
  constructor; [|constructor; [constructor; reflexivity|constructor]]. constructor; [repeat (constructor; [apply N; [reflexivity|discriminate..|cbn; lia]|]); constructor|vm_compute; auto|].
  constructor; [constructor; reflexivity|]. constructor; [constructor; [discriminate|vm_compute; discriminate]|constructor].
Qed.
Definition four : nat -> N := fun _ => 4%N.

(** * C66: nar cat.  [listable]: nothing comes after an entry called ")" (C28_listed_exact).  [sizes]: the sizes of the copy buffers; [w]: standard output, which may fail. *)
Theorem C66_prints_partial : forall sizes t s rest e cs x c w,
  (forall k, (0 < sizes k)%N) -> listable t -> flat s = (nar t ++ rest, e) -> at_path t cs (Reg x c) ->
  exists y w', cat_Run sizes s (path_of cs) w = (y, w') /\
    ((y = Ok tt /\ out w' = out w ++ c) \/
     (is_err y = true /\ (exists k, In (Some k) (plan w)) /\ exists a b, c = a ++ b /\ out w' = out w ++ a)).
Proof.
  intros sizes t s rest e cs x c w SZ W Hs A. destruct (cat_run sizes t s rest e (path_of cs) w SZ W Hs) as (y & w' & E & H). exists y, w'. split; [exact E|].
  unfold cat_says in H. rewrite (find_at _ t cs _ (proj1 W) A) in H. destruct H as [H|(-> & H)]; [left; exact H|right]. split; [reflexivity|exact H].
Qed.
Print Assumptions C66_prints_partial.
(** A writer that never fails gets exactly the content. *)
Theorem C66_prints_all_partial : forall sizes t s rest e cs x c w,
  (forall k, (0 < sizes k)%N) -> listable t -> flat s = (nar t ++ rest, e) -> at_path t cs (Reg x c) -> Forall (eq None) (plan w) ->
  exists w', cat_Run sizes s (path_of cs) w = (Ok tt, w') /\ out w' = out w ++ c.
Proof.
  intros sizes t s rest e cs x c w SZ W Hs A P. destruct (C66_prints_partial sizes t s rest e cs x c w SZ W Hs A) as (y & w' & E & [(-> & O)|(_ & (k & K) & _)]); [eauto|].
  rewrite Forall_forall in P. specialize (P _ K). discriminate.
Qed.
Print Assumptions C66_prints_all_partial.
(** Directories, symlinks and absent paths are errors and nothing is printed. *)
Theorem C66_refuses_partial : forall sizes t s rest e p w,
  (forall k, (0 < sizes k)%N) -> listable t -> flat s = (nar t ++ rest, e) -> (forall cs x c, at_path t cs (Reg x c) -> path_of cs <> p) ->
  exists y, cat_Run sizes s p w = (Err y, w).
Proof.
  intros sizes t s rest e p w SZ W Hs A. destruct (cat_run sizes t s rest e p w SZ W Hs) as (y & w' & E & H). rewrite E. unfold cat_says in H.
  assert (G : is_err y = true /\ w' = w).
  { destruct (find _ _) as [[h c]|] eqn:F; [|exact H]. apply find_some in F. destruct F as (I & Q). cbn [fst] in Q. apply items_at in I. destruct I as (cs & n & AT & -> & ->). cbn [app] in *. apply beq_eq in Q. rewrite hdr_path in Q.
    destruct n as [x c|tg|es]; [elim (A cs x c AT Q)|exact H|exact H]. }
  destruct G as (G & ->). destruct y as [u|er|m]; try discriminate G. eauto.
Qed.
Print Assumptions C66_refuses_partial.
Example C66_nonvacuous : listable exa /\ at_path exa [bs "a"; bs "x"] (Reg false (bs "hello")) /\
  cat_Run four (Src [nar exa] EEOF false) (bs "/a/x") (Sink [] []) = (Ok tt, Sink (bs "hello") []) /\
  fst (cat_Run four (Src [nar exa] EEOF false) (bs "/a") (Sink [] [])) = Err (EMsg "unable to cat non-regular file") /\
  fst (cat_Run four (Src [nar exa] EEOF false) (bs "/c") (Sink [] [])) = Err (EMsg "requested path not found").
Proof.
  split; [exact (reader_listable _ exa_wf)|]. split; [|repeat split; vm_compute; reflexivity]. econstructor; [left; reflexivity|]. econstructor; [left; reflexivity|]. constructor.
Qed.
(** ... also with an entry called ")" that nothing comes after. *)
Example C66_tail : let t := Dir [(bs "!", Dir []); (bs ")", Dir [(bs "x", Reg false (bs "hi"))])] in
  listable t /\ ~ wf_tree reader_name t /\ cat_Run four (Src [nar t] EEOF false) (bs "/)/x") (Sink [] []) = (Ok tt, Sink (bs "hi") []) /\
  ls_Run (Src [nar t] EEOF false) (bs "/") true = (Ok tt, lines [] t).
Proof.
  cbn zeta. split; [split|split; [|split; vm_compute; reflexivity]].
  - constructor; [|vm_compute; auto|].
    + repeat (constructor; [split; [|exact I]; repeat split; try discriminate; try (intros [X|X]; [discriminate X|destruct X]); cbn; lia|]). constructor.
    + constructor; [repeat constructor|]. constructor; [|constructor]. constructor; [|vm_compute; auto|constructor; [constructor; reflexivity|constructor]].
      repeat (constructor; [split; [|exact I]; repeat split; try discriminate; try (intros [X|X]; [discriminate X|destruct X]); cbn; lia|]). constructor.
  - exists 1. apply (pl_paren [(bs "!", Dir [])] (Dir [(bs "x", Reg false (bs "hi"))]) 0).
    + constructor; [|constructor]. split; [discriminate|]. repeat constructor.
    + apply (pl_other [] (bs "x") (Reg false (bs "hi")) 0); [constructor|discriminate|constructor].
  - intros H. inversion H as [| |l A A1 A2]; subst. inversion A as [|x1 l1 A3 A4]; subst. inversion A4 as [|x2 l2 A5 A6]; subst. apply A5. reflexivity.
Qed.
(** The reader's weakness for entries named ")" (C28) hides the files after them. *)
Theorem C66_paren_refuted : let t := Dir [(bs ")", Dir []); (bs "a", Reg false (bs "hi"))] in
  wf_tree any_name t /\ at_path t [bs "a"] (Reg false (bs "hi")) /\ cat_Run four (Src [nar t] EEOF false) (bs "/a") (Sink [] []) = (Err (EMsg "requested path not found"), Sink [] []).
Proof.
  cbn zeta. split; [|split; [econstructor; [right; left; reflexivity|constructor]|vm_compute; reflexivity]].
  constructor; [|vm_compute; auto|].
  - repeat (constructor; [split; [|exact I]; repeat split; try discriminate; try (intros [X|X]; [discriminate X|destruct X]); cbn; lia|]). constructor.
  - constructor; [constructor; [constructor|exact I|constructor]|]. constructor; [constructor; reflexivity|constructor].
Qed.
Print Assumptions C66_paren_refuted.
(** Whatever the file is, success means: the archive has a regular file at the path, and what was
    printed is as long as the archive says - unless the file ends early with a plain end of file. *)
Theorem C66_success_partial : forall sizes s p w w', cat_Run sizes s p w = (Ok tt, w') ->
  exists r s1 k l h r1 c, NewReader s = (Ok r, s1) /\ rd_run (repeat ONext k) r = (l ++ [SNext (Ok h)], r1) /\
    hd_path h = p /\ hd_type h = bs "regular" /\ out w' = out w ++ c /\
    (Z.of_nat (length c) <= hd_size h)%Z /\ (fin s <> EEOF -> Z.of_nat (length c) = hd_size h).
Proof.
  intros sizes s p w w' H. unfold cat_Run in H. destruct (NewReader s) as [[r|er|m] s1] eqn:E; [|discriminate H..].
  destruct (new_inv _ _ _ E) as (I & C & _). destruct (cat_sized _ _ _ _ _ _ _ _ I C H) as (k & l & h & r1 & c & X & X1 & X2 & X3 & X4 & X5).
  rewrite (new_fin _ _ _ E) in X5. exists r, s1, k, l, h, r1, c. auto 10.
Qed.
Print Assumptions C66_success_partial.
(** Missing: a truncated archive file is not noticed; cat prints what is there and succeeds. *)
Theorem C66_truncated_refuted : let s := Src [firstn 371 (nar exa)] EEOF false in
  cat_Run four s (bs "/a/x") (Sink [] []) = (Ok tt, Sink (bs "hel") []).
Proof. vm_compute. reflexivity. Qed.
Print Assumptions C66_truncated_refuted.
(** Which error: the Reader's own, "not found" at the end of the archive, the refusal of anything but
    regular files, or one from copying. *)
Theorem C66_errors : forall sizes s p w e w', cat_Run sizes s p w = (Err e, w') ->
  (exists s1, NewReader s = (Err e, s1)) \/
  exists r s1 k l x r1, NewReader s = (Ok r, s1) /\ rd_run (repeat ONext k) r = (map (fun h => SNext (Ok h)) l ++ [SNext x], r1) /\
    Forall (fun h => hd_path h <> p) l /\
    match x with
    | Err EEOF => e = EMsg "requested path not found" /\ w' = w
    | Err er => e = er /\ w' = w
    | Ok h => hd_path h = p /\ ((hd_type h <> bs "regular" /\ e = EMsg "unable to cat non-regular file" /\ w' = w) \/
        (hd_type h = bs "regular" /\ ((e = EIo 1 /\ exists k, In (Some k) (plan w)) \/
          (e <> EEOF /\ exists ns l b r2, rd_run (map ORead ns) r1 = (l ++ [SRead b (Some e)], r2)))))
    | Panic _ => False
    end.
Proof.
  intros sizes s p w e w' H. unfold cat_Run in H. destruct (NewReader s) as [[r|er|m] s1] eqn:E; [|left; exists s1; congruence|discriminate H].
  right. destruct (cat_errors _ _ _ _ _ _ _ H) as (k & l & x & r1 & X). exists r, s1, k, l, x, r1. split; [reflexivity|exact X].
Qed.
Print Assumptions C66_errors.
Example C66_errors_nonvacuous : exists e w', cat_Run four (Src [firstn 300 (nar exa)] (EIo 7) false) (bs "/b") (Sink [] []) = (Err e, w').
Proof. eexists _, _. vm_compute. reflexivity. Qed.
(** For every file the command ends without a panic. *)
Theorem C66_terminates : forall sizes s p w, (forall k, (0 < sizes k)%N) -> is_panic (fst (cat_Run sizes s p w)) = false.
Proof.
  intros sizes s p w SZ. unfold cat_Run. destruct (NewReader s) as [[r|er|m] s1] eqn:E; [|reflexivity|].
  - destruct (new_inv _ _ _ E) as (I & C & _). apply (cat_any sizes p w SZ _ [] _ r I C). unfold dlen. cbn [length]. lia.
  - unfold NewReader in E. destruct (expectString s narVersionMagic1) as [[[]|] s']; discriminate E.
Qed.
Print Assumptions C66_terminates.

(** * C67: nar ls *)
(** The root: everything with -R, the root and its entries without. *)
Theorem C67_root_partial : forall t s rest e, listable t -> flat s = (nar t ++ rest, e) ->
  ls_Run s (bs "/") true = (Ok tt, lines [] t) /\ ls_Run s (bs "/") false = (Ok tt, line_of [] t ++ entry_lines [] t).
Proof.
  intros t s rest e W' Hs. pose proof (proj1 W') as W. rewrite !(ls_run t s rest e _ _ W' Hs). change (bs "/") with (path_of []). rewrite !(ls_node _ t [] t _ W (clear_here t)). split; f_equal.
  - rewrite show_all. exact (lines_items _ t W []).
  - rewrite items_eq. change (path_of []) with (dirp []). rewrite <- (show_below _ [] t W), <- (line_hdr _ [] t W). unfold show. cbn [map concat fst]. f_equal.
    rewrite (shown_slash _ _ []) by (rewrite hdr_path; reflexivity). reflexivity.
Qed.
Print Assumptions C67_root_partial.
(** A node: it and everything below it with -R, it alone without. *)
Theorem C67_subtree_partial : forall t s rest e cs n, listable t -> flat s = (nar t ++ rest, e) -> clear_path t cs n -> cs <> [] ->
  ls_Run s (path_of cs) true = (Ok tt, lines cs n) /\ ls_Run s (path_of cs) false = (Ok tt, line_of cs n).
Proof.
  intros t s rest e cs n W' Hs C NE. pose proof (proj1 W') as W. pose proof (clear_wf _ t cs n C W) as Wn. rewrite !(ls_run t s rest e _ _ W' Hs), !(ls_node _ t cs n _ W C). split; f_equal.
  - rewrite show_all. exact (lines_items _ n Wn cs).
  - exact (show_self _ cs n NE Wn).
Qed.
Print Assumptions C67_subtree_partial.
(** With a slash behind the path: what is below it, or its entries. *)
Theorem C67_inside_partial : forall t s rest e cs n, listable t -> flat s = (nar t ++ rest, e) -> clear_path t cs n -> cs <> [] ->
  ls_Run s (path_of cs ++ bs "/") true = (Ok tt, below_lines cs n) /\ ls_Run s (path_of cs ++ bs "/") false = (Ok tt, entry_lines cs n).
Proof.
  intros t s rest e cs n W' Hs C NE. pose proof (proj1 W') as W. pose proof (clear_wf _ t cs n C W) as Wn. rewrite !(ls_run t s rest e _ _ W' Hs), !(ls_inside _ t cs n _ W C NE). split; f_equal.
  - exact (lines_below _ cs n Wn).
  - exact (show_below _ cs n Wn).
Qed.
Print Assumptions C67_inside_partial.
Example C67_nonvacuous : clear_path exa [bs "a"] (Dir [(bs "x", Reg false (bs "hello")); (bs "y", Sym (bs "x"))]) /\
  ls_Run (Src [nar exa] EEOF false) (bs "/a") true = (Ok tt, bs "-r-xr-xr-x /a" ++ [x0a] ++ bs "-r--r--r-- /a/x (5 bytes)" ++ [x0a] ++ bs "Lrwxrwxrwx /a/y -> x" ++ [x0a]).
Proof.
  split; [|vm_compute; reflexivity]. econstructor; [left; reflexivity| |constructor]. intros m [<-|[<-|[]]] N; [elim N; reflexivity|]. split; intros (r & E); discriminate E.
Qed.
(** Without [clear_path]: a sibling whose name begins with the name asked for is listed too... *)
Theorem C67_prefix_refuted : let t := Dir [(bs "a", Reg false []); (bs "ab", Reg false [])] in
  wf_tree reader_name t /\ at_path t [bs "a"] (Reg false []) /\ ls_Run (Src [nar t] EEOF false) (bs "/a") true = (Ok tt, line_of [bs "a"] (Reg false []) ++ line_of [bs "ab"] (Reg false [])).
Proof.
  cbn zeta. split; [|split; [econstructor; [left; reflexivity|constructor]|vm_compute; reflexivity]].
  constructor; [|vm_compute; auto|repeat constructor].
  repeat (constructor; [split; [repeat split; try discriminate; try (intros X; repeat (destruct X as [X|X]; [discriminate X|]); destruct X); cbn; lia|discriminate]|]). constructor.
Qed.
Print Assumptions C67_prefix_refuted.
(** ... and a node after a directory whose name it extends may not be listed at all: ls stops early. *)
Theorem C67_early_exit_refuted : let t := Dir [(bs "a", Dir [(bs "x", Reg false [])]); (bs "a-b", Reg false [])] in
  wf_tree reader_name t /\ at_path t [bs "a-b"] (Reg false []) /\ ls_Run (Src [nar t] EEOF false) (bs "/a-b") true = (Ok tt, []).
Proof.
  cbn zeta. split; [|split; [econstructor; [right; left; reflexivity|constructor]|vm_compute; reflexivity]].
  constructor; [|vm_compute; auto|].
  - repeat (constructor; [split; [repeat split; try discriminate; try (intros X; repeat (destruct X as [X|X]; [discriminate X|]); destruct X); cbn; lia|discriminate]|]). constructor.
  - constructor; [|repeat constructor]. constructor; [|exact I|repeat constructor]. repeat (constructor; [split; [repeat split; try discriminate; try (intros X; repeat (destruct X as [X|X]; [discriminate X|]); destruct X); cbn; lia|discriminate]|]). constructor.
Qed.
Print Assumptions C67_early_exit_refuted.
(** A directory is shown like an empty executable file: Mode has no directory bit (C26). *)
Theorem C67_directory_mode_refuted : forall cs, line_of cs (Dir []) = line_of cs (Reg true []).
Proof. reflexivity. Qed.
Print Assumptions C67_directory_mode_refuted.
(** Any path [p] whatever: [before] is the part of the archive that ls looks at - it stops at the first node whose
    path is greater than [p] without beginning with it - and the lines are those of the nodes of [before]
    whose path begins with the text [p]. *)
Theorem C67_exact_partial : forall t s rest e p recursive, listable t -> flat s = (nar t ++ rest, e) ->
  exists before after o, ls_Run s p recursive = (Ok tt, o) /\
    all_nodes [] t = before ++ after /\ ls_lists p recursive before o /\
    Forall (fun x => ~ gives_up p (fst x)) before /\ match after with [] => True | x :: _ => gives_up p (fst x) end.
Proof.
  intros t s rest e p rc W' Hs. pose proof (proj1 W') as W. rewrite (ls_run t s rest e p rc W' Hs). destruct (items_nodes _ t W []) as (-> & F).
  destruct (ls_text_lists _ p rc _ F) as (b & a & H). exists b, a. eexists. split; [reflexivity|exact H].
Qed.
Print Assumptions C67_exact_partial.
Example C67_exact_nonvacuous : all_nodes [] exa = [([], exa); ([bs "a"], Dir [(bs "x", Reg false (bs "hello")); (bs "y", Sym (bs "x"))]); ([bs "a"; bs "x"], Reg false (bs "hello")); ([bs "a"; bs "y"], Sym (bs "x")); ([bs "b"], Reg true [])] /\
  gives_up (bs "/a/x") [bs "a"; bs "y"] /\ ls_Run (Src [nar exa] EEOF false) (bs "/a/x") true = (Ok tt, line_of [bs "a"; bs "x"] (Reg false (bs "hello"))).
Proof. split; [reflexivity|]. split; [|vm_compute; reflexivity]. split; [reflexivity|]. intros (r & E). discriminate E. Qed.
(** Every error is the Reader's own. *)
Theorem C67_errors : forall s p rc e o, ls_Run s p rc = (Err e, o) ->
  (exists s1, NewReader s = (Err e, s1)) \/
  (e <> EEOF /\ exists r s1 k l r1, NewReader s = (Ok r, s1) /\ rd_run (repeat ONext k) r = (l ++ [SNext (Err e)], r1)).
Proof.
  intros s p rc e o H. unfold ls_Run in H. destruct (NewReader s) as [[r|er|m] s1] eqn:E; [|left; exists s1; congruence|discriminate H].
  right. destruct (ls_errors _ _ _ _ _ _ H) as (NE & k & l & r1 & X). split; [exact NE|]. exists r, s1, k, l, r1. auto.
Qed.
Print Assumptions C67_errors.
Example C67_errors_nonvacuous : exists e o, ls_Run (Src [firstn 300 (nar exa)] (EIo 7) false) (bs "/") true = (Err e, o) /\ o <> [].
Proof. eexists _, _. split; [vm_compute; reflexivity|discriminate]. Qed.
(** For every file the command ends without a panic. *)
Theorem C67_terminates : forall s p rc, is_panic (fst (ls_Run s p rc)) = false.
Proof.
  intros s p rc. unfold ls_Run. destruct (NewReader s) as [[r|er|m] s1] eqn:E; [|reflexivity|].
  - destruct (new_inv _ _ _ E) as (I & C & _). apply (ls_any p rc _ [] _ r I C). unfold dlen. cbn [length]. lia.
  - unfold NewReader in E. destruct (expectString s narVersionMagic1) as [[[]|] s']; discriminate E.
Qed.
Print Assumptions C67_terminates.

(** * C72: drv show *)
(** [canonical_text] and [plain_text] as in C50. *)
Theorem C72_aterm_partial : forall json enc o dir p f d text plat bld w,
  os_open o (getFilepath dir p) = Ok f -> src_data f = text -> canonical_text text plat bld -> plain_text plat -> plain_text bld ->
  fs_Get json o dir p = Ok d -> Forall (eq None) (plan w) ->
  exists pl, show_Run (fs_Get json o dir) enc p (bs "aterm") w = (Ok tt, Sink (out w ++ text) pl).
Proof.
  intros json enc o dir p f d text plat bld w O D C P1 P2 G H. unfold show_Run. rewrite G. cbn [beq]. change (beq (bs "aterm") (bs "json")) with false. change (beq (bs "aterm") (bs "json-pretty")) with false. change (beq (bs "aterm") (bs "aterm")) with true. cbv iota.
  unfold fs_Get in G. rewrite O in G. cbn [rbind] in G. destruct (ReadDerivation json f) as [d'|e|m] eqn:R; try discriminate G. assert (d' = d) by congruence. subst d'.
  exact (C50_lossless_partial json f text plat bld d w C P1 P2 D R H).
Qed.
Print Assumptions C72_aterm_partial.
(** The same over HTTP. *)
Theorem C72_http_partial : forall json enc ask base p r d text plat bld w,
  ask (getURL_path base p) = Ok r -> src_data (r_body r) = text -> canonical_text text plat bld -> plain_text plat -> plain_text bld ->
  http_Get json ask base p = Ok d -> Forall (eq None) (plan w) ->
  exists pl, show_Run (http_Get json ask base) enc p (bs "aterm") w = (Ok tt, Sink (out w ++ text) pl).
Proof.
  intros json enc ask base p r d text plat bld w A D C P1 P2 G H. unfold show_Run. rewrite G. change (beq (bs "aterm") (bs "json")) with false. change (beq (bs "aterm") (bs "json-pretty")) with false. change (beq (bs "aterm") (bs "aterm")) with true. cbv iota.
  apply C65_http_get in G. destruct G as (r' & A' & _ & R). assert (r' = r) by congruence. subst r'. exact (C50_lossless_partial json (r_body r) text plat bld d w C P1 P2 D R H).
Qed.
Print Assumptions C72_http_partial.
(** Exactly which canonical files are printed as they are, from either store. *)
Theorem C72_exact : forall json enc o dir p f d text plat bld w,
  os_open o (getFilepath dir p) = Ok f -> src_data f = text -> canonical_text text plat bld ->
  fs_Get json o dir p = Ok d -> Forall (eq None) (plan w) ->
  exists t pl, show_Run (fs_Get json o dir) enc p (bs "aterm") w = (Ok tt, Sink (out w ++ t) pl) /\
    (t = text <-> plain_text plat /\ plain_text bld).
Proof.
  intros json enc o dir p f d text plat bld w O D C G H. unfold show_Run. rewrite G. change (beq (bs "aterm") (bs "json")) with false. change (beq (bs "aterm") (bs "json-pretty")) with false. change (beq (bs "aterm") (bs "aterm")) with true. cbv iota.
  unfold fs_Get in G. rewrite O in G. cbn [rbind] in G. destruct (ReadDerivation json f) as [d'|e|m] eqn:R; try discriminate G. assert (d' = d) by congruence. subst d'.
  exact (C50_exact json f text plat bld d w C D R H).
Qed.
Print Assumptions C72_exact.
Theorem C72_http_exact : forall json enc ask base p r d text plat bld w,
  ask (getURL_path base p) = Ok r -> src_data (r_body r) = text -> canonical_text text plat bld ->
  http_Get json ask base p = Ok d -> Forall (eq None) (plan w) ->
  exists t pl, show_Run (http_Get json ask base) enc p (bs "aterm") w = (Ok tt, Sink (out w ++ t) pl) /\
    (t = text <-> plain_text plat /\ plain_text bld).
Proof.
  intros json enc ask base p r d text plat bld w A D C G H. unfold show_Run. rewrite G. change (beq (bs "aterm") (bs "json")) with false. change (beq (bs "aterm") (bs "json-pretty")) with false. change (beq (bs "aterm") (bs "aterm")) with true. cbv iota.
  apply C65_http_get in G. destruct G as (r' & A' & _ & R). assert (r' = r) by congruence. subst r'. exact (C50_exact json (r_body r) text plat bld d w C D R H).
Qed.
Print Assumptions C72_http_exact.
(** A derivation that cannot be read, or an unknown format: an error, and nothing printed. *)
Theorem C72_errors : forall get enc p format w,
  (forall e, get p = Err e -> show_Run get enc p format w = (Err e, w)) /\
  (forall d, get p = Ok d -> format <> bs "json" -> format <> bs "json-pretty" -> format <> bs "aterm" -> exists e, show_Run get enc p format w = (Err e, w)).
Proof.
  intros get enc p format w. split; [intros e E; unfold show_Run; rewrite E; reflexivity|]. intros d E N1 N2 N3. unfold show_Run. rewrite E. apply beq_neq in N1, N2, N3. rewrite N1, N2, N3. eauto.
Qed.
Print Assumptions C72_errors.
Example C72_http_nonvacuous : show_Run (http_Get no_json (fun _ => Ok (Response 200 (src1 (text_of sample)))) (bs "/d")) (fun _ _ w => (Ok tt, w)) (bs "x.drv") (bs "aterm") good_sink = (Ok tt, Sink (text_of sample) []).
Proof. vm_compute. reflexivity. Qed.
Example C72_nonvacuous : show_Run (fs_Get no_json (Os (fun _ => LKind KRegular) (fun _ => Ok (src1 (text_of sample)))) (bs "/nix/store")) (fun _ _ w => (Ok tt, w)) (bs "x.drv") (bs "aterm") good_sink = (Ok tt, Sink (text_of sample) []).
Proof. vm_compute. reflexivity. Qed.
