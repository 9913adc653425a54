(** C104: the nar Writer and the caller's Header structs. *)
From Verif Require Import Base.Bytes Base.BytesFacts Model.GoIO Model.GoStd Model.Wire Model.Nar Model.NarWriter Model.NarWPtr
  Spec.NarSpec Spec.NarWHist Spec.NarWPtrSpec Proof.NarWriterSound Proof.NarWPtrProps.
Ltac Zify.zify_post_hook ::= idtac.

(** For every history of calls and assignments, on every sink: if the structs keep
    their Path and Type after WriteHeader, everything is as if each header had
    been passed by value. *)
Theorem C104_by_value_partial : forall ops m w, kept ops m -> as_by_value ops m w.
Proof. exact kept_run. Qed.
Print Assumptions C104_by_value_partial.
(** With canonical paths, a struct can be used again once a header outside its
    entry has been written. *)
Theorem C104_reuse_closed_partial : forall ops m w,
  canonical_headers ops m -> kept_while_open ops m -> as_by_value ops m w.
Proof. exact kept_while_open_run. Qed.
Print Assumptions C104_reuse_closed_partial.

Definition dir_at (p : string) : header := Header (bs p) (bs "directory") [] 0 false.
Definition link_at (p : string) : header := Header (bs p) (bs "symlink") (bs "x") 0 false.
Definition zero_heap : heap := fun _ => Header [] [] [] 0 false.
(** Missing: one struct for all entries.  All calls return nil, and the archive has an entry ".". *)
Theorem C104_one_struct_refuted :
  let ops := [PSet 0 (dir_at "/"); PHeader 0; PSet 0 (dir_at "/a"); PHeader 0; PClose] in
  exists r w seen r' v v', PNewWriter (Sink [] []) = (Ok r, w) /\ p_run ops zero_heap r = (seen, r') /\
    seen = [SHeader WOk; SHeader WOk; SClosed WOk] /\ out (pw_sink r') = nar (Dir [(bs ".", Dir [])]) /\
    NewWriter (Sink [] []) = (Ok v, w) /\
    wr_run (by_value ops zero_heap) v = ([(WHeader (dir_at "/"), SHeader WOk); (WHeader (dir_at "/a"), SHeader WOk); (WClose, SClosed WOk)], v') /\
    out (wr_sink v') = nar (Dir [(bs "a", Dir [])]).
Proof.
  eexists _, _, _, _, _, _. split; [vm_compute; reflexivity|]. split; [vm_compute; reflexivity|]. split; [reflexivity|].
  split; [vm_compute; reflexivity|]. split; [vm_compute; reflexivity|]. split; [vm_compute; reflexivity|]. vm_compute. reflexivity.
Qed.
Print Assumptions C104_one_struct_refuted.
(** A later entry lands in the wrong directory: "/b" is written as "/a/b". *)
Theorem C104_moved_refuted :
  let ops := [PSet 0 (dir_at "/"); PHeader 0; PSet 1 (dir_at "/a"); PHeader 1; PSet 1 (dir_at "/"); PSet 2 (link_at "/b"); PHeader 2; PClose] in
  exists r w seen r' v l v', PNewWriter (Sink [] []) = (Ok r, w) /\ p_run ops zero_heap r = (seen, r') /\
    seen = [SHeader WOk; SHeader WOk; SHeader WOk; SClosed WOk] /\
    out (pw_sink r') = nar (Dir [(bs "a", Dir [(bs "b", Sym (bs "x"))])]) /\
    NewWriter (Sink [] []) = (Ok v, w) /\ wr_run (by_value ops zero_heap) v = (l, v') /\ map snd l = seen /\
    out (wr_sink v') = nar (Dir [(bs "a", Dir []); (bs "b", Sym (bs "x"))]).
Proof.
  eexists _, _, _, _, _, _, _. split; [vm_compute; reflexivity|]. split; [vm_compute; reflexivity|]. split; [reflexivity|].
  split; [vm_compute; reflexivity|]. split; [vm_compute; reflexivity|]. split; [vm_compute; reflexivity|]. split; vm_compute; reflexivity.
Qed.
Print Assumptions C104_moved_refuted.

(** A struct whose size, mode and target change after the call, and one that is
    used again two entries later. *)
Definition ex_kept : list p_op :=
  [PSet 0 (dir_at "/"); PHeader 0; PSet 0 (Header (bs "/") (bs "directory") (bs "zzz") 7 true);
   PSet 1 (link_at "/a"); PHeader 1; PClose].
Definition ex_reuse : list p_op :=
  [PSet 0 (dir_at "/"); PHeader 0; PSet 1 (link_at "/a"); PHeader 1; PSet 2 (link_at "/b"); PHeader 2; PSet 1 (link_at "/c"); PHeader 1; PClose].
Lemma path_of_app cs ds : cs <> [] -> exists r, path_of (cs ++ ds) = path_of cs ++ r.
Proof.
  intros H. induction ds as [|d ds (r & IH)] using rev_ind; [exists []; rewrite !app_nil_r; reflexivity|].
  rewrite app_assoc, path_of_snoc by (destruct cs; [congruence|discriminate]). rewrite IH, <- app_assoc. eauto.
Qed.
Lemma not_below_ab : ~ at_or_below (bs "/a") (bs "/b").
Proof.
  intros (cs & ds & E1 & E2 & _). destruct (path_of_app cs ds) as (r & R); [intros ->; discriminate E1|].
  rewrite R, <- E1 in E2. discriminate E2.
Qed.
Ltac op_eqs := repeat match goal with
  | H : @eq p_op ?x ?y |- _ => (is_var x; subst x) || (is_var y; subst y) || discriminate H || (injection H; clear H; intros; subst)
  end.
Ltac cut_all E := repeat match type of E with
  | _ = ?a ++ _ => is_var a; destruct a as [|? a]; cbn [app] in E
  | _ :: _ = _ :: _ => injection E; clear E; intros E; intros; op_eqs
  | [] = _ :: _ => discriminate E
  | ?x = ?y => discriminate E
  end.
Lemma canon_slash : canonical_path (bs "/").
Proof. exists []. split; [constructor|reflexivity]. Qed.
Lemma canon_one c : In c [bs "a"; bs "b"; bs "c"] -> canonical_path (slash :: c).
Proof.
  intros H. exists [c]. split; [|reflexivity]. constructor; [|constructor].
  destruct H as [<-|[<-|[<-|[]]]]; (repeat split; try discriminate); cbn; intuition discriminate.
Qed.
Example C104_nonvacuous : kept ex_kept zero_heap /\ canonical_headers ex_reuse zero_heap /\ kept_while_open ex_reuse zero_heap /\ ~ kept ex_reuse zero_heap /\
  exists r w seen r', PNewWriter (Sink [] []) = (Ok r, w) /\ p_run ex_reuse zero_heap r = (seen, r') /\
    out (pw_sink r') = nar (Dir [(bs "a", Sym (bs "x")); (bs "b", Sym (bs "x")); (bs "c", Sym (bs "x"))]).
Proof.
  split; [|split; [|split; [|split]]].
  - intros a p b h c E. unfold ex_kept in E. cut_all E; subst; try discriminate; split; reflexivity.
  - intros a p b E. unfold ex_reuse in E. cut_all E; subst; try discriminate; first [exact canon_slash|apply canon_one; cbn; tauto].
  - intros a p b h c E. unfold ex_reuse in E. cut_all E; subst; try discriminate; try (left; split; reflexivity). right.
    exists [PSet 2 (link_at "/b")], 2, []. split; [reflexivity|]. split; [reflexivity|exact not_below_ab].
  - intros K. destruct (K [PSet 0 (dir_at "/"); PHeader 0; PSet 1 (link_at "/a")] 1 [PSet 2 (link_at "/b"); PHeader 2] (link_at "/c") [PHeader 1; PClose] eq_refl) as (H & _). discriminate H.
  - eexists _, _, _, _. split; [vm_compute; reflexivity|]. split; [vm_compute; reflexivity|]. vm_compute. reflexivity.
Qed.
