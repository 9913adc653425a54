(** C66, C67: what cat and ls make of an archive with an entry called ")" that something comes after. *)
From Verif Require Import Base.Bytes Base.BytesFacts Model.GoIO Model.GoStd Model.Wire Model.Nar Model.NarReader Model.Cmd
  Spec.WireSpec Spec.NarSpec Spec.CmdSpec Props.CmdP.
Ltac Zify.zify_post_hook ::= idtac.

(** The file is /q/z; there is no /z. *)
Definition astray : node := Dir [(bs "q", Dir [(bs ")", Dir [(bs ")", Sym (bs "x"))]); (bs "z", Reg false (bs "hi"))])].
Lemma astray_wf : wf_tree any_name astray.
Proof.
  assert (N : forall n, In n [bs "q"; bs ")"; bs "z"] -> name_ok n /\ any_name n).
  { intros n Hn. split; [|exact I]. cbn [In] in Hn. repeat destruct Hn as [<-|Hn]; try destruct Hn;
      (repeat split; try discriminate; try (cbn; lia); intros Hs; repeat destruct Hs as [Hs|Hs]; try discriminate Hs; destruct Hs). }
  unfold astray. repeat (constructor; cbn [fst snd map names_sorted]); try (apply N; cbn; tauto); try discriminate; try reflexivity.
Qed.
Lemma astray_nothing n : ~ at_path astray [bs "z"] n.
Proof.
  intros H. inversion H as [|es name u cs n' I A]; subst. destruct I as [I|[]]. apply (f_equal (fun p => beq (fst p) (bs "z"))) in I. vm_compute in I. discriminate I.
Qed.
(** cat finds no /q/z, but prints its content as that of /z, and succeeds. *)
Theorem C66_misplaced_refuted : wf_tree any_name astray /\ at_path astray [bs "q"; bs "z"] (Reg false (bs "hi")) /\
  (forall n, ~ at_path astray [bs "z"] n) /\
  cat_Run four (Src [nar astray] EEOF false) (bs "/z") (Sink [] []) = (Ok tt, Sink (bs "hi") []) /\
  cat_Run four (Src [nar astray] EEOF false) (bs "/q/z") (Sink [] []) = (Err (EMsg "requested path not found"), Sink [] []).
Proof.
  split; [exact astray_wf|]. split; [econstructor; [left; reflexivity|econstructor; [right; left; reflexivity|constructor]]|].
  split; [exact astray_nothing|]. split; vm_compute; reflexivity.
Qed.
Print Assumptions C66_misplaced_refuted.
(** ls -R lists /z, which is not there. *)
Theorem C67_misplaced_refuted : wf_tree any_name astray /\ (forall n, ~ at_path astray [bs "z"] n) /\
  ls_Run (Src [nar astray] EEOF false) (bs "/z") true = (Ok tt, line_of [bs "z"] (Reg false (bs "hi"))) /\
  ls_Run (Src [nar astray] EEOF false) (bs "/q/z") true = (Ok tt, []).
Proof. split; [exact astray_wf|]. split; [exact astray_nothing|]. split; vm_compute; reflexivity. Qed.
Print Assumptions C67_misplaced_refuted.
