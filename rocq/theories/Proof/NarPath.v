(** Paths built from components. *)
From Verif Require Import Base.Bytes Base.BytesFacts Model.GoStd Model.Nar Spec.NarSpec
  Proof.PathFacts Proof.NarUtilProps.
Ltac Zify.zify_post_hook ::= idtac.

Lemma name_ok_plain n : name_ok n -> plain n.
Proof. intros (H1 & H2 & H3 & _). repeat split; auto. Qed.
Lemma name_ok_noslash n : name_ok n -> ~ In slash n.
Proof. intros (_ & _ & _ & H & _). exact H. Qed.
Lemma name_ok_valid n : name_ok n -> IsValidNodeName n = true.
Proof.
  intros (_ & _ & _ & H1 & H2 & _). apply contains_byte_false in H1, H2.
  unfold IsValidNodeName. rewrite H1, H2. reflexivity.
Qed.
Definition comps_ok (cs : list bytes) : Prop := Forall name_ok cs.
Lemma comps_plain cs : comps_ok cs -> Forall plain cs.
Proof. apply Forall_impl. exact name_ok_plain. Qed.
Lemma comps_noslash cs : comps_ok cs -> Forall (fun x => ~ In slash x) cs.
Proof. apply Forall_impl. exact name_ok_noslash. Qed.

Lemma join_app cs n : cs <> [] -> join_byte (cs ++ [n]) slash = join_byte cs slash ++ slash :: n.
Proof.
  induction cs as [|x cs IH]; [congruence|]. intros _. destruct cs as [|y cs].
  - reflexivity.
  - change (join_byte ((x :: y :: cs) ++ [n]) slash) with (x ++ slash :: join_byte ((y :: cs) ++ [n]) slash).
    rewrite IH by discriminate. change (join_byte (x :: y :: cs) slash) with (x ++ slash :: join_byte (y :: cs) slash).
    rewrite <- app_assoc. reflexivity.
Qed.
Lemma split_path_of cs : comps_ok cs ->
  split_byte (path_of cs) slash = [] :: match cs with [] => [[]] | _ => cs end.
Proof.
  intros H. unfold path_of. cbn [split_byte]. rewrite byte_eqb_refl. f_equal.
  destruct cs as [|c cs]; [reflexivity|]. apply join_split; [discriminate|]. apply comps_noslash. exact H.
Qed.
Lemma clean_path_of cs : comps_ok cs -> clean_comps (path_of cs) = cs.
Proof.
  intros H. unfold path_of. rewrite clean_comps_rooted. destruct cs as [|c cs]; [reflexivity|].
  rewrite join_split by (try discriminate; apply comps_noslash; exact H).
  rewrite clean_go_plain by (apply comps_plain; exact H). reflexivity.
Qed.
Lemma Clean_path_of cs : comps_ok cs -> Clean (path_of cs) = path_of cs.
Proof. intros H. apply Clean_plain; [apply comps_plain|apply comps_noslash]; exact H. Qed.
Lemma Join_path_of cs n : comps_ok cs -> name_ok n -> Join2 (path_of cs) n = path_of (cs ++ [n]).
Proof.
  intros Hc Hn. unfold Join2. change (path_of cs) with (slash :: join_byte cs slash).
  assert (E : Clean ((slash :: join_byte cs slash) ++ slash :: n) = path_of (cs ++ [n])); [|destruct n; exact E].
  destruct cs as [|c cs].
  - cbn [join_byte app]. rewrite Clean_rooted. cbn [split_byte]. rewrite byte_eqb_refl.
    rewrite split_nosep by (apply name_ok_noslash; exact Hn). cbn [clean_go].
    destruct (name_ok_plain _ Hn) as (P1 & P2 & P3). apply beq_neq in P1, P2, P3.
    change (beq [] []) with true. cbn [orb]. rewrite P1, P2, P3. reflexivity.
  - replace ((slash :: join_byte (c :: cs) slash) ++ slash :: n) with (path_of ((c :: cs) ++ [n])).
    + apply Clean_path_of. apply Forall_app. split; [exact Hc|]. constructor; [exact Hn|constructor].
    + unfold path_of. change "/"%byte with slash. rewrite join_app by discriminate. reflexivity.
Qed.
Lemma path_of_inj a b : comps_ok a -> comps_ok b -> path_of a = path_of b -> a = b.
Proof. intros Ha Hb H. rewrite <- (clean_path_of a Ha), <- (clean_path_of b Hb), H. reflexivity. Qed.
Lemma path_of_no_nul cs : comps_ok cs -> ~ In x00 (path_of cs).
Proof.
  intros H. unfold path_of. intros [E|E]; [discriminate|].
  induction cs as [|c cs IH]; [destruct E|]. inversion H as [|? ? Hc Hcs]; subst.
  destruct Hc as (_ & _ & _ & _ & Hn & _). destruct cs as [|c2 cs]; [exact (Hn E)|].
  change (join_byte (c :: c2 :: cs) "/"%byte) with (c ++ "/"%byte :: join_byte (c2 :: cs) "/"%byte) in E.
  apply in_app_iff in E. destruct E as [E|[E|E]]; [exact (Hn E)|discriminate|exact (IH Hcs E)].
Qed.

(** * Order *)
Lemma ccmp_refl a : ccmp a a = Eq.
Proof. induction a as [|x a IH]; cbn [ccmp]; [reflexivity|]. rewrite bcmp_refl. exact IH. Qed.
Lemma ccmp_app p a b : ccmp (p ++ a) (p ++ b) = ccmp a b.
Proof. induction p as [|x p IH]; cbn [app ccmp]; [reflexivity|]. rewrite bcmp_refl. exact IH. Qed.
Lemma ccmp_prefix p a : a <> [] -> ccmp p (p ++ a) = Lt.
Proof.
  intros H. rewrite <- (app_nil_r p) at 1. rewrite ccmp_app. destruct a; [congruence|reflexivity].
Qed.
Lemma component_le_path_of a b : comps_ok a -> comps_ok b ->
  (component_le (path_of a) (path_of b) <-> ccmp a b <> Gt).
Proof.
  intros Ha Hb. unfold component_le. rewrite !split_path_of by assumption. cbn [ccmp].
  rewrite bcmp_refl. destruct a as [|x a], b as [|y b]; [reflexivity|..].
  - inversion Hb as [|? ? Hy _]; subst. destruct Hy as (Hy & _). destruct y; [congruence|]. reflexivity.
  - inversion Ha as [|? ? Hx _]; subst. destruct Hx as (Hx & _). destruct x; [congruence|]. cbn. tauto.
  - reflexivity.
Qed.
Lemma lex_path_of a b : comps_ok a -> comps_ok b -> ccmp a b <> Gt ->
  PathIsLexicographicallyOrdered (path_of a) (path_of b) = true.
Proof. intros Ha Hb H. apply lex_ordered_exact. right. apply component_le_path_of; assumption. Qed.
