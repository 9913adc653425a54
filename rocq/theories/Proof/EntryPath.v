(** The lemmas of NarPath for names of any length. *)
From Verif Require Import Base.Bytes Base.BytesFacts Model.GoStd Model.Nar Spec.NarSpec
  Proof.PathFacts Proof.NarUtilProps Proof.NarPath.
Ltac Zify.zify_post_hook ::= idtac.

Lemma entry_name_plain n : entry_name n -> plain n.
Proof. intros (H1 & H2 & H3 & _). repeat split; auto. Qed.
Lemma entry_name_noslash n : entry_name n -> ~ In slash n.
Proof. intros (_ & _ & _ & H & _). exact H. Qed.
Lemma entry_name_valid n : entry_name n -> IsValidNodeName n = true.
Proof.
  intros (_ & _ & _ & H1 & H2). apply contains_byte_false in H1, H2.
  unfold IsValidNodeName. rewrite H1, H2. reflexivity.
Qed.
Definition ecomps (cs : list bytes) : Prop := Forall entry_name cs.
Lemma e_comps_plain cs : ecomps cs -> Forall plain cs.
Proof. apply Forall_impl. exact entry_name_plain. Qed.
Lemma e_comps_noslash cs : ecomps cs -> Forall (fun x => ~ In slash x) cs.
Proof. apply Forall_impl. exact entry_name_noslash. Qed.

Lemma e_split_path_of cs : ecomps cs ->
  split_byte (path_of cs) slash = [] :: match cs with [] => [[]] | _ => cs end.
Proof.
  intros H. unfold path_of. cbn [split_byte]. rewrite byte_eqb_refl. f_equal.
  destruct cs as [|c cs]; [reflexivity|]. apply join_split; [discriminate|]. apply e_comps_noslash. exact H.
Qed.
Lemma e_clean_path_of cs : ecomps cs -> clean_comps (path_of cs) = cs.
Proof.
  intros H. unfold path_of. rewrite clean_comps_rooted. destruct cs as [|c cs]; [reflexivity|].
  rewrite join_split by (try discriminate; apply e_comps_noslash; exact H).
  rewrite clean_go_plain by (apply e_comps_plain; exact H). reflexivity.
Qed.
Lemma e_Clean_path_of cs : ecomps cs -> Clean (path_of cs) = path_of cs.
Proof. intros H. apply Clean_plain; [apply e_comps_plain|apply e_comps_noslash]; exact H. Qed.
Lemma e_Join_path_of cs n : ecomps cs -> entry_name n -> Join2 (path_of cs) n = path_of (cs ++ [n]).
Proof.
  intros Hc Hn. unfold Join2. change (path_of cs) with (slash :: join_byte cs slash).
  assert (E : Clean ((slash :: join_byte cs slash) ++ slash :: n) = path_of (cs ++ [n])); [|destruct n; exact E].
  destruct cs as [|c cs].
  - cbn [join_byte app]. rewrite Clean_rooted. cbn [split_byte]. rewrite byte_eqb_refl.
    rewrite split_nosep by (apply entry_name_noslash; exact Hn). cbn [clean_go].
    destruct (entry_name_plain _ Hn) as (P1 & P2 & P3). apply beq_neq in P1, P2, P3.
    change (beq [] []) with true. cbn [orb]. rewrite P1, P2, P3. reflexivity.
  - replace ((slash :: join_byte (c :: cs) slash) ++ slash :: n) with (path_of ((c :: cs) ++ [n])).
    + apply e_Clean_path_of. apply Forall_app. split; [exact Hc|]. constructor; [exact Hn|constructor].
    + unfold path_of. change "/"%byte with slash. rewrite join_app by discriminate. reflexivity.
Qed.
Lemma e_path_of_inj a b : ecomps a -> ecomps b -> path_of a = path_of b -> a = b.
Proof. intros Ha Hb H. rewrite <- (e_clean_path_of a Ha), <- (e_clean_path_of b Hb), H. reflexivity. Qed.
Lemma e_path_of_no_nul cs : ecomps cs -> ~ In x00 (path_of cs).
Proof.
  intros H. unfold path_of. intros [E|E]; [discriminate|].
  induction cs as [|c cs IH]; [destruct E|]. inversion H as [|? ? Hc Hcs]; subst.
  destruct Hc as (_ & _ & _ & _ & Hn). destruct cs as [|c2 cs]; [exact (Hn E)|].
  change (join_byte (c :: c2 :: cs) "/"%byte) with (c ++ "/"%byte :: join_byte (c2 :: cs) "/"%byte) in E.
  apply in_app_iff in E. destruct E as [E|[E|E]]; [exact (Hn E)|discriminate|exact (IH Hcs E)].
Qed.

(** * Order *)
Lemma e_component_le_path_of a b : ecomps a -> ecomps b ->
  (component_le (path_of a) (path_of b) <-> ccmp a b <> Gt).
Proof.
  intros Ha Hb. unfold component_le. rewrite !e_split_path_of by assumption. cbn [ccmp].
  rewrite bcmp_refl. destruct a as [|x a], b as [|y b]; [reflexivity|..].
  - inversion Hb as [|? ? Hy _]; subst. destruct Hy as (Hy & _). destruct y; [congruence|]. reflexivity.
  - inversion Ha as [|? ? Hx _]; subst. destruct Hx as (Hx & _). destruct x; [congruence|]. cbn. tauto.
  - reflexivity.
Qed.
Lemma e_lex_path_of a b : ecomps a -> ecomps b -> ccmp a b <> Gt ->
  PathIsLexicographicallyOrdered (path_of a) (path_of b) = true.
Proof. intros Ha Hb H. apply lex_ordered_exact. right. apply e_component_le_path_of; assumption. Qed.
