(** Derivations with neat strings are told apart by their texts (C119, C62). *)
From Coq Require Import Permutation.
From Verif Require Import Base.Bytes Base.BytesFacts Model.GoIO Model.Storepath Model.Derivation Model.DrvParser Spec.StorePathSpec Spec.DerivationSpec Spec.RoundSpec
  Proof.StorePathProps Proof.DrvEncode Proof.DrvParse Proof.DrvRound Proof.DrvValidate Proof.DrvText Proof.DrvAny Proof.DrvAccept Proof.DrvExact.
Ltac Zify.zify_post_hook ::= idtac.

Lemma literals_neat d : Forall literal (raw_strings d) -> neat_drv d.
Proof.
  unfold raw_strings, neat_drv, mkeys. rewrite !Forall_app, !Forall_concat, !Forall_map. intros (A & B & C & D & E).
  assert (L : forall k l, Forall literal l -> Forall (neat k) l) by (intros k l; apply Forall_impl; intros a; apply literal_neat).
  split; [eapply Forall_impl; [|exact A]; intros no; apply L|]. split; [eapply Forall_impl; [|exact B]; intros pn H; inversion H as [|? ? H1 H2]; subst; split; [apply literal_neat, H1|apply L, H2]|].
  split; [apply L, C|]. split; [apply L, D|]. eapply Forall_impl; [|exact E]. intros kv. apply literal_neat.
Qed.
(** In the text of neat strings every array has just the items that were written. *)
Lemma neat_tree outs ins srcs plat bld args env : neat_drv (drv_of outs ins srcs plat bld args env) ->
  array_of (node "(" ")" (body_items outs ins srcs plat bld args env)) (body_items outs ins srcs plat bld args env) /\
  array_of (brackets (map output_text outs)) (map output_text outs) /\ Forall (fun no => array_of (output_text no) (out_items no)) outs /\
  array_of (brackets (map input_text ins)) (map input_text ins) /\ Forall (fun pn => array_of (input_text pn) (in_items pn) /\ array_of (brackets (map quoted (snd pn))) (map quoted (snd pn))) ins /\
  array_of (brackets (map quoted srcs)) (map quoted srcs) /\ array_of (brackets (map quoted args)) (map quoted args) /\
  array_of (brackets (map env_text env)) (map env_text env) /\ Forall (fun kv => array_of (env_text kv) (env_items kv)) env.
Proof.
  intros (N0 & N1 & N2 & N5 & N6). cbn [drv_of d_outputs d_inputs d_srcs d_args d_env] in *.
  assert (C0 : Forall (clear 2) (map output_text outs)) by (apply Forall_map; eapply Forall_impl; [|exact N0]; intros no H; apply Forall_neat in H; exact (clear_up 2 _ _ _ cl1 H)).
  assert (CI : Forall (fun pn => Forall (clear 3) (in_items pn)) ins).
  { eapply Forall_impl; [|exact N1]. intros pn (X & Y). constructor; [apply neat_clear, X|]. constructor; [|constructor]. apply Forall_neat in Y. exact (clear_up 3 _ _ _ cl2 Y). }
  assert (C1 : Forall (clear 2) (map input_text ins)) by (apply Forall_map; eapply Forall_impl; [|exact CI]; intros pn H; exact (clear_up 2 _ _ _ cl1 H)).
  assert (CE : Forall (fun kv => Forall (clear 3) (env_items kv)) env) by (eapply Forall_impl; [|exact N6]; intros kv X; constructor; [apply neat_clear, X|]; constructor; [apply literal_clear, literal_escaped|constructor]).
  assert (C6 : Forall (clear 2) (map env_text env)) by (apply Forall_map; eapply Forall_impl; [|exact CE]; intros kv H; exact (clear_up 2 _ _ _ cl1 H)).
  apply Forall_neat in N2, N5.
  split.
  { apply (array_self 0); [exact cl1|repeat (constructor; [discriminate|]); constructor|]. unfold body_items.
    repeat (constructor; [|]); [| | | | | | |constructor]; try (apply literal_clear, literal_escaped); apply (clear_up 1 _ _ _ cl2); assumption. }
  split; [exact (array_self 1 _ _ _ cl2 (texts_ne "(" ")" out_items _) C0)|].
  split; [eapply Forall_impl; [|exact N0]; intros no H; apply (array_self 2 "(" ")"); [exact cl1|apply quoted_ne|apply Forall_neat, H]|].
  split; [exact (array_self 1 _ _ _ cl2 (texts_ne "(" ")" in_items _) C1)|].
  split.
  { rewrite Forall_forall in CI, N1 |- *. intros pn I. split; [apply (array_self 2 "(" ")"); [exact cl1|repeat (constructor; [discriminate|]); constructor|exact (CI pn I)]|].
    apply (array_self 3 "[" "]"); [exact cl2|apply quoted_ne|]. apply Forall_neat, (proj2 (N1 pn I)). }
  split; [exact (array_self 1 _ _ _ cl2 (quoted_ne _) N2)|]. split; [exact (array_self 1 _ _ _ cl2 (quoted_ne _) N5)|].
  split; [exact (array_self 1 _ _ _ cl2 (texts_ne "(" ")" env_items _) C6)|].
  eapply Forall_impl; [|exact CE]. intros kv H. apply (array_self 2 "(" ")"); [exact cl1|repeat (constructor; [discriminate|]); constructor|exact H].
Qed.
Lemma quoted_map_inj l l' : map quoted l = map quoted l' -> l = l'.
Proof. revert l'. induction l as [|x l IH]; intros [|y l'] E; try discriminate E; [reflexivity|]. cbn [map] in E. f_equal; [apply quoted_inj; congruence|apply IH; congruence]. Qed.
Lemma mapped_inj {A} (f : A -> bytes) (P : A -> Prop) l l' : (forall x y, P x -> P y -> f x = f y -> x = y) -> Forall P l -> Forall P l' -> map f l = map f l' -> l = l'.
Proof.
  intros H F. revert l'. induction F as [|x l X F IH]; intros [|y l'] F' E; try discriminate E; [reflexivity|]. inversion F' as [|? ? Y F2]; subst. cbn [map] in E.
  f_equal; [apply H; try assumption; congruence|apply IH; [exact F2|congruence]].
Qed.
Lemma escaped_back a b : quoted (escaped a) = quoted (escaped b) -> a = b.
Proof. intros E. apply quoted_inj in E. rewrite <- (unescape_escaped a), E. apply unescape_escaped. Qed.
Lemma text_neat_inj outs ins srcs plat bld args env outs' ins' srcs' plat' bld' args' env' :
  neat_drv (drv_of outs ins srcs plat bld args env) -> neat_drv (drv_of outs' ins' srcs' plat' bld' args' env') ->
  drv_text outs ins srcs plat bld args env = drv_text outs' ins' srcs' plat' bld' args' env' ->
  outs = outs' /\ ins = ins' /\ srcs = srcs' /\ plat = plat' /\ bld = bld' /\ args = args' /\ env = env'.
Proof.
  intros N N' E. apply neat_tree in N, N'. destruct N as (B & O & FO & I & FI & S & A & V & FV), N' as (B' & O' & FO' & I' & FI' & S' & A' & V' & FV').
  unfold drv_text in E. apply app_inv_head in E. change (node "(" ")" (body_items outs ins srcs plat bld args env) = node "(" ")" (body_items outs' ins' srcs' plat' bld' args' env')) in E.
  rewrite E in B. pose proof (array_unique _ _ _ B B') as Q. unfold body_items in Q. clear E B B'.
  assert (Q1 := f_equal (fun l => nth 0 l []) Q). assert (Q2 := f_equal (fun l => nth 1 l []) Q). assert (Q3 := f_equal (fun l => nth 2 l []) Q). assert (Q4 := f_equal (fun l => nth 3 l []) Q).
  assert (Q5 := f_equal (fun l => nth 4 l []) Q). assert (Q6 := f_equal (fun l => nth 5 l []) Q). assert (Q7 := f_equal (fun l => nth 6 l []) Q). cbn [nth] in *. clear Q.
  rewrite Q1 in O. rewrite Q2 in I. rewrite Q3 in S. rewrite Q6 in A. rewrite Q7 in V.
  pose proof (array_unique _ _ _ O O') as EO. pose proof (array_unique _ _ _ I I') as EI. pose proof (array_unique _ _ _ S S') as ES. pose proof (array_unique _ _ _ A A') as EA. pose proof (array_unique _ _ _ V V') as EV.
  split; [|split; [|split; [|split; [|split; [|split]]]]].
  - refine (mapped_inj _ _ _ _ _ FO FO' EO). intros (k & [p a h]) (k' & [p' a' h']) X X' EQ. rewrite EQ in X. pose proof (array_unique _ _ _ X X') as Z. apply (quoted_map_inj [k; p; a; h] [k'; p'; a'; h']) in Z. congruence.
  - refine (mapped_inj _ _ _ _ _ FI FI' EI). intros (k & l) (k' & l') (X & Y) (X' & Y') EQ. rewrite EQ in X. pose proof (array_unique _ _ _ X X') as Z. unfold in_items in Z. cbn [fst snd] in Z, Y, Y'.
    assert (Z1 := f_equal (fun l => nth 0 l []) Z). assert (Z2 := f_equal (fun l => nth 1 l []) Z). cbn [nth] in Z1, Z2. apply quoted_inj in Z1. rewrite Z2 in Y. pose proof (array_unique _ _ _ Y Y') as W. apply quoted_map_inj in W. congruence.
  - apply quoted_map_inj, ES.
  - apply escaped_back, Q4.
  - apply escaped_back, Q5.
  - apply quoted_map_inj, EA.
  - refine (mapped_inj _ _ _ _ _ FV FV' EV). intros (k & l) (k' & l') X X' EQ. rewrite EQ in X. pose proof (array_unique _ _ _ X X') as Z. unfold env_items in Z. cbn [fst snd] in Z.
    assert (Z1 := f_equal (fun l => nth 0 l []) Z). assert (Z2 := f_equal (fun l => nth 1 l []) Z). cbn [nth] in Z1, Z2. apply quoted_inj in Z1. apply escaped_back in Z2. congruence.
Qed.
Lemma neat_of d o i v : in_order (d_outputs d) o -> in_order (d_inputs d) i -> in_order (d_env d) v -> neat_drv d -> neat_drv (drv_of o i (d_srcs d) (d_platform d) (d_builder d) (d_args d) v).
Proof.
  intros (O & _) (I & _) (V & _) (A & B & C & D & E). unfold neat_drv. cbn [drv_of d_outputs d_inputs d_srcs d_args d_env]. repeat split; try assumption; eapply Permutation_Forall; eassumption.
Qed.
Lemma printable_readable d : printable d -> readable d.
Proof. intros (L & P). split; [apply literals_neat, L|exact P]. Qed.
Lemma round_trip_neat json d : wf_maps d -> drv_Validate d = Ok tt -> ~ ambiguous d -> readable d -> json_consistent json d ->
  forall t, aterm d t -> forall r, src_data r = t -> fin r = EEOF -> exists d', ReadDerivation json r = Ok d' /\ same_drv d d'.
Proof. intros W V NA (N & P & B) J t T r HR HF. apply (read_back_iff json d t r W NA T HR HF). auto 6. Qed.
