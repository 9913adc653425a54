(** C53, C60: the verdict of Validate for every order in which the variables can come; C50, C72: exactly which texts come back unchanged. *)
From Verif Require Import Base.Bytes Base.BytesFacts Model.GoIO Model.Storepath Model.Derivation Model.DrvParser Model.StoreBackends Model.Cmd Spec.StorePathSpec Spec.DerivationSpec Spec.RoundSpec Spec.ValidSpec
  Proof.DrvEncode Proof.DrvValidate Proof.DrvAccept Proof.DrvValidOrder Proof.DrvText Proof.DrvExactAll Props.DerivationP Props.RoundP Props.BackendP.
Ltac Zify.zify_post_hook ::= idtac.

(** The verdict, whatever the order; nothing is left out. *)
Theorem C53_exact : forall d, drv_Validate d = Ok tt <-> in_shape d /\ named_in (d_name d) (d_env d).
Proof. exact valid_order. Qed.
Print Assumptions C53_exact.
(** The derivations that are accepted in every order are the valid ones. *)
Theorem C53_always : forall d, (forall e, same_drv d e -> drv_Validate e = Ok tt) <-> valid_drv d.
Proof. exact every_order. Qed.
Print Assumptions C53_always.
(** Those that are accepted in some order. *)
Theorem C53_sometimes : forall d, (exists e, same_drv d e /\ drv_Validate e = Ok tt) <->
  in_shape d /\ (has_key "name" (d_env d) \/ (has_key "__json" (d_env d) /\ d_name d <> [])).
Proof. exact some_order. Qed.
Print Assumptions C53_sometimes.
(** So the verdict depends on the order exactly for the ambiguous ones among those of the right shape. *)
Theorem C53_depends : forall d,
  ((exists e, same_drv d e /\ drv_Validate e = Ok tt) /\ (exists e, same_drv d e /\ drv_Validate e <> Ok tt)) <-> in_shape d /\ ambiguous d.
Proof.
  intros d. split.
  - intros (A & (e & S & B)). pose proof A as A'. apply C53_sometimes in A. destruct A as (A & N). split; [exact A|].
    destruct (in_dec (list_eq_dec Byte.byte_eq_dec) (bs "name") (mkeys (d_env d))) as [X|X], (in_dec (list_eq_dec Byte.byte_eq_dec) (bs "__json") (mkeys (d_env d))) as [Y|Y], (list_eq_dec Byte.byte_eq_dec (d_name d) []) as [Z|Z].
    1: unfold ambiguous, has_key; auto.
    all: exfalso; apply B; apply valid_order; split; [exact (same_shape _ _ S A)|]; apply named_flag, last_flag_unambiguous;
      destruct S as (S1 & _ & _ & _ & _ & _ & _ & S8); rewrite <- S1; unfold has_key in *;
      assert (K : forall k, In k (mkeys (d_env e)) <-> In k (mkeys (d_env d))) by (intros k; split; intros W; eapply Permutation_in; try exact W; [apply Permutation_map; symmetry; exact S8|apply Permutation_map; exact S8]); rewrite !K; tauto.
  - intros (A & NM & J & Z). split; [apply C53_sometimes; auto|].
    destruct (to_end (d_env d) (bs "__json") J) as (v & l & P). exists (env_as d (l ++ [(bs "__json", v)])). pose proof (env_as_same d _ P) as S. split; [exact S|].
    intros V. apply valid_order in V. destruct V as (_ & V). cbn [env_as d_name d_env] in V. destruct V as [(V & _)|(b & w & a & X & Y)]; [contradiction|].
    destruct a as [|z a _] using rev_ind; [apply app_inj_tail in X; destruct X as (_ & X); elim json_name; congruence|].
    rewrite app_comm_cons, app_assoc in X. apply app_inj_tail in X. destruct X as (_ & <-). apply Y. rewrite map_app, in_app_iff. right. left. reflexivity.
Qed.
Print Assumptions C53_depends.
Example C53_exact_nonvacuous : let d := fun env => mk (bs "b") [] env in
  in_shape (d [(bs "name", bs "x")]) /\ named_in [] [(bs "__json", bs "{}"); (bs "name", bs "x")] /\ ~ named_in [] [(bs "name", bs "x"); (bs "__json", bs "{}")] /\
  in_shape (d [(bs "name", bs "x"); (bs "__json", bs "{}")]) /\ ambiguous (d [(bs "name", bs "x"); (bs "__json", bs "{}")]) /\ ~ in_shape (mk [] [] [(bs "name", bs "x")]).
Proof.
  cbv zeta. assert (I : forall env, drv_Validate (mk (bs "b") [] env) = Ok tt -> in_shape (mk (bs "b") [] env)) by (intros env H; apply valid_order in H; apply H).
  split; [apply I; vm_compute; reflexivity|]. split; [right; exists [(bs "__json", bs "{}")], (bs "x"), []; split; [reflexivity|intros []]|].
  assert (N : drv_Validate (mk (bs "b") [] [(bs "name", bs "x"); (bs "__json", bs "{}")]) <> Ok tt) by (vm_compute; discriminate).
  assert (S : in_shape (mk (bs "b") [] [(bs "name", bs "x"); (bs "__json", bs "{}")])).
  { apply (same_shape (mk (bs "b") [] [(bs "__json", bs "{}"); (bs "name", bs "x")])); [repeat split; try reflexivity; apply perm_swap|]. apply I. vm_compute. reflexivity. }
  split; [intros X; apply N; apply valid_order; split; [exact S|exact X]|]. split; [exact S|]. split; [split; [left; reflexivity|split; [right; left; reflexivity|reflexivity]]|].
  intros (_ & _ & _ & _ & _ & X & _). apply X. reflexivity.
Qed.

(** * C60: what is accepted, without the function Validate *)
Theorem C60_exact : forall json r d, ReadDerivation json r = Ok d <->
  fin r = EEOF /\ reads_drv json (src_data r) d /\ in_shape d /\ (has_key "name" (d_env d) \/ (has_key "__json" (d_env d) /\ d_name d <> [])).
Proof.
  intros json r d. rewrite accept_iff, valid_order. split.
  - intros (F & R & V & N). split; [exact F|]. split; [exact R|]. split; [exact V|]. apply (some_order d). exists d. split; [unfold same_drv; auto 10|]. apply valid_order. auto.
  - intros (F & R & V & N). split; [exact F|]. split; [exact R|]. split; [exact V|]. apply sorted_named; [|exact N].
    destruct R as (? & ? & ? & ? & ? & ? & ? & ? & ? & R). apply R.
Qed.
Print Assumptions C60_exact.
(** Go visits the variables in any order.  A text that can be read is read whatever the
    order exactly if what it says is a valid derivation, and else only if "name" comes last. *)
Theorem C60_orders : forall json r d, ReadDerivation json r = Ok d ->
  ((forall e, same_drv d e -> drv_Validate e = Ok tt) <-> valid_drv d) /\
  ((exists e, same_drv d e /\ drv_Validate e <> Ok tt) <-> ambiguous d).
Proof.
  intros json r d R. split; [apply C53_always|]. apply C60_exact in R. destruct R as (_ & _ & V & N). pose proof (C53_depends d) as D. split.
  - intros X. apply D. split; [apply C53_sometimes; auto|exact X].
  - intros X. apply D. auto.
Qed.
Print Assumptions C60_orders.
Example C60_exact_nonvacuous : reads_drv no_json (text_of sample) sample_sorted /\ in_shape sample_sorted /\ has_key "name" (d_env sample_sorted) /\ valid_drv sample_sorted.
Proof.
  assert (H : drv_Validate sample_sorted = Ok tt) by (vm_compute; reflexivity). split; [exact C60_nonvacuous|]. pose proof H as V. apply valid_order in V. split; [apply V|]. split; [vm_compute; auto|].
  apply Validate_iff; [|exact H]. intros (_ & J & _). unfold has_key in J. revert J. apply (mget_none (d_env sample_sorted)). vm_compute. reflexivity.
Qed.

(** * C49 for every derivation *)
(** The text of any derivation: when it is read back as the same derivation.  Validate is
    not asked about the original, whose maps may be walked in any order. *)
Theorem C49_exact_all : forall json d w, wf_maps d -> Forall (eq None) (plan w) ->
  exists t pl, aterm d t /\ WriteDerivation d w = (Ok tt, Sink (out w ++ t) pl) /\
    forall r, src_data r = t -> fin r = EEOF ->
      (exists d', ReadDerivation json r = Ok d' /\ same_drv d d') <->
      (in_shape d /\ (has_key "name" (d_env d) \/ (has_key "__json" (d_env d) /\ d_name d <> []))) /\
      json_consistent json d /\ plain_text (d_platform d) /\ plain_text (d_builder d) /\ neat_drv d.
Proof.
  intros json d w W G. destruct (write_good d w W G) as (t & pl & A & E). exists t, pl. split; [exact A|]. split; [exact E|].
  intros r HR HF. exact (read_back_all json d t r W A HR HF).
Qed.
Print Assumptions C49_exact_all.
(** An ambiguous one that Validate refuses in the order given, and that is read back. *)
Example C49_exact_all_nonvacuous : let d := mk (bs "b") [] [(bs "name", bs "x"); (bs "__json", bs "{}")] in
  wf_maps d /\ in_shape d /\ has_key "name" (d_env d) /\ drv_Validate d <> Ok tt /\ json_consistent (fun _ => Ok (Some [])) d /\
  plain_text (d_platform d) /\ plain_text (d_builder d) /\ neat_drv d.
Proof.
  cbv zeta. split; [repeat split; apply nodup_dec; vm_compute; reflexivity|]. split; [apply C53_exact_nonvacuous|]. split; [left; reflexivity|]. split; [vm_compute; discriminate|]. split; [vm_compute; reflexivity|].
  split; [apply plain_dec; vm_compute; reflexivity|]. split; [apply plain_dec; vm_compute; reflexivity|].
  apply C49_literals_neat. assert (L : forall l, forallb literalb l = true -> Forall literal l).
  { intros l H. apply Forall_forall. intros a I. rewrite forallb_forall in H. apply (literalb_ok (length a)); auto. }
  apply L. vm_compute. reflexivity.
Qed.

(** * C50, C72 for every text that can be read *)
(** The result of reading is written as one text everywhere; it is the text that was read
    exactly if that is neat: lists in order, nothing to escape in platform and builder. *)
Theorem C50_exact_all : forall json r d, ReadDerivation json r = Ok d ->
  exists t, (forall w, Forall (eq None) (plan w) -> exists pl, WriteDerivation d w = (Ok tt, Sink (out w ++ t) pl)) /\
    (t = src_data r <-> neat_text (src_data r)).
Proof. exact unchanged_iff. Qed.
Print Assumptions C50_exact_all.
(** [gonix drv show --format aterm] prints a file as it is exactly if it is neat. *)
Theorem C72_exact_all : forall json enc o dir p f d w, os_open o (getFilepath dir p) = Ok f -> fs_Get json o dir p = Ok d -> Forall (eq None) (plan w) ->
  exists t pl, show_Run (fs_Get json o dir) enc p (bs "aterm") w = (Ok tt, Sink (out w ++ t) pl) /\ (t = src_data f <-> neat_text (src_data f)).
Proof.
  intros json enc o dir p f d w O G H. unfold show_Run. rewrite G. change (beq (bs "aterm") (bs "json")) with false. change (beq (bs "aterm") (bs "json-pretty")) with false. change (beq (bs "aterm") (bs "aterm")) with true. cbv iota.
  unfold fs_Get in G. rewrite O in G. cbn [rbind] in G. destruct (ReadDerivation json f) as [d'|e|m] eqn:R; try discriminate G. assert (d' = d) by congruence. subst d'.
  destruct (C50_exact_all json f d R) as (t & W & X). destruct (W w H) as (pl & E). exists t, pl. auto.
Qed.
Print Assumptions C72_exact_all.
Theorem C72_http_exact_all : forall json enc ask base p r d w, ask (getURL_path base p) = Ok r -> http_Get json ask base p = Ok d -> Forall (eq None) (plan w) ->
  exists t pl, show_Run (http_Get json ask base) enc p (bs "aterm") w = (Ok tt, Sink (out w ++ t) pl) /\ (t = src_data (r_body r) <-> neat_text (src_data (r_body r))).
Proof.
  intros json enc ask base p r d w A G H. unfold show_Run. rewrite G. change (beq (bs "aterm") (bs "json")) with false. change (beq (bs "aterm") (bs "json-pretty")) with false. change (beq (bs "aterm") (bs "aterm")) with true. cbv iota.
  apply C65_http_get in G. destruct G as (r' & A' & _ & R). assert (r' = r) by congruence. subst r'.
  destruct (C50_exact_all json (r_body r) d R) as (t & W & X). destruct (W w H) as (pl & E). exists t, pl. auto.
Qed.
Print Assumptions C72_http_exact_all.
(** Neat texts that are not canonical: an argument with bare quotes. *)
Example C50_exact_all_nonvacuous : let d := with_args [q1 "x'y'z"] in let text := text_of d in
  ReadDerivation no_json (src1 text) = Ok d /\ neat_text text /\ ~ Forall literal (raw_strings d) /\
  let text' := removelast text ++ bs "," ++ [x22] ++ bs "junk)" in ReadDerivation no_json (src1 text') = Ok d /\ ~ neat_text text'.
Proof.
  cbv zeta. assert (R : forall t, src_data (src1 t) = t) by (intros t; unfold src1, src_data; cbn [chunks concat]; apply app_nil_r).
  assert (A : ReadDerivation no_json (src1 (text_of (with_args [q1 "x'y'z"]))) = Ok (with_args [q1 "x'y'z"])) by (vm_compute; reflexivity).
  assert (B : ReadDerivation no_json (src1 (removelast (text_of (with_args [q1 "x'y'z"])) ++ bs "," ++ [x22] ++ bs "junk)")) = Ok (with_args [q1 "x'y'z"])) by (vm_compute; reflexivity).
  assert (G : Forall (eq None) (plan good_sink)) by constructor.
  assert (W : WriteDerivation (with_args [q1 "x'y'z"]) good_sink = (Ok tt, Sink (text_of (with_args [q1 "x'y'z"])) [])) by (vm_compute; reflexivity).
  split; [exact A|]. split; [|split; [|split; [exact B|]]].
  - destruct (C50_exact_all _ _ _ A) as (t & X & Y). destruct (X good_sink G) as (pl & Z). rewrite R in Y. apply Y. rewrite W in Z. change (out good_sink ++ t) with t in Z. congruence.
  - intros L. unfold raw_strings in L. rewrite !Forall_app in L. destruct L as (_ & _ & _ & L & _). inversion L as [|? ? L1 _]. exact (proj1 (proj2 C49_neat_examples) L1).
  - intros N. destruct (C50_exact_all _ _ _ B) as (t & X & Y). destruct (X good_sink G) as (pl & Z). rewrite R in Y. apply Y in N. rewrite W in Z. change (out good_sink ++ t) with t in Z.
    assert (E : t = text_of (with_args [q1 "x'y'z"])) by congruence. rewrite E in N. apply (f_equal (@length byte)) in N. vm_compute in N. discriminate N.
Qed.
