(** C49: exactly which derivations survive writing and reading. *)
From Verif Require Import Base.Bytes Base.BytesFacts Model.GoIO Model.Storepath Model.Derivation Model.DrvParser Spec.DerivationSpec Spec.RoundSpec
  Proof.DrvEncode Proof.DrvText Proof.DrvExact Props.DerivationP.
Ltac Zify.zify_post_hook ::= idtac.

(** Those that are valid, whose name is the one in the variables, whose platform and
    builder need no escaping, and whose other unescaped strings, put between quotes,
    close the quotes and brackets they open and hide no comma of an array around them. *)
Theorem C49_exact : forall json d w, wf_maps d -> ~ ambiguous d -> Forall (eq None) (plan w) ->
  exists t pl, aterm d t /\ WriteDerivation d w = (Ok tt, Sink (out w ++ t) pl) /\
    forall r, src_data r = t -> fin r = EEOF ->
      (exists d', ReadDerivation json r = Ok d' /\ same_drv d d') <->
      drv_Validate d = Ok tt /\ json_consistent json d /\ plain_text (d_platform d) /\ plain_text (d_builder d) /\ neat_drv d.
Proof.
  intros json d w W NA G. destruct (write_good d w W G) as (t & pl & A & E). exists t, pl. split; [exact A|]. split; [exact E|].
  intros r HR HF. exact (read_back_iff json d t r W NA A HR HF).
Qed.
Print Assumptions C49_exact.
(** Strings without quotes and backslashes, or with all of them escaped, are neat. *)
Theorem C49_literals_neat : forall d, Forall literal (raw_strings d) -> neat_drv d.
Proof.
  intros d. unfold raw_strings, neat_drv, mkeys. rewrite !Forall_app, !Forall_concat, !Forall_map. intros (A & B & C & D & E).
  assert (L : forall k l, Forall literal l -> Forall (neat k) l) by (intros k l; apply Forall_impl; intros a; apply literal_neat).
  split; [eapply Forall_impl; [|exact A]; intros no; apply L|]. split; [eapply Forall_impl; [|exact B]; intros pn H; inversion H as [|? ? H1 H2]; subst; split; [apply literal_neat, H1|apply L, H2]|].
  split; [apply L, C|]. split; [apply L, D|]. eapply Forall_impl; [|exact E]. intros kv. apply literal_neat.
Qed.
Print Assumptions C49_literals_neat.

Definition with_args (l : list bytes) : drv :=
  Drv [] [(bs "out", Output (bs "/nix/store/00bgd045z0d4icpbc2yyz4gx48ak44la-x") [] [])] [] [] (bs "p") (bs "b") l [(bs "name", bs "x")].
Definition q1 (s : string) : bytes := map (fun c => if byte_eqb c "'"%byte then x22 else c) (bs s).
(** In quotes ('): x'y'z is read back as it is; x'y, x','y and x'('y are not;
    x'(,)'y is; x'),('y would be in an array that is in no other. *)
Example C49_neat_examples : neat 2 (q1 "x'y'z") /\ ~ literal (q1 "x'y'z") /\ ~ neat 2 (q1 "x','y") /\ ~ neat 2 (q1 "x'y") /\ ~ neat 2 (q1 "x'('y") /\ neat 2 (q1 "x'(,)'y") /\
  neat 1 (q1 "x'),('y") /\ ~ neat 2 (q1 "x'),('y").
Proof.
  assert (R : forall a, settles 0 0 false false (quoted a) = Some 0%Z -> settles (-1) 0 false false (quoted a) = Some 0%Z -> neat 2 a).
  { intros a A B l L. assert (l = 0 \/ l = -1)%Z as [->| ->] by lia; assumption. }
  assert (X : forall l a, (l = 0 \/ l = -1)%Z -> settles l 0 false false (quoted a) <> Some 0%Z -> ~ neat 2 a) by (intros l a L H N; apply H, N; lia).
  split; [apply R; vm_compute; reflexivity|]. split; [intros (_ & L & _); apply L; reflexivity|]. split; [apply (X 0%Z); [lia|vm_compute; discriminate]|]. split; [apply (X 0%Z); [lia|vm_compute; discriminate]|].
  split; [apply (X 0%Z); [lia|vm_compute; discriminate]|]. split; [apply R; vm_compute; reflexivity|].
  split; [intros l L; replace l with 0%Z by lia; vm_compute; reflexivity|]. apply (X (-1)%Z); [lia|vm_compute; discriminate].
Qed.
Example C49_exact_nonvacuous : let d := with_args [q1 "x'y'z"] in wf_maps d /\ ~ ambiguous d /\ drv_Validate d = Ok tt /\ json_consistent no_json d /\ plain_text (d_platform d) /\ plain_text (d_builder d) /\ neat_drv d /\
  ~ neat_drv (with_args [q1 "x','y"]).
Proof.
  cbv zeta. split; [repeat split; apply nodup_dec; vm_compute; reflexivity|]. split; [intros (_ & [X|[]] & _); discriminate X|]. split; [vm_compute; reflexivity|]. split; [reflexivity|].
  split; [apply plain_dec; vm_compute; reflexivity|]. split; [apply plain_dec; vm_compute; reflexivity|]. split.
  - assert (L : forall k a, literalb a = true -> neat k a) by (intros k a H; apply literal_neat, (literalb_ok (length a)); auto).
    split; [repeat (constructor; [repeat (constructor; [apply L; vm_compute; reflexivity|]); constructor|]); constructor|]. split; [constructor|]. split; [constructor|].
    split; [constructor; [exact (proj1 C49_neat_examples)|constructor]|]. constructor; [apply L; vm_compute; reflexivity|constructor].
  - intros (_ & _ & _ & A & _). inversion A as [|? ? X _]; subst. exact (proj1 (proj2 (proj2 C49_neat_examples)) X).
Qed.

(** * C125: what was read can be written and read again *)
(** Whatever text was read: the derivation is written as the same text [t] everywhere,
    and [t] is read as that derivation exactly if the platform and the builder need no
    escaping and the other unescaped strings are neat. *)
Theorem C125_again_exact : forall json r d, ReadDerivation json r = Ok d ->
  exists t, (forall w, Forall (eq None) (plan w) -> exists pl, WriteDerivation d w = (Ok tt, Sink (out w ++ t) pl)) /\
    forall r', src_data r' = t -> fin r' = EEOF ->
      (ReadDerivation json r' = Ok d <-> plain_text (d_platform d) /\ plain_text (d_builder d) /\ neat_drv d).
Proof. intros json r d R. destruct (again_iff json r d R) as (t & A & B). exists t. split; [exact A|exact B]. Qed.
Print Assumptions C125_again_exact.
(** Normal forms: a text whose strings are literals is, read and written, a text that
    reading and writing leaves as it is. *)
Theorem C125_normal_form_partial : forall json r d w, ReadDerivation json r = Ok d -> Forall literal (raw_strings d) ->
  plain_text (d_platform d) -> plain_text (d_builder d) -> Forall (eq None) (plan w) ->
  exists t pl, WriteDerivation d w = (Ok tt, Sink (out w ++ t) pl) /\
    forall r', src_data r' = t -> fin r' = EEOF -> exists d', ReadDerivation json r' = Ok d' /\ d' = d /\
      forall w', Forall (eq None) (plan w') -> exists pl', WriteDerivation d' w' = (Ok tt, Sink (out w' ++ t) pl').
Proof.
  intros json r d w R L P B G. destruct (again_iff json r d R) as (t & A & I). destruct (A w G) as (pl & E). exists t, pl. split; [exact E|].
  intros r' D F. exists d. split; [apply (I r' D F); split; [exact P|split; [exact B|exact (C49_literals_neat d L)]]|]. split; [reflexivity|exact A].
Qed.
Print Assumptions C125_normal_form_partial.
(** False of some texts, even with plain platform and builder: the last variable
    here has no value, so that nothing ends its name at the inner quote; it is
    written with a value, and read with another name. *)
Definition odd_text : bytes := q1 "Derive([('out','/nix/store/00bgd045z0d4icpbc2yyz4gx48ak44la-x','','')],[],[],'p','b',[],[('name','x'),('z'('y')])".
Theorem C125_refuted : forall json, exists d d' t, ReadDerivation json (src1 odd_text) = Ok d /\ WriteDerivation d good_sink = (Ok tt, Sink t []) /\
  ReadDerivation json (src1 t) = Ok d' /\ d_env d = [(bs "name", bs "x"); (q1 "z'('y", [])] /\ d_env d' <> d_env d /\ plain_text (d_platform d) /\ plain_text (d_builder d).
Proof.
  intros json. set (d := Drv [] [(bs "out", Output (bs "/nix/store/00bgd045z0d4icpbc2yyz4gx48ak44la-x") [] [])] [] [] (bs "p") (bs "b") [] [(bs "name", bs "x"); (q1 "z'('y", [])]).
  set (d' := Drv [] [(bs "out", Output (bs "/nix/store/00bgd045z0d4icpbc2yyz4gx48ak44la-x") [] [])] [] [] (bs "p") (bs "b") [] [(bs "name", bs "x"); (q1 "z'('y','", [])]).
  exists d, d', (text_of d). split; [vm_compute; reflexivity|]. split; [vm_compute; reflexivity|]. split; [vm_compute; reflexivity|]. split; [reflexivity|]. split; [vm_compute; discriminate|].
  split; apply plain_dec; vm_compute; reflexivity.
Qed.
Print Assumptions C125_refuted.
(** A text that is not canonical and is brought into its normal form: an
    unknown escape, and a variable without its value. *)
Example C125_nonvacuous : let t0 := q1 "Derive([('out','/nix/store/00bgd045z0d4icpbc2yyz4gx48ak44la-x','','')],[],[],'p','b',['-c'],[('name','\x'),('z')])" in
  let t := q1 "Derive([('out','/nix/store/00bgd045z0d4icpbc2yyz4gx48ak44la-x','','')],[],[],'p','b',['-c'],[('name','\\x'),('z','')])" in
  exists d, ReadDerivation no_json (src1 t0) = Ok d /\ Forall literal (raw_strings d) /\ plain_text (d_platform d) /\ plain_text (d_builder d) /\
    WriteDerivation d good_sink = (Ok tt, Sink t []) /\ t0 <> t.
Proof.
  cbv zeta. eexists. split; [vm_compute; reflexivity|]. split; [apply literals_dec; vm_compute; reflexivity|]. split; [apply plain_dec; vm_compute; reflexivity|]. split; [apply plain_dec; vm_compute; reflexivity|].
  split; [vm_compute; reflexivity|]. vm_compute. discriminate.
Qed.
