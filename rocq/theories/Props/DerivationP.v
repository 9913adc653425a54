(** C49-C60, C69, C70, C95: derivations. *)
From Verif Require Import Base.Bytes Base.BytesFacts Model.GoIO Model.GoStd Model.Nixbase32 Model.Nixhash Model.Storepath Model.Derivation Model.DrvParser
  Spec.StorePathSpec Spec.DerivationSpec
  Proof.StorePathProps Proof.DrvEncode Proof.DrvParse Proof.DrvRound Proof.DrvValidate Proof.DrvText Proof.DrvHash Proof.DrvAny Proof.DrvAccept Proof.DrvOrder Proof.Codec.
Ltac Zify.zify_post_hook ::= idtac.

(** Concrete derivations for the examples and counterexamples. *)
Definition p1 : bytes := bs "/nix/store/00bgd045z0d4icpbc2yyz4gx48ak44la-x".
Definition p2 : bytes := bs "/nix/store/11bgd045z0d4icpbc2yyz4gx48ak44la-y.drv".
Definition p3 : bytes := bs "/nix/store/22bgd045z0d4icpbc2yyz4gx48ak44la-z.drv".
Definition mk (builder : bytes) (args : list bytes) (env : amap bytes) : drv :=
  Drv [] [(bs "out", Output p1 [] [])] [p1] [(p2, [bs "dev"; bs "out"]); (p3, [bs "out"])] (bs "x86_64-linux") builder args env.
Definition sample : drv := mk (bs "/bin/sh") [bs "-c"; bs "true"] [(bs "out", p1); (bs "name", bs "x"); (bs "quote", ["a"%byte; x22; "\"%byte; x0a])].
Definition sample_sorted : drv := mk (bs "/bin/sh") [bs "-c"; bs "true"] [(bs "name", bs "x"); (bs "out", p1); (bs "quote", ["a"%byte; x22; "\"%byte; x0a])].
Definition text_of (d : drv) : bytes := match drv_bytes d false [] with Ok t => t | _ => [] end.
Definition no_json : bytes -> res (option bytes) := fun _ => Err EEOF.
Lemma nodup_dec (l : list bytes) : (fix go (l : list bytes) := match l with [] => true | x :: l' => negb (existsb (beq x) l') && go l' end) l = true -> NoDup l.
Proof.
  induction l as [|x l IH]; [constructor|]. intros H. apply andb_prop in H. destruct H as [H1 H2]. constructor; [|exact (IH H2)].
  intros X. apply negb_true_iff, Bool.not_true_iff_false in H1. apply H1. apply existsb_exists. exists x. split; [exact X|apply beq_refl].
Qed.
Lemma sample_wf : wf_maps sample.
Proof. repeat split; apply nodup_dec; vm_compute; reflexivity. Qed.
Definition good_sink : sink := Sink [] [].
Definition src1 (t : bytes) : src := Src [t] EEOF false.

(** * C49: write, then read *)
Theorem C49_round_trip_partial : forall json d w,
  wf_maps d -> drv_Validate d = Ok tt -> ~ ambiguous d -> printable d -> json_consistent json d -> Forall (eq None) (plan w) ->
  exists t pl, aterm d t /\ WriteDerivation d w = (Ok tt, Sink (out w ++ t) pl) /\
    forall r, src_data r = t -> fin r = EEOF -> exists d', ReadDerivation json r = Ok d' /\ same_drv d d'.
Proof.
  intros json d w W V NA P J G. destruct (write_good d w W G) as (t & pl & A & E). exists t, pl. split; [exact A|]. split; [exact E|].
  intros r HR HF. exact (round_trip json d W V NA P J t A r HR HF).
Qed.
Print Assumptions C49_round_trip_partial.
Fixpoint literalb (s : bytes) : bool :=
  match s with
  | [] => true
  | c :: s' => if byte_eqb c "\"%byte then match s' with [] => false | _ :: s'' => literalb s'' end else negb (byte_eqb c x22) && literalb s'
  end.
Lemma literalb_ok : forall n s, length s <= n -> literalb s = true -> literal s.
Proof.
  induction n as [|n IH]; intros s L; destruct s as [|c s]; [intros; exact I|cbn in L; exfalso; lia|intros; exact I|]. cbn [literal literalb length] in *.
  destruct (byte_eqb c "\"); [destruct s as [|x s]; [discriminate|apply IH; cbn in L; lia]|]. intros H. apply andb_prop in H. destruct H as [H1 H2].
  split; [apply byte_eqb_neq, negb_true_iff; exact H1|apply IH; [lia|exact H2]].
Qed.
Lemma literals_dec l : forallb literalb l = true -> Forall literal l.
Proof. rewrite forallb_forall, Forall_forall. intros H s Hs. exact (literalb_ok (length s) s (le_n _) (H s Hs)). Qed.
Lemma plain_dec s : forallb (fun c => negb (existsb (byte_eqb c) ["\"%byte; x22; x0a; x0d; x09])) s = true -> plain_text s.
Proof.
  rewrite forallb_forall. intros H c Hc X. specialize (H c Hc). apply negb_true_iff in H. apply Bool.not_true_iff_false in H. apply H. apply existsb_exists. exists c. split; [exact X|apply byte_eqb_refl].
Qed.
Example C49_nonvacuous : wf_maps sample /\ drv_Validate sample = Ok tt /\ ~ ambiguous sample /\ printable sample /\ json_consistent no_json sample /\
  ReadDerivation no_json (src1 (text_of sample)) = Ok sample_sorted.
Proof.
  split; [exact sample_wf|]. split; [vm_compute; reflexivity|]. split; [|split; [|split; [reflexivity|vm_compute; reflexivity]]].
  - intros (_ & J & _). unfold has_key in J. revert J. apply (mget_none (d_env sample)). vm_compute. reflexivity.
  - split; [|split; apply plain_dec; vm_compute; reflexivity]. apply literals_dec. vm_compute. reflexivity.
Qed.
(** A quote in an argument is not escaped: one argument comes back as two. *)
Theorem C49_argument_refuted : exists d d', wf_maps d /\ valid_drv d /\ length (d_args d) = 1 /\ length (d_args d') = 2 /\
  forall json, json_consistent json d /\ WriteDerivation d good_sink = (Ok tt, Sink (text_of d) []) /\ ReadDerivation json (src1 (text_of d)) = Ok d'.
Proof.
  set (env := [(bs "name", bs "x")]). exists (mk (bs "b") [["a"%byte; x22; ","%byte; x22; "b"%byte]] env), (mk (bs "b") [bs "a"; bs "b"] env).
  split; [repeat split; apply nodup_dec; vm_compute; reflexivity|]. split.
  - apply Validate_iff; [|vm_compute; reflexivity]. intros (_ & J & _). revert J. apply (mget_none env). vm_compute. reflexivity.
  - split; [reflexivity|]. split; [reflexivity|]. intros json. split; [reflexivity|]. split; vm_compute; reflexivity.
Qed.
Print Assumptions C49_argument_refuted.
(** Escapes in the builder are not undone on reading. *)
Theorem C49_builder_refuted : exists d d', wf_maps d /\ valid_drv d /\ d_builder d = bs "b\" /\ d_builder d' = bs "b\\" /\
  forall json, json_consistent json d /\ WriteDerivation d good_sink = (Ok tt, Sink (text_of d) []) /\ ReadDerivation json (src1 (text_of d)) = Ok d'.
Proof.
  set (env := [(bs "name", bs "x")]). exists (mk (bs "b\") [] env), (mk (bs "b\\") [] env).
  split; [repeat split; apply nodup_dec; vm_compute; reflexivity|]. split.
  - apply Validate_iff; [|vm_compute; reflexivity]. intros (_ & J & _). revert J. apply (mget_none env). vm_compute. reflexivity.
  - split; [reflexivity|]. split; [reflexivity|]. intros json. split; [reflexivity|]. split; vm_compute; reflexivity.
Qed.
Print Assumptions C49_builder_refuted.

(** * C50: read, then write *)
Theorem C50_lossless_partial : forall json r text plat bld d w, canonical_text text plat bld -> plain_text plat -> plain_text bld ->
  src_data r = text -> ReadDerivation json r = Ok d -> Forall (eq None) (plan w) ->
  exists pl, WriteDerivation d w = (Ok tt, Sink (out w ++ text) pl).
Proof. intros json r text plat bld d w C P1 P2 E H G. exact (canonical_lossless json r text plat bld d C P1 P2 E H w G). Qed.
Print Assumptions C50_lossless_partial.
Lemma strict_dec l : (fix go (l : list bytes) := match l with x :: ((y :: _) as l') => blt x y && go l' | _ => true end) l = true -> strictly_sorted l.
Proof.
  induction l as [|x l IH]; [constructor|]. destruct l as [|y l]; [constructor; constructor|]. intros H. apply andb_prop in H. destruct H as [H1 H2]. specialize (IH H2).
  constructor; [exact IH|]. inversion IH as [|? ? _ F]; subst. constructor; [exact H1|]. apply Forall_impl with (2 := F). intros z Hz. eapply blt_trans; eauto.
Qed.
Lemma noempty_dec (l : list bytes) : existsb (beq []) l = false -> ~ In [] l.
Proof. intros H X. apply Bool.not_true_iff_false in H. apply H. apply existsb_exists. exists []. auto. Qed.
Lemma sample_canonical : canonical_text (text_of sample) (bs "x86_64-linux") (bs "/bin/sh").
Proof.
  exists (d_outputs sample_sorted), (d_inputs sample_sorted), (d_srcs sample_sorted), (d_args sample_sorted), (d_env sample_sorted).
  split; [vm_compute; reflexivity|]. split; [apply literals_dec; vm_compute; reflexivity|].
  repeat split; try (apply strict_dec; vm_compute; reflexivity); apply noempty_dec; vm_compute; reflexivity.
Qed.
Example C50_nonvacuous : canonical_text (text_of sample) (bs "x86_64-linux") (bs "/bin/sh") /\ plain_text (bs "x86_64-linux") /\ plain_text (bs "/bin/sh") /\
  ReadDerivation no_json (src1 (text_of sample)) = Ok sample_sorted.
Proof. split; [exact sample_canonical|]. split; [|split]; [apply plain_dec; vm_compute; reflexivity..|vm_compute; reflexivity]. Qed.
(** Exactly which canonical texts come back: those whose platform and builder contain nothing to escape. *)
Theorem C50_exact : forall json r text plat bld d w, canonical_text text plat bld -> src_data r = text ->
  ReadDerivation json r = Ok d -> Forall (eq None) (plan w) ->
  exists t pl, WriteDerivation d w = (Ok tt, Sink (out w ++ t) pl) /\ (t = text <-> plain_text plat /\ plain_text bld).
Proof. intros json r text plat bld d w C E H G. apply (canonical_exact json r text plat bld d C E H w G). Qed.
Print Assumptions C50_exact.
Theorem C50_builder_refuted : exists text plat bld d, canonical_text text plat bld /\
  forall json, ReadDerivation json (src1 text) = Ok d /\ exists t, WriteDerivation d good_sink = (Ok tt, Sink t []) /\ t <> text.
Proof.
  set (env := [(bs "name", bs "x")]). set (d := mk (bs "b\") [] env). set (d' := mk (bs "b\\") [] env).
  exists (text_of d), (bs "x86_64-linux"), (bs "b\"), d'. split.
  - exists (d_outputs d), (d_inputs d), (d_srcs d), (d_args d), (d_env d). split; [vm_compute; reflexivity|]. split; [apply literals_dec; vm_compute; reflexivity|].
    repeat split; try (apply strict_dec; vm_compute; reflexivity); apply noempty_dec; vm_compute; reflexivity.
  - intros json. split; [vm_compute; reflexivity|]. exists (text_of d'). split; [vm_compute; reflexivity|]. apply beq_neq. vm_compute. reflexivity.
Qed.
Print Assumptions C50_builder_refuted.

(** * C51: escaping *)
Theorem C51_unescape_escape : forall s, unescape (escape s) = s.
Proof. intros s. rewrite escape_eq. apply unescape_escaped. Qed.
Print Assumptions C51_unescape_escape.
Theorem C51_no_bare_quote : forall s, literal (escape s).
Proof. intros s. rewrite escape_eq. apply literal_escaped. Qed.
Print Assumptions C51_no_bare_quote.
Theorem C51_unquote_escapeString : forall s, unquote (escapeString s) = Ok s.
Proof. intros s. unfold escapeString. rewrite escape_eq. apply unquote_escaped. Qed.
Print Assumptions C51_unquote_escapeString.
Example C51_nonvacuous : escape ["a"%byte; x22; "\"%byte; x0a; x0d; x09; xff] = bs "a\" ++ [x22] ++ bs "\\\n\r\t" ++ [xff] /\ ~ literal (bs "a" ++ [x22]).
Proof. split; [vm_compute; reflexivity|]. cbn. intuition congruence. Qed.

(** * C52: the order of the maps *)
Theorem C52_write_order : forall d e w, wf_maps d -> same_drv d e -> WriteDerivation d w = WriteDerivation e w.
Proof. intros d e w W S. unfold WriteDerivation. rewrite (same_writes d e false [] W S (no_clash_nil d)). reflexivity. Qed.
Print Assumptions C52_write_order.
Theorem C52_DrvPath_order : forall sha d e, wf_maps d -> same_drv d e -> DrvPath sha d = DrvPath sha e.
Proof. exact DrvPath_same. Qed.
Print Assumptions C52_DrvPath_order.
Theorem C52_hash_order_partial : forall sha d e repl, wf_maps d -> same_drv d e -> no_clash repl d ->
  same_map_result (CalculateOutputPaths sha d repl) (CalculateOutputPaths sha e repl) /\
  CalculateDrvReplacement sha d repl = CalculateDrvReplacement sha e repl.
Proof. intros sha d e repl W S C. split; [apply Calc_same|apply Repl_same]; assumption. Qed.
Print Assumptions C52_hash_order_partial.
Example C52_nonvacuous : same_drv sample sample_sorted /\ sample <> sample_sorted /\ no_clash [(p2, bs "aa"); (p3, bs "bb")] sample.
Proof.
  split; [repeat split; try reflexivity; apply perm_swap|]. split; [intros H; apply (f_equal (fun d => beq (fst (hd ([], []) (d_env d))) (bs "out"))) in H; vm_compute in H; discriminate|].
  intros p q a b x Hp Hq. unfold sample, mk in Hp, Hq. cbn [d_inputs In] in Hp, Hq. destruct Hp as [Hp|[Hp|[]]], Hq as [Hq|[Hq|[]]]; injection Hp as <- <-; injection Hq as <- <-; try reflexivity; vm_compute; congruence.
Qed.
Lemma not_fixed_repl sha d repl : ~ is_fixed d -> CalculateDrvReplacement sha d repl = let* b := drv_bytes d false repl in Ok (hex_encode (sha b)).
Proof.
  intros NF. rewrite ?CalculateDrvReplacement_def. destruct (length (d_outputs d) =? 1) eqn:L; [|reflexivity]. apply Nat.eqb_eq in L. destruct (d_outputs d) as [|[n o] [|]] eqn:D; try discriminate.
  cbn [mget]. destruct (beq_spec n (bs "out")) as [->|]; [|reflexivity]. destruct (beq_spec (o_algo o) []) as [E|E]; [reflexivity|]. exfalso. apply NF. exists o. auto.
Qed.
(** The condition is exact: if the hash is that of every iteration order, inputs with the same replacement have the same
    outputs (for a hash function without collisions and output names without quotes). *)
Theorem C52_hash_order_exact : forall sha d repl, (forall a b, sha a = sha b -> a = b) -> wf_maps d -> ~ is_fixed d ->
  repl <> [] -> (forall p, In p (mkeys (d_inputs d)) -> mget repl p <> None) -> Forall (fun pn => Forall literal (snd pn)) (d_inputs d) ->
  ((forall e, same_drv d e -> CalculateDrvReplacement sha d repl = CalculateDrvReplacement sha e repl) <-> no_clash repl d).
Proof.
  intros sha d repl INJ W NF NE HR L. split; [|intros C e S; apply Repl_same; assumption].
  intros H p q a b x Ip Iq Gp Gq.
  destruct (bytes_eq_dec p q) as [->|D].
  - destruct W as (_ & N & _). pose proof (in_mget _ _ _ N Ip) as X. rewrite (in_mget _ _ _ N Iq) in X. congruence.
  - destruct (in_split _ _ Ip) as (l1 & l2 & E). assert (Iq' : In (q, b) (l1 ++ l2)).
    { rewrite E in Iq. apply in_app_or in Iq. apply in_or_app. destruct Iq as [|[X|]]; [auto|congruence|auto]. }
    destruct (in_split _ _ Iq') as (m1 & m2 & E').
    assert (P : Permutation (d_inputs d) ((m1 ++ m2) ++ [(p, a); (q, b)])).
    { rewrite E. rewrite <- Permutation_middle, E', <- Permutation_middle. rewrite (Permutation_app_comm (m1 ++ m2)). cbn [app]. reflexivity. }
    assert (P' : Permutation (d_inputs d) ((m1 ++ m2) ++ [(q, b); (p, a)])).
    { rewrite P. apply Permutation_app_head. apply perm_swap. }
    assert (S : forall i, Permutation (d_inputs d) i -> same_drv d (with_inputs d i)).
    { intros i Hi. unfold same_drv, with_inputs. cbn. repeat split; auto. }
    assert (F : forall i, ~ is_fixed (with_inputs d i)) by (intros i; exact NF).
    pose proof (H _ (S _ P)) as H1. rewrite (H _ (S _ P')) in H1. rewrite !not_fixed_repl in H1 by apply F.
    rewrite Forall_forall in L.
    apply (clash_bytes d repl false p q a b x (m1 ++ m2) NE).
    + intros k Hk. apply HR. unfold mkeys. eapply Permutation_in; [apply Permutation_map; symmetry; exact P|]. rewrite map_app. apply in_or_app. left. exact Hk.
    + exact Gp.
    + exact Gq.
    + exact (L _ Ip).
    + exact (L _ Iq).
    + pose proof (bytes_no_panic (with_inputs d ((m1 ++ m2) ++ [(p, a); (q, b)])) false repl) as NP1.
      destruct (replace_inputs_any repl ((m1 ++ m2) ++ [(p, a); (q, b)]) []) as (i1 & R1 & _); [|constructor|].
      { intros k Hk. apply HR. unfold mkeys. eapply Permutation_in; [apply Permutation_map; symmetry; exact P|exact Hk]. }
      destruct (replace_inputs_any repl ((m1 ++ m2) ++ [(q, b); (p, a)]) []) as (i2 & R2 & _); [|constructor|].
      { intros k Hk. apply HR. unfold mkeys. eapply Permutation_in; [apply Permutation_map; symmetry; exact P'|exact Hk]. }
      revert H1. clear NP1. rewrite !drv_bytes_eq. unfold with_inputs. cbn [d_inputs]. destruct repl as [|r0 repl]; [congruence|]. rewrite R1, R2. cbn [rbind].
      intros H1. f_equal. apply INJ. apply (f_equal (fun r => match r with Ok t => hex_decode t | _ => Err EEOF end)) in H1. rewrite !hex_roundtrip in H1. congruence.
Qed.
Print Assumptions C52_hash_order_exact.
Definition shared : amap bytes := [(p2, bs "aa"); (p3, bs "aa")].
Definition two_alike : drv := Drv [] [(bs "out", Output p1 [] [])] [] [(p2, [bs "out"]); (p3, [bs "out"])] (bs "p") (bs "b") [] [(bs "name", bs "x")].
Example C52_exact_nonvacuous : wf_maps two_alike /\ ~ is_fixed two_alike /\ (forall p, In p (mkeys (d_inputs two_alike)) -> mget shared p <> None) /\
  Forall (fun pn => Forall literal (snd pn)) (d_inputs two_alike) /\ no_clash shared two_alike /\
  d_inputs (rename (fun _ => bs "aa") two_alike) = [(bs "aa", [bs "out"])].
Proof.
  split; [repeat split; apply nodup_dec; vm_compute; reflexivity|]. split; [intros (o & D & F); cbn in D; injection D as <-; apply F; reflexivity|].
  split; [intros p [<-|[<-|[]]]; vm_compute; discriminate|]. split; [repeat constructor; vm_compute; intuition discriminate|]. split; [|vm_compute; reflexivity].
  intros p q a b x [Hp|[Hp|[]]] [Hq|[Hq|[]]]; injection Hp as <- <-; injection Hq as <- <-; reflexivity.
Qed.
(** With two inputs that share a replacement and differ in their outputs the hash depends on the iteration order. *)
Theorem C52_hash_order_refuted : exists sha d e repl, wf_maps d /\ same_drv d e /\ drv_Validate d = Ok tt /\ CalculateDrvReplacement sha d repl <> CalculateDrvReplacement sha e repl /\
  ~ same_map_result (CalculateOutputPaths sha d repl) (CalculateOutputPaths sha e repl).
Proof.
  set (d := fun ins => Drv [] [(bs "out", Output p1 [] [])] [] ins (bs "p") (bs "b") [] [(bs "name", bs "x")]).
  exists (fun b => b), (d [(p2, [bs "out"]); (p3, [bs "dev"])]), (d [(p3, [bs "dev"]); (p2, [bs "out"])]), [(p2, bs "aa"); (p3, bs "aa")].
  split; [repeat split; apply nodup_dec; vm_compute; reflexivity|]. split; [repeat split; try reflexivity; apply perm_swap|]. split; [vm_compute; reflexivity|]. split.
  - intros H. apply (f_equal (fun r => match r with Ok a => match CalculateDrvReplacement (fun b => b) (d [(p3, [bs "dev"]); (p2, [bs "out"])]) [(p2, bs "aa"); (p3, bs "aa")] with Ok b => beq a b | _ => true end | _ => true end)) in H.
    vm_compute in H. discriminate.
  - intros H. remember (CalculateOutputPaths (fun b => b) (d [(p2, [bs "out"]); (p3, [bs "dev"])]) [(p2, bs "aa"); (p3, bs "aa")]) as A eqn:EA.
    remember (CalculateOutputPaths (fun b => b) (d [(p3, [bs "dev"]); (p2, [bs "out"])]) [(p2, bs "aa"); (p3, bs "aa")]) as B eqn:EB.
    assert (X : match A, B with Ok [(_, x)], Ok [(_, y)] => beq x y | _, _ => true end = false) by (subst A B; vm_compute; reflexivity). clear EA EB.
    destruct A as [[|[k x] [|]]|?|?]; try discriminate. destruct B as [[|[k' y] [|]]|?|?]; try discriminate. cbn [same_map_result] in H. apply Permutation_length_1_inv in H. injection H as _ H. subst y. rewrite beq_refl in X. discriminate.
Qed.
Print Assumptions C52_hash_order_refuted.

(** * C53: Validate *)
Theorem C53_validate_iff_partial : forall d, ~ ambiguous d -> drv_Validate d = Ok tt <-> valid_drv d.
Proof. exact Validate_iff. Qed.
Print Assumptions C53_validate_iff_partial.
Theorem C53_order_partial : forall d e, ~ ambiguous d -> same_drv d e -> (drv_Validate d = Ok tt <-> drv_Validate e = Ok tt).
Proof.
  intros d e NA S. rewrite !Validate_iff; [|intros X; apply NA; eapply same_ambiguous; [apply same_sym; exact S|exact X]|exact NA].
  split; [apply same_valid; exact S|apply same_valid, same_sym; exact S].
Qed.
Print Assumptions C53_order_partial.
Theorem C53_accepted : forall d, drv_Validate d = Ok tt ->
  valid_outputs (d_outputs d) /\ valid_inputs (d_inputs d) /\ Forall (fun s => Validate s = Ok tt) (d_srcs d) /\ sortedb (d_srcs d) /\
  d_platform d <> [] /\ d_builder d <> [] /\ ~ In [] (mkeys (d_env d)) /\ (has_key "name" (d_env d) \/ (has_key "__json" (d_env d) /\ d_name d <> [])).
Proof. exact Validate_needs. Qed.
Print Assumptions C53_accepted.
Theorem C53_no_panic : forall d, is_panic (drv_Validate d) = false.
Proof. exact Validate_no_panic. Qed.
Print Assumptions C53_no_panic.
Example C53_nonvacuous : drv_Validate sample = Ok tt /\ valid_drv sample /\ is_err (drv_Validate (mk [] [] [(bs "name", bs "x")])) = true /\ is_err (drv_Validate (mk (bs "b") [] [])) = true.
Proof.
  split; [vm_compute; reflexivity|]. split; [|split; vm_compute; reflexivity]. apply Validate_iff; [|vm_compute; reflexivity].
  intros (_ & J & _). unfold has_key in J. revert J. apply (mget_none (d_env sample)). vm_compute. reflexivity.
Qed.
(** Both a name variable and structured attributes without a name: the verdict depends on the iteration order,
    and such a derivation is what the parser makes of a well-formed text. *)
Theorem C53_order_refuted : exists d e text, wf_maps d /\ same_drv d e /\ drv_Validate d = Ok tt /\ is_err (drv_Validate e) = true /\
  forall json, json (bs "{}") = Ok (Some []) -> parseDerivation json text = Ok d.
Proof.
  exists (mk (bs "b") [] [(bs "__json", bs "{}"); (bs "name", bs "x")]), (mk (bs "b") [] [(bs "name", bs "x"); (bs "__json", bs "{}")]),
    (text_of (mk (bs "b") [] [(bs "__json", bs "{}"); (bs "name", bs "x")])).
  split; [repeat split; apply nodup_dec; vm_compute; reflexivity|]. split; [repeat split; try reflexivity; apply perm_swap|]. split; [vm_compute; reflexivity|]. split; [vm_compute; reflexivity|].
  intros json H. rewrite parse_eq. set (t := text_of _). assert (E : exists body, slice t 0 6 = Ok (bs "Derive") /\ slice t 6 (length t) = Ok body /\ (length t <? 8) = false /\
    arrayEach drv_field body (Drv [] [] [] [] [] [] [] []) = Ok (mk (bs "b") [] [(bs "__json", bs "{}"); (bs "name", bs "x")])).
  { exists (skipn 6 t). split; [vm_compute; reflexivity|]. split; [vm_compute; reflexivity|]. split; vm_compute; reflexivity. }
  destruct E as (body & E1 & E2 & E3 & E4). rewrite E3, E1. cbn [rbind]. rewrite beq_refl. cbn [negb]. rewrite E2. cbn [rbind]. rewrite E4. cbn [rbind]. unfold set_name.
  change (mget (d_env (mk (bs "b") [] [(bs "__json", bs "{}"); (bs "name", bs "x")])) (bs "__json")) with (Some (bs "{}")). cbv iota beta. rewrite H. reflexivity.
Qed.
Print Assumptions C53_order_refuted.

(** * C54: totality on validated derivations *)
Theorem C54_total_partial : forall sha d repl, wf_maps d -> drv_Name d <> [] -> is_ok (DrvPath sha d) = true /\ is_panic (CalculateOutputPaths sha d repl) = false.
Proof.
  intros sha d repl W N. split; [|apply Calc_no_panic; exact N]. destruct (bytes_aterm d false W) as (t & E & _). rewrite (DrvPath_eq sha d t E N). reflexivity.
Qed.
Print Assumptions C54_total_partial.
Theorem C54_panics_iff : forall sha d repl, wf_maps d -> (is_panic (DrvPath sha d) = true <-> drv_Name d = []) /\ (is_panic (CalculateOutputPaths sha d repl) = true <-> drv_Name d = []).
Proof.
  intros sha d repl W. destruct (bytes_eq_dec (drv_Name d) []) as [N|N].
  - split; (split; [auto|intros _]); [apply DrvPath_panic; assumption|apply Calc_panic; exact N].
  - destruct (C54_total_partial sha d repl W N) as [A B]. split; (split; [intros X|intros X; contradiction]); [destruct (DrvPath sha d); discriminate|congruence].
Qed.
Print Assumptions C54_panics_iff.
(** Name() is the name in the structured attributes, if there are any, or the
    variable "name", or nothing; for accepted derivations it is missing only if
    that variable is there and empty. *)
Theorem C54_nameless_iff : forall sha d repl, wf_maps d ->
  ((exists j, In (bs "__json", j) (d_env d)) -> drv_Name d = d_name d) /\
  ((forall j, ~ In (bs "__json", j) (d_env d)) -> (forall v, In (bs "name", v) (d_env d) -> drv_Name d = v) /\ ((forall v, ~ In (bs "name", v) (d_env d)) -> drv_Name d = [])) /\
  (drv_Validate d = Ok tt -> ~ ambiguous d ->
   (is_panic (DrvPath sha d) = true <-> In (bs "name", []) (d_env d) /\ forall j, ~ In (bs "__json", j) (d_env d)) /\
   (is_panic (CalculateOutputPaths sha d repl) = true <-> In (bs "name", []) (d_env d) /\ forall j, ~ In (bs "__json", j) (d_env d))).
Proof.
  intros sha d repl W. assert (ND := proj2 (proj2 W)).
  assert (A : (exists j, In (bs "__json", j) (d_env d)) -> drv_Name d = d_name d) by (intros (j & J); unfold drv_Name; rewrite (in_mget _ _ _ ND J); reflexivity).
  assert (MN : forall k, (forall v, ~ In (k, v) (d_env d)) -> mget (d_env d) k = None) by (intros k H; destruct (mget (d_env d) k) eqn:M; [exfalso; eapply H, mget_in, M|reflexivity]).
  assert (B : (forall j, ~ In (bs "__json", j) (d_env d)) -> (forall v, In (bs "name", v) (d_env d) -> drv_Name d = v) /\ ((forall v, ~ In (bs "name", v) (d_env d)) -> drv_Name d = [])).
  { intros NJ. unfold drv_Name, mget_or. rewrite (MN _ NJ). split; [intros v I; rewrite (in_mget _ _ _ ND I); reflexivity|intros NN; rewrite (MN _ NN); reflexivity]. }
  split; [exact A|]. split; [exact B|]. intros V NA. destruct (C54_panics_iff sha d repl W) as (P1 & P2). rewrite P1, P2.
  apply Validate_iff in V; [|exact NA]. destruct V as (_ & _ & _ & _ & _ & _ & _ & HJ & HN).
  assert (K : forall k, has_key k (d_env d) <-> exists v, In (bs k, v) (d_env d)) by (intros k; unfold has_key, mkeys; rewrite in_map_iff; split; [intros ((k' & v) & <- & I); eauto|intros (v & I); exists (bs k, v); auto]).
  assert (G : drv_Name d = [] <-> In (bs "name", []) (d_env d) /\ forall j, ~ In (bs "__json", j) (d_env d)).
  { split.
    - intros E. assert (NJ : forall j, ~ In (bs "__json", j) (d_env d)) by (intros j J; apply HJ; [apply K; eauto|rewrite <- A; eauto]). split; [|exact NJ].
      destruct (proj1 (K "name"%string) (HN (fun H => match proj1 (K _) H with ex_intro _ j J => NJ j J end))) as (v & I). rewrite (proj1 (B NJ) v I) in E. subst v. exact I.
    - intros (I & NJ). exact (proj1 (B NJ) [] I). }
  split; exact G.
Qed.
Print Assumptions C54_nameless_iff.
Theorem C54_total_refuted : exists d, wf_maps d /\ valid_drv d /\ drv_Validate d = Ok tt /\ forall sha, is_panic (DrvPath sha d) = true /\ is_panic (CalculateOutputPaths sha d []) = true.
Proof.
  set (d := mk (bs "b") [] [(bs "name", [])]). exists d. assert (W : wf_maps d) by (repeat split; apply nodup_dec; vm_compute; reflexivity).
  assert (V : drv_Validate d = Ok tt) by (vm_compute; reflexivity). split; [exact W|]. split; [|split; [exact V|]].
  - apply Validate_iff; [|exact V]. intros (_ & J & _). revert J. apply (mget_none (d_env d)). vm_compute. reflexivity.
  - intros sha. split; [apply DrvPath_panic; [exact W|reflexivity]|apply Calc_panic; reflexivity].
Qed.
Print Assumptions C54_total_refuted.
Example C54_nonvacuous : wf_maps sample /\ drv_Name sample = bs "x" /\ is_ok (DrvPath (fun b => b) sample) = true.
Proof. split; [exact sample_wf|]. split; vm_compute; reflexivity. Qed.

(** * C55: the derivation path *)
Lemma alpha_dec l : forallb (fun c => existsb (byte_eqb c) name_alphabet) l = true -> Forall (fun x => In x name_alphabet) l.
Proof.
  rewrite forallb_forall, Forall_forall. intros H c Hc. specialize (H c Hc). apply existsb_exists in H. destruct H as (x & A & B). apply byte_eqb_eq in B. subst. exact A.
Qed.
Theorem C55_DrvPath : forall sha d, wf_maps d -> drv_Name d <> [] ->
  exists t refs c, aterm d t /\ Permutation refs (mkeys (d_inputs d) ++ d_srcs d) /\ sortedb refs /\
    CompressHash (sha (bs "text:" ++ concat (map (fun r => r ++ bs ":") refs) ++ bs "sha256:" ++ hex_encode (sha t) ++ bs ":/nix/store:" ++ drv_Name d ++ bs ".drv")) 20 = Ok c /\
    length c = 20 /\ DrvPath sha d = Ok (sp_Absolute (SP (drv_Name d ++ bs ".drv") c)) /\
    (Forall (fun x => In x name_alphabet) (drv_Name d) ->
      DrvPath sha d = Ok (bs "/nix/store/" ++ EncodeToString c ++ bs "-" ++ drv_Name d ++ bs ".drv") /\
      wf_store_path (bs "/nix/store/" ++ EncodeToString c ++ bs "-" ++ drv_Name d ++ bs ".drv")).
Proof.
  intros sha d W N. destruct (bytes_aterm d false W) as (t & E & A). exists t, (sort_strings (mkeys (d_inputs d) ++ d_srcs d)).
  exists (fold20 (sha (drv_fingerprint sha t (sort_strings (mkeys (d_inputs d) ++ d_srcs d)) (drv_Name d)))). split; [exact A|]. split; [apply sort_perm|]. split; [apply sort_sorted|].
  pose proof (fold20_eq (sha (drv_fingerprint sha t (sort_strings (mkeys (d_inputs d) ++ d_srcs d)) (drv_Name d)))) as [C L]. split; [exact C|]. split; [exact L|].
  pose proof (DrvPath_eq sha d t E N) as P. split; [exact P|]. intros AL. set (c := fold20 _) in *.
  assert (VN : valid_name (drv_Name d ++ bs ".drv")).
  { split; [destruct (drv_Name d); [congruence|discriminate]|]. apply Forall_app. split; [exact AL|]. apply alpha_dec. vm_compute. reflexivity. }
  destruct (roundtrip_Absolute (SP (drv_Name d ++ bs ".drv") c) L VN) as (_ & _ & WF).
  pose proof (Absolute_eq (SP (drv_Name d ++ bs ".drv") c) L (proj2 VN)) as AE. cbn [sp_digest sp_name] in AE. rewrite P, <- AE. auto.
Qed.
Print Assumptions C55_DrvPath.
Example C55_nonvacuous : wf_maps sample /\ drv_Name sample = bs "x" /\ Forall (fun x => In x name_alphabet) (drv_Name sample) /\ valid_drv sample.
Proof. split; [exact sample_wf|]. split; [reflexivity|]. split; [apply alpha_dec; vm_compute; reflexivity|apply C53_nonvacuous]. Qed.
(** The name is not checked: with slashes in it the path leaves the store. *)
Theorem C55_escape_refuted : exists sha d, wf_maps d /\ valid_drv d /\ drv_Validate d = Ok tt /\ DrvPath sha d = Ok (bs "/etc/passwd.drv").
Proof.
  set (d := mk (bs "b") [] [(bs "name", bs "../../../../etc/passwd")]). exists (fun _ => repeat x00 32), d.
  assert (V : drv_Validate d = Ok tt) by (vm_compute; reflexivity).
  split; [repeat split; apply nodup_dec; vm_compute; reflexivity|]. split; [|split; [exact V|vm_compute; reflexivity]].
  apply Validate_iff; [|exact V]. intros (_ & J & _). revert J. apply (mget_none (d_env d)). vm_compute. reflexivity.
Qed.
Print Assumptions C55_escape_refuted.

(** * C56: fixed outputs *)
Theorem C56_fixed_path : forall sha d e repl repl' n o o', d_outputs d = [(n, o)] -> d_outputs e = [(n, o')] -> fixed_output o ->
  o_algo o = o_algo o' -> o_hash o = o_hash o' -> drv_Name d = drv_Name e ->
  CalculateOutputPaths sha d repl = CalculateOutputPaths sha e repl'.
Proof. intros. eapply Calc_fixed; eauto. Qed.
Print Assumptions C56_fixed_path.
Theorem C56_fixed_replacement : forall sha d e repl repl' o, d_outputs d = [(bs "out", o)] -> d_outputs e = [(bs "out", o)] -> fixed_output o ->
  CalculateDrvReplacement sha d repl = CalculateDrvReplacement sha e repl'.
Proof.
  intros sha d e repl repl' o D E F. rewrite ?CalculateDrvReplacement_def. rewrite D, E. cbn [length Nat.eqb mget]. rewrite beq_refl. unfold fixed_output in F. apply beq_neq in F. rewrite F. reflexivity.
Qed.
Print Assumptions C56_fixed_replacement.
Definition fixed_sample : drv := Drv [] [(bs "out", Output p1 (bs "r:sha256") (bs "00ff"))] [] [] (bs "p") (bs "b") [] [(bs "name", bs "x")].
Definition fixed_sample2 : drv := Drv [] [(bs "out", Output [] (bs "r:sha256") (bs "00ff"))] [p1] [(p2, [bs "out"])] (bs "q") (bs "c") [bs "z"] [(bs "url", bs "u"); (bs "name", bs "x")].
Example C56_nonvacuous : d_outputs fixed_sample <> d_outputs fixed_sample2 /\ drv_Name fixed_sample = drv_Name fixed_sample2 /\ fixed_output (Output p1 (bs "r:sha256") (bs "00ff")) /\
  drv_Validate fixed_sample = Ok tt /\ drv_Validate fixed_sample2 = Ok tt /\ is_ok (CalculateOutputPaths (fun b => b) fixed_sample []) = true.
Proof. split; [discriminate|]. split; [reflexivity|]. split; [discriminate|]. repeat split; vm_compute; reflexivity. Qed.

(** * C57: masking *)
Theorem C57_masked : forall sha d e repl, wf_maps d -> drv_Name d = drv_Name e -> same_drv (mask d) (mask e) -> no_clash repl d ->
  same_map_result (CalculateOutputPaths sha d repl) (CalculateOutputPaths sha e repl).
Proof. exact Calc_same_mask. Qed.
Print Assumptions C57_masked.
Theorem C57_fill_partial : forall sha d repl paths, ~ has_key "name" (d_outputs d) -> ~ has_key "__json" (d_outputs d) ->
  CalculateOutputPaths sha (fill paths d) repl = CalculateOutputPaths sha d repl.
Proof. intros sha d repl paths N J. apply Calc_eq_mask; [apply fill_name; assumption|apply mask_fill]. Qed.
Print Assumptions C57_fill_partial.
(** An output called "name" overwrites the name when it is filled in. *)
Theorem C57_fill_refuted : exists sha d paths, wf_maps d /\ valid_drv d /\ CalculateOutputPaths sha d [] = Ok paths /\ CalculateOutputPaths sha (fill paths d) [] <> Ok paths.
Proof.
  set (d := Drv [] [(bs "name", Output p1 [] [])] [] [] (bs "p") (bs "b") [] [(bs "name", bs "x")]).
  set (paths := match CalculateOutputPaths (fun _ => repeat x00 32) d [] with Ok p => p | _ => [] end).
  exists (fun _ => repeat x00 32), d, paths. split; [repeat split; apply nodup_dec; vm_compute; reflexivity|]. split.
  - apply Validate_iff; [|vm_compute; reflexivity]. intros (_ & J & _). revert J. apply (mget_none (d_env d)). vm_compute. reflexivity.
  - split; [vm_compute; reflexivity|]. intros H. apply (f_equal (fun r => match r with Ok [(_, a)] => beq a (path_of paths (bs "name")) | _ => false end)) in H. vm_compute in H. discriminate.
Qed.
Print Assumptions C57_fill_refuted.
Example C57_nonvacuous : ~ has_key "name" (d_outputs sample) /\ fill [(bs "out", bs "/new")] sample <> sample /\ mget (d_env (fill [(bs "out", bs "/new")] sample)) (bs "out") = Some (bs "/new").
Proof.
  split; [apply (mget_none (d_outputs sample)); vm_compute; reflexivity|]. split; [|vm_compute; reflexivity].
  intros H. apply (f_equal (fun d => mget (d_env d) (bs "out"))) in H. vm_compute in H. discriminate.
Qed.

(** * C58: replacements *)
Theorem C58_replaced_partial : forall sha d repl r, wf_maps d -> replaces repl r d -> ~ is_fixed d ->
  exists t, aterm (rename r d) t /\ CalculateDrvReplacement sha d repl = Ok (hex_encode (sha t)).
Proof.
  intros sha d repl r W R NF. destruct (bytes_replaced d false repl r W R) as (t & E & A). exists t. split; [exact A|]. rewrite not_fixed_repl by exact NF. rewrite E. reflexivity.
Qed.
Print Assumptions C58_replaced_partial.
Theorem C58_missing_partial : forall sha d repl p, repl <> [] -> In p (mkeys (d_inputs d)) -> mget repl p = None -> ~ is_fixed d ->
  is_err (CalculateDrvReplacement sha d repl) = true.
Proof.
  intros sha d repl p NE H E NF. rewrite not_fixed_repl by exact NF. rewrite drv_bytes_eq. destruct repl as [|x repl]; [congruence|]. rewrite (replace_missing _ (d_inputs d) [] p H E). reflexivity.
Qed.
Print Assumptions C58_missing_partial.
Theorem C58_missing_paths_partial : forall sha d repl p n o, repl <> [] -> In p (mkeys (d_inputs d)) -> mget repl p = None -> In (n, o) (d_outputs d) -> ~ fixed_output o -> drv_Name d <> [] ->
  is_err (CalculateOutputPaths sha d repl) = true.
Proof.
  intros sha d repl p n o NE H E I F N. rewrite Calc_eq, drv_bytes_eq. destruct repl as [|x repl]; [congruence|]. rewrite (replace_missing _ (d_inputs d) [] p H E). cbn [rbind].
  destruct (drv_Name d); [congruence|]. rewrite opaths_err; [reflexivity|]. exists (n, o). split; [exact I|]. cbn [snd]. unfold fixed_output in F. destruct (bytes_eq_dec (o_algo o) []); [assumption|contradiction].
Qed.
Print Assumptions C58_missing_paths_partial.
Example C58_shared_nonvacuous : replaces shared (fun _ => bs "aa") two_alike.
Proof. split; [discriminate|]. split; [intros p [<-|[<-|[]]]; vm_compute; reflexivity|apply C52_exact_nonvacuous]. Qed.
Example C58_nonvacuous : replaces [(p2, bs "aa"); (p3, bs "bb")] (fun p => if beq p p2 then bs "aa" else bs "bb") sample /\ ~ is_fixed sample /\
  In p3 (mkeys (d_inputs sample)) /\ mget [(p2, bs "aa")] p3 = None.
Proof.
  split; [|split; [|split; [right; left; reflexivity|vm_compute; reflexivity]]].
  - split; [discriminate|]. split; [|apply C52_nonvacuous]. intros p Hp. unfold sample, mk, mkeys in Hp. cbn [d_inputs map fst In] in Hp. destruct Hp as [<-|[<-|[]]]; vm_compute; reflexivity.
  - intros (o & E & F). apply (f_equal (fun l => match l with [(_, o)] => o_algo o | _ => [] end)) in E. cbn in E. apply F. symmetry. exact E.
Qed.
(** With an empty replacement map nothing is replaced and nothing reported. *)
Theorem C58_empty_refuted : exists d, wf_maps d /\ valid_drv d /\ d_inputs d <> [] /\ ~ is_fixed d /\ forall sha, CalculateDrvReplacement sha d [] = Ok (hex_encode (sha (text_of d))).
Proof.
  exists sample. split; [exact sample_wf|]. split; [apply C53_nonvacuous|]. split; [discriminate|]. split; [apply C58_nonvacuous|]. intros sha. rewrite not_fixed_repl by apply C58_nonvacuous.
  unfold text_of. destruct (drv_bytes sample false []) as [b|e|w] eqn:E; [reflexivity|exfalso|exfalso]; destruct (bytes_aterm sample false sample_wf) as (t & E' & _); congruence.
Qed.
Print Assumptions C58_empty_refuted.
(** Inputs with the same replacement: the outputs of one are lost. *)
Theorem C58_union_refuted : exists d d' repl, wf_maps d /\ drv_Validate d = Ok tt /\ d_inputs d = [(p2, [bs "out"]); (p3, [bs "dev"])] /\ d_inputs d' = [(p3, [bs "dev"])] /\
  forall sha, CalculateDrvReplacement sha d repl = CalculateDrvReplacement sha d' repl.
Proof.
  set (d := fun ins => Drv [] [(bs "out", Output p1 [] [])] [] ins (bs "p") (bs "b") [] [(bs "name", bs "x")]).
  exists (d [(p2, [bs "out"]); (p3, [bs "dev"])]), (d [(p3, [bs "dev"])]), [(p2, bs "aa"); (p3, bs "aa")].
  split; [repeat split; apply nodup_dec; vm_compute; reflexivity|]. split; [vm_compute; reflexivity|]. split; [reflexivity|]. split; [reflexivity|]. intros sha.
  rewrite ?CalculateDrvReplacement_def. replace (drv_bytes (d [(p2, [bs "out"]); (p3, [bs "dev"])]) false [(p2, bs "aa"); (p3, bs "aa")]) with (drv_bytes (d [(p3, [bs "dev"])]) false [(p2, bs "aa"); (p3, bs "aa")]) by (vm_compute; reflexivity). reflexivity.
Qed.
Print Assumptions C58_union_refuted.

(** * C59: the parser *)
Theorem C59_no_panic_partial : forall json r, (forall j, is_panic (json j) = false /\ json j <> Ok None) -> is_panic (ReadDerivation json r) = false.
Proof. exact read_no_panic. Qed.
Print Assumptions C59_no_panic_partial.
Theorem C59_no_panic_refuted : exists text, forall json, json (bs "null") = Ok None -> is_panic (ReadDerivation json (src1 text)) = true.
Proof.
  set (d := mk (bs "b") [] [(bs "__json", bs "null")]). exists (text_of d). intros json H. unfold ReadDerivation, ReadAll. cbn [fin src1 rbind]. rewrite parse_eq.
  set (t := src_data _). assert (E : exists body, slice t 0 6 = Ok (bs "Derive") /\ slice t 6 (length t) = Ok body /\ (length t <? 8) = false /\
    arrayEach drv_field body (Drv [] [] [] [] [] [] [] []) = Ok d).
  { exists (skipn 6 t). split; [vm_compute; reflexivity|]. split; [vm_compute; reflexivity|]. split; vm_compute; reflexivity. }
  destruct E as (body & E1 & E2 & E3 & E4). rewrite E3, E1. cbn [rbind]. rewrite beq_refl. cbn [negb]. rewrite E2. cbn [rbind]. rewrite E4. cbn [rbind]. unfold set_name.
  change (mget (d_env d) (bs "__json")) with (Some (bs "null")). cbv iota beta. rewrite H. reflexivity.
Qed.
Print Assumptions C59_no_panic_refuted.
(** Every entry of the text is an entry of the result, in the same order, with strictly increasing keys. *)
Theorem C59_sorted : forall json r d, ReadDerivation json r = Ok d ->
  exists body f0 f1 f2 f3 f4 f5 f6 outs ins env, src_data r = bs "Derive" ++ body /\ array_of body [f0; f1; f2; f3; f4; f5; f6] /\
    (array_of f0 outs /\ Forall2 reads_output outs (d_outputs d) /\ strictly_sorted (mkeys (d_outputs d))) /\
    (array_of f1 ins /\ Forall2 reads_input ins (d_inputs d) /\ strictly_sorted (mkeys (d_inputs d))) /\
    (array_of f6 env /\ Forall2 reads_env env (d_env d) /\ strictly_sorted (mkeys (d_env d))).
Proof.
  intros json r d H. apply accept_iff in H. destruct H as (_ & (body & f0 & f1 & f2 & f5 & f6 & outs & ins & env & T & A & R1 & R2 & R3 & R4 & R5 & R6 & _ & _ & R9 & R10 & R11 & _) & _).
  exists body, f0, f1, f2, (quoted (d_platform d)), (quoted (d_builder d)), f5, f6, outs, ins, env. auto 20.
Qed.
Print Assumptions C59_sorted.
Example C59_nonvacuous : (forall j, is_panic (no_json j) = false /\ no_json j <> Ok None) /\ ReadDerivation no_json (src1 (text_of sample)) = Ok sample_sorted /\
  is_err (ReadDerivation no_json (src1 (drv_text (d_outputs sample) (d_inputs sample) [] (bs "p") (bs "b") [] (d_env sample)))) = true.
Proof. split; [intros j; split; [reflexivity|discriminate]|]. split; vm_compute; reflexivity. Qed.

(** * C60: what is accepted *)
Theorem C60_accepts_iff_partial : forall json r d, ReadDerivation json r = Ok d <-> fin r = EEOF /\ reads_drv json (src_data r) d /\ drv_Validate d = Ok tt.
Proof. exact accept_iff. Qed.
Print Assumptions C60_accepts_iff_partial.
(** With every quote closed nothing is dropped: an array is its elements, commas and brackets. *)
Theorem C60_nothing_dropped_partial : forall o s c items, closes o c -> s <> [] -> array_of (o :: s ++ [c]) items -> quotes_closed false false s = true ->
  o :: s ++ [c] = [o] ++ join_byte items ","%byte ++ [c].
Proof. exact array_closed. Qed.
Print Assumptions C60_nothing_dropped_partial.
Example C60_nonvacuous : reads_drv no_json (text_of sample) sample_sorted.
Proof. assert (H : ReadDerivation no_json (src1 (text_of sample)) = Ok sample_sorted) by (vm_compute; reflexivity). apply accept_iff in H. destruct H as (_ & H & _). unfold src1, src_data in H. cbn [chunks concat] in H. rewrite app_nil_r in H. exact H. Qed.
(** Junk after an unclosed quote is dropped. *)
Theorem C60_junk_refuted : forall json, ReadDerivation json (src1 (removelast (text_of sample) ++ bs "," ++ [x22] ++ bs "junk)")) = Ok sample_sorted.
Proof. intros json. vm_compute. reflexivity. Qed.
Print Assumptions C60_junk_refuted.
(** Any two bytes are an empty array. *)
Theorem C60_two_bytes_refuted : exists d, forall json, ReadDerivation json (src1 (bs "Derive([(" ++ join_byte (map quoted [bs "out"; p1; []; []]) ","%byte ++ bs ")],xy,!!," ++ [x22] ++ bs "p" ++ [x22] ++ bs "," ++ [x22] ++ bs "b" ++ [x22] ++ bs ",(],[(" ++ quoted (bs "name") ++ bs "," ++ quoted (bs "x") ++ bs ")])")) = Ok d.
Proof. exists (Drv [] [(bs "out", Output p1 [] [])] [] [] (bs "p") (bs "b") [] [(bs "name", bs "x")]). intros json. vm_compute. reflexivity. Qed.
Print Assumptions C60_two_bytes_refuted.
(** Missing fields of an output or a variable are not noticed. *)
Theorem C60_missing_fields_refuted : exists d, forall json, ReadDerivation json (src1 (bs "Derive([(" ++ join_byte (map quoted [bs "out"; p1]) ","%byte ++ bs ")],[],[]," ++ quoted (bs "p") ++ bs "," ++ quoted (bs "b") ++ bs ",[],[(" ++ quoted (bs "name") ++ bs ")])")) = Ok d.
Proof. exists (Drv [] [(bs "out", Output p1 [] [])] [] [] (bs "p") (bs "b") [] [(bs "name", [])]). intros json. vm_compute. reflexivity. Qed.
Print Assumptions C60_missing_fields_refuted.

(** * C69: failing writers *)
Theorem C69_write_errors : forall d w, wf_maps d -> exists t p s w', aterm d t /\ t = p ++ s /\ out w' = out w ++ p /\
  ((WriteDerivation d w = (Ok tt, w') /\ s = []) \/ WriteDerivation d w = (Err (EIo 1), w')).
Proof. exact write_any. Qed.
Print Assumptions C69_write_errors.
Example C69_nonvacuous : fst (WriteDerivation sample (Sink [] [None; None; Some 0])) = Err (EIo 1) /\ out (snd (WriteDerivation sample (Sink [] [None; None; Some 0]))) = bs "Derive(".
Proof. split; vm_compute; reflexivity. Qed.

(** * C70: output paths *)
Theorem C70_output_paths : forall sha d repl r, wf_maps d -> drv_Name d <> [] -> (repl = [] /\ r = (fun p => p) \/ replaces repl r d) ->
  exists t paths, aterm (mask (rename r d)) t /\ CalculateOutputPaths sha d repl = Ok paths /\ mkeys paths = mkeys (d_outputs d) /\
    forall n o, In (n, o) (d_outputs d) ->
      let path_name := if beq n (bs "out") then drv_Name d else drv_Name d ++ bs "-" ++ n in
      let fingerprint :=
        if beq (o_algo o) [] then bs "output:" ++ n ++ bs ":sha256:" ++ hex_encode (sha t) ++ bs ":/nix/store:" ++ path_name
        else if beq (o_algo o) (bs "r:sha256") then bs "source:sha256:" ++ o_hash o ++ bs ":/nix/store:" ++ drv_Name d
        else bs "output:out:sha256:" ++ hex_encode (sha (bs "fixed:out:" ++ o_algo o ++ bs ":" ++ o_hash o ++ bs ":")) ++ bs ":/nix/store:" ++ drv_Name d in
      exists c, CompressHash (sha fingerprint) 20 = Ok c /\ length c = 20 /\ mget paths n = Some (sp_Absolute (SP path_name c)) /\
        (valid_name path_name -> wf_store_path (sp_Absolute (SP path_name c))).
Proof.
  intros sha d repl r W N R.
  assert (K : exists t, drv_bytes d true repl = Ok t /\ aterm (mask (rename r d)) t).
  { destruct R as [(-> & ->)|R]; [|exact (bytes_replaced d true repl r W R)]. destruct (bytes_aterm d true W) as (t & E & A). exists t. split; [exact E|].
    assert (ID : rename (fun p => p) d = d). { destruct d as [nm outs srcs ins pl bl args env]. unfold rename. cbn. f_equal. rewrite (map_ext _ (fun x => x)) by (intros []; reflexivity). rewrite map_id. apply nodup_fixed_point, keys_nodup_pairs. exact (proj1 (proj2 W)). }
    rewrite ID. exact A. }
  destruct K as (t & E & A). destruct (Calc_ok sha d repl t W N E) as (paths & C & KS & HP). exists t, paths. split; [exact A|]. split; [exact C|]. split; [exact KS|].
  intros n o H pn fp. destruct (HP n o H) as (p & HO & HG). exists (fold20 (sha fp)). destruct (fold20_eq (sha fp)) as [F L]. split; [exact F|]. split; [exact L|]. split.
  - rewrite HG. f_equal. unfold opath in HO. cbn zeta in HO. subst fp pn. destruct (beq (o_algo o) []); cbn [negb rbind] in HO; [injection HO as <-; reflexivity|].
    destruct (beq (o_algo o) (bs "r:sha256")); injection HO as <-; reflexivity.
  - intros V. apply (roundtrip_Absolute (SP pn (fold20 (sha fp))) L V).
Qed.
Print Assumptions C70_output_paths.
Example C70_nonvacuous : replaces [(p2, bs "aa"); (p3, bs "bb")] (fun p => if beq p p2 then bs "aa" else bs "bb") sample /\ drv_Name sample = bs "x".
Proof. split; [apply C58_nonvacuous|reflexivity]. Qed.

(** * C95: replacements *)
Theorem C95_fixed : forall sha d repl o, d_outputs d = [(bs "out", o)] -> fixed_output o ->
  CalculateDrvReplacement sha d repl = Ok (hex_encode (sha (bs "fixed:out:" ++ o_algo o ++ bs ":" ++ o_hash o ++ bs ":" ++ o_path o))).
Proof.
  intros sha d repl o D F. rewrite CalculateDrvReplacement_def, D. cbn zeta. cbn [length Nat.eqb mget]. rewrite beq_refl. unfold fixed_output in F. apply beq_neq in F. rewrite F. cbn [negb].
  rewrite join_fixed. reflexivity.
Qed.
Print Assumptions C95_fixed.
Theorem C95_other : forall sha d repl r, wf_maps d -> ~ (exists o, d_outputs d = [(bs "out", o)] /\ fixed_output o) ->
  (repl = [] /\ r = (fun p => p) \/ replaces repl r d) ->
  exists t, aterm (rename r d) t /\ CalculateDrvReplacement sha d repl = Ok (hex_encode (sha t)).
Proof.
  intros sha d repl r W NF R.
  assert (K : exists t, drv_bytes d false repl = Ok t /\ aterm (rename r d) t).
  { destruct R as [(-> & ->)|R]; [|exact (bytes_replaced d false repl r W R)]. destruct (bytes_aterm d false W) as (t & E & A). exists t. split; [exact E|].
    assert (ID : rename (fun p => p) d = d). { destruct d as [nm outs srcs ins pl bl args env]. unfold rename. cbn. f_equal. rewrite (map_ext _ (fun x => x)) by (intros []; reflexivity). rewrite map_id. apply nodup_fixed_point, keys_nodup_pairs. exact (proj1 (proj2 W)). }
    rewrite ID. exact A. }
  destruct K as (t & E & A). exists t. split; [exact A|]. rewrite CalculateDrvReplacement_def, E. cbn zeta. cbn [rbind].
  destruct (length (d_outputs d) =? 1) eqn:L; [|reflexivity]. apply Nat.eqb_eq in L. destruct (d_outputs d) as [|[n o] [|]] eqn:D; try discriminate.
  cbn [mget]. destruct (beq n (bs "out")) eqn:B; [|reflexivity]. apply beq_eq in B. subst n. destruct (beq (o_algo o) []) eqn:F; [reflexivity|].
  exfalso. apply NF. exists o. split; [reflexivity|]. unfold fixed_output. apply beq_neq. exact F.
Qed.
Print Assumptions C95_other.
Example C95_nonvacuous : d_outputs fixed_sample = [(bs "out", Output p1 (bs "r:sha256") (bs "00ff"))] /\ fixed_output (Output p1 (bs "r:sha256") (bs "00ff")) /\
  wf_maps sample /\ ~ (exists o, d_outputs sample = [(bs "out", o)] /\ fixed_output o) /\ replaces [(p2, bs "aa"); (p3, bs "bb")] (fun p => if beq p p2 then bs "aa" else bs "bb") sample.
Proof.
  split; [reflexivity|]. split; [discriminate|]. split; [exact sample_wf|]. split; [|apply C58_nonvacuous].
  intros (o & D & F). cbn in D. injection D as <-. apply F. reflexivity.
Qed.
