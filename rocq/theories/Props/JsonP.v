(** C88-C94: JSON in and out. *)
From Coq Require Import Permutation.
From Verif Require Import Base.Bytes Base.BytesFacts Model.GoIO Model.GoStd Model.Storepath Model.Derivation Model.DrvParser Model.StoreBackends Model.NarLs Model.Cmd Model.Json
  Spec.DerivationSpec Spec.NarLsSpec Spec.JsonSpec Proof.DrvRound Proof.DrvAccept Proof.DrvHash Proof.DrvText Proof.DrvValidate Proof.NarLsProps Proof.CmdProps
  Proof.JsonUtf8 Proof.JsonStr Proof.JsonVal Proof.JsonEnc Proof.JsonDrv Proof.JsonRead Spec.NarLsSpec Props.DerivationP Props.NarLsP.
Ltac Zify.zify_post_hook ::= idtac.

(** * C88: drv show --format json and json-pretty *)
(** [short]: the release of Go writes \b and \f; [nl]: which empty fields are nil;
    [get]: the store.  Maps are maps ([wf_maps]: no key twice). *)
Definition json_format (format : bytes) (pretty : bool) : Prop := (format = bs "json" /\ pretty = false) \/ (format = bs "json-pretty" /\ pretty = true).
Lemma show_json short nl get p format pretty d w : json_format format pretty -> get p = Ok d -> wf_maps d ->
  exists t e w', show_Run get (Encode short nl) p format w = (match e with None => Ok tt | Some er => Err er end, w') /\ wwrite_ (t ++ [x0a]) w = (e, w') /\
    t = if pretty then laid_out (enc_string short) 0 (drv_json nl d) else compact short (drv_json nl d).
Proof.
  intros F G (N1 & N2 & N3). pose proof (drv_nums _ _ (drv_ok nl d N1 N2 N3)) as NU. exists (if pretty then laid_out (enc_string short) 0 (drv_json nl d) else compact short (drv_json nl d)). unfold show_Run. rewrite G.
  destruct F as [(-> & ->)|(-> & ->)]; [rewrite (beq_refl (bs "json"))|change (beq (bs "json-pretty") (bs "json")) with false; rewrite beq_refl]; cbv iota; unfold Encode; rewrite ?(indent_all short _ NU); destruct (wwrite_ _ w) as (e & w'); exists e, w'; (split; [reflexivity|]; split; reflexivity).
Qed.
Theorem C88_json_printed : forall short nl get p format pretty d w, json_format format pretty -> get p = Ok d -> wf_maps d ->
  exists j v t y w', json_of d j /\ jrepaired j v /\ (drv_utf8 d -> v = j) /\ jvalue false v t /\
    show_Run get (Encode short nl) p format w = (y, w') /\
    ((y = Ok tt /\ out w' = out w ++ t ++ [x0a]) \/
     (is_err y = true /\ (exists k, In (Some k) (plan w)) /\ exists n, out w' = out w ++ firstn n (t ++ [x0a]))).
Proof.
  intros short nl get p format pretty d w F G W. destruct (show_json short nl get p format pretty d w F G W) as (t & e & w' & S & WR & T). destruct W as (N1 & N2 & N3). pose proof (drv_ok nl d N1 N2 N3) as J.
  destruct (written short _ (drv_nums _ _ J)) as (v & R & V1 & V2). exists (drv_json nl d), v, t. eexists _, w'. split; [exact J|]. split; [exact R|].
  split; [intros U; apply repaired_same; [exact (drv_strings_utf8 _ _ U J)|exact R]|]. split; [rewrite T; destruct pretty; [apply V2|exact V1]|]. split; [exact S|].
  destruct (wwrite_cases (t ++ [x0a]) w) as (e1 & w1 & WR1 & _ & [(-> & O)|(-> & K & n & O)]); rewrite WR1 in WR; [left|right].
  - assert (e = None /\ w' = w1) as (-> & ->) by (split; congruence). auto.
  - assert (e = Some (EIo 1) /\ w' = w1) as (-> & ->) by (split; congruence). split; [reflexivity|]. split; [exact K|]. exists n. exact O.
Qed.
Print Assumptions C88_json_printed.
(** With a writer that does not fail. *)
Theorem C88_json_printed_all : forall short nl get p format pretty d w, json_format format pretty -> get p = Ok d -> wf_maps d -> Forall (eq None) (plan w) ->
  exists j v t w', json_of d j /\ jrepaired j v /\ (drv_utf8 d -> v = j) /\ jvalue false v t /\
    show_Run get (Encode short nl) p format w = (Ok tt, w') /\ out w' = out w ++ t ++ [x0a].
Proof.
  intros short nl get p format pretty d w F G W H. destruct (C88_json_printed short nl get p format pretty d w F G W) as (j & v & t & y & w' & A1 & A2 & A3 & A4 & A5 & [(-> & O)|(_ & (k & K) & _)]).
  - exists j, v, t, w'. auto 10.
  - rewrite Forall_forall in H. discriminate (H _ K).
Qed.
Print Assumptions C88_json_printed_all.
(** No null where no field is nil; ReadDerivation leaves none nil. *)
Theorem C88_no_null : forall short get p format pretty d w, json_format format pretty -> get p = Ok d -> wf_maps d -> Forall (eq None) (plan w) ->
  exists v t w', null_free v /\ jvalue false v t /\ show_Run get (Encode short (Nils (fun _ => false) (fun _ => false))) p format w = (Ok tt, w') /\ out w' = out w ++ t ++ [x0a].
Proof.
  intros short get p format pretty d w F G W H. set (nl := Nils (fun _ => false) (fun _ => false)). destruct (show_json short nl get p format pretty d w F G W) as (t & e & w' & S & WR & T). destruct W as (N1 & N2 & N3). pose proof (drv_ok nl d N1 N2 N3) as J.
  destruct (written short _ (drv_nums _ _ J)) as (v & R & V1 & V2). exists v, t, w'. split; [exact (repaired_null_free _ _ (drv_null_free d) R)|]. split; [rewrite T; destruct pretty; [apply V2|exact V1]|].
  destruct (wwrite_cases (t ++ [x0a]) w) as (e1 & w1 & WR1 & _ & [(-> & O)|(_ & (k & K) & _)]); [|rewrite Forall_forall in H; discriminate (H _ K)]. rewrite WR1 in WR. assert (e = None /\ w' = w1) as (-> & ->) by (split; congruence). auto.
Qed.
Print Assumptions C88_no_null.
(** And null for each that is: an empty slice or map that is not nil is [] or {}. *)
Lemma strings_null nil l : null_iff (strings_json nil l) nil l.
Proof. unfold null_iff, strings_json. destruct l, nil; (split; [intros H; try discriminate H; auto|intros (A & B); try discriminate A; try discriminate B; reflexivity]). Qed.
Lemma map_null {A} nil f (m : amap A) : null_iff (map_json nil f m) nil m.
Proof. unfold null_iff, map_json. destruct m, nil; (split; [intros H; try discriminate H; auto|intros (B & C); try discriminate B; try discriminate C; reflexivity]). Qed.
Theorem C88_nil_is_null : forall short nl get p format pretty d w, json_format format pretty -> get p = Ok d -> wf_maps d -> Forall (eq None) (plan w) ->
  exists outputs srcs inputs args env v t w',
    let j := JObj [(bs "outputs", outputs); (bs "inputSrcs", srcs); (bs "inputDrvs", inputs); (bs "system", JStr (d_platform d));
                   (bs "builder", JStr (d_builder d)); (bs "args", args); (bs "env", env)] in
    json_of d j /\ jrepaired j v /\ jvalue false v t /\ show_Run get (Encode short nl) p format w = (Ok tt, w') /\ out w' = out w ++ t ++ [x0a] /\
    null_iff outputs (nil_field nl (bs "outputs")) (d_outputs d) /\ null_iff srcs (nil_field nl (bs "inputSrcs")) (d_srcs d) /\
    null_iff inputs (nil_field nl (bs "inputDrvs")) (d_inputs d) /\ null_iff args (nil_field nl (bs "args")) (d_args d) /\
    null_iff env (nil_field nl (bs "env")) (d_env d) /\
    forall q names, In (q, names) (d_inputs d) -> exists l x, inputs = JObj l /\ In (q, x) l /\ null_iff x (nil_names nl q) names.
Proof.
  intros short nl get p format pretty d w F G W H. destruct (show_json short nl get p format pretty d w F G W) as (t & e & w' & S & WR & T). destruct W as (N1 & N2 & N3). pose proof (drv_ok nl d N1 N2 N3) as J.
  destruct (written short _ (drv_nums _ _ J)) as (v & R & V1 & V2). do 5 eexists. exists v, t, w'. cbv zeta. split; [exact J|]. split; [exact R|]. split; [rewrite T; destruct pretty; [apply V2|exact V1]|].
  destruct (wwrite_cases (t ++ [x0a]) w) as (e1 & w1 & WR1 & _ & [(-> & O)|(_ & (k & K) & _)]); [|rewrite Forall_forall in H; discriminate (H _ K)]. rewrite WR1 in WR. assert (e = None /\ w' = w1) as (-> & ->) by (split; congruence).
  split; [exact S|]. split; [exact O|]. split; [apply map_null|]. split; [apply strings_null|]. split; [apply map_null|]. split; [apply strings_null|]. split; [apply map_null|].
  intros q names I. unfold map_json. destruct (d_inputs d) as [|z m] eqn:E; [destruct I|]. rewrite <- E in *. eexists _, _. split; [reflexivity|]. split; [apply in_map_iff; exists q; split; [reflexivity|eapply Permutation_in; [apply Permutation_sym, sort_perm|]; apply in_map_iff; exists (q, names); auto]|].
  assert (M : mget (d_inputs d) q = Some names) by (apply in_mget; [exact N2|exact I]). rewrite M. apply strings_null.
Qed.
Print Assumptions C88_nil_is_null.

(** * C89: the layout *)
Lemma compact_tight short v : compact short v = tight (enc_string short) v.
Proof.
  apply (jv_nested (fun v => compact short v = tight (enc_string short) v)); try reflexivity.
  - intros l F. cbn [compact tight]. rewrite sep_between. do 3 f_equal. apply map_ext_Forall. exact F.
  - intros l F. cbn [compact tight]. rewrite sep_between. do 3 f_equal. apply map_ext_Forall. eapply Forall_impl; [|exact F]. intros p ->. reflexivity.
Qed.
Lemma enc_quoting short : quoting (enc_string short).
Proof. intros s. destruct (enc_string_any short s) as (s' & J & R). eauto. Qed.
(** Both formats print the same value, the one on one line without spaces, the
    other on many indented by two spaces, and write strings in the same way. *)
Theorem C89_layout : forall short nl get p d w, get p = Ok d -> wf_maps d -> Forall (eq None) (plan w) ->
  exists quote j v w1 w2, quoting quote /\ json_of d j /\ jrepaired j v /\
    show_Run get (Encode short nl) p (bs "json") w = (Ok tt, w1) /\ out w1 = out w ++ tight quote j ++ [x0a] /\ jvalue false v (tight quote j) /\
    show_Run get (Encode short nl) p (bs "json-pretty") w = (Ok tt, w2) /\ out w2 = out w ++ laid_out quote 0 j ++ [x0a] /\ jvalue false v (laid_out quote 0 j).
Proof.
  intros short nl get p d w G W H. destruct (show_json short nl get p (bs "json") false d w (or_introl (conj eq_refl eq_refl)) G W) as (t1 & e1 & w1 & S1 & WR1 & ->).
  destruct (show_json short nl get p (bs "json-pretty") true d w (or_intror (conj eq_refl eq_refl)) G W) as (t2 & e2 & w2 & S2 & WR2 & ->).
  destruct W as (N1 & N2 & N3). pose proof (drv_ok nl d N1 N2 N3) as J. destruct (written short _ (drv_nums _ _ J)) as (v & R & V1 & V2).
  assert (OK : forall b e w', wwrite_ b w = (e, w') -> e = None /\ out w' = out w ++ b).
  { intros b e w' E. destruct (wwrite_cases b w) as (e' & w'' & E' & _ & [(-> & O)|(_ & (k & K) & _)]); [rewrite E' in E; split; congruence|]. rewrite Forall_forall in H. discriminate (H _ K). }
  apply OK in WR1, WR2. destruct WR1 as (-> & O1). destruct WR2 as (-> & O2). rewrite compact_tight in O1, V1.
  exists (enc_string short), (drv_json nl d), v, w1, w2. split; [apply enc_quoting|]. auto 10.
Qed.
Print Assumptions C89_layout.
(** The order in which maps are iterated does not matter. *)
Lemma map_json_perm {A} nil (f : bytes -> A -> jv) m m' : NoDup (mkeys m) -> Permutation m m' -> map_json nil f m = map_json nil f m'.
Proof.
  intros N P. unfold map_json. destruct m as [|x m]; [apply Permutation_nil in P; subst m'; reflexivity|]. destruct m' as [|x' m']; [apply Permutation_sym, Permutation_nil in P; discriminate|].
  rewrite (sort_perm_eq _ _ (Permutation_map fst P : Permutation (mkeys (x :: m)) (mkeys (x' :: m')))). f_equal. apply map_ext. intros k. rewrite (mget_perm _ _ k N P). reflexivity.
Qed.
Theorem C89_order : forall short nl pretty d d' w, wf_maps d -> same_fields d d' -> Encode short nl pretty d w = Encode short nl pretty d' w.
Proof.
  intros short nl pretty d d' w (N1 & N2 & N3) (P1 & E1 & P2 & E2 & E3 & E4 & P3). unfold Encode. replace (drv_json nl d') with (drv_json nl d); [reflexivity|]. unfold drv_json.
  rewrite (map_json_perm _ _ _ _ N1 P1), (map_json_perm _ _ _ _ N2 P2), (map_json_perm _ _ _ _ N3 P3), E1, E2, E3, E4. reflexivity.
Qed.
Print Assumptions C89_order.

(** * C90: the JSON determines the derivation *)
(** [t] is what one of the JSON formats prints for [d]. *)
Definition prints (short : bool) (nl : nils) (d : drv) (t : bytes) : Prop :=
  exists get p format pretty w w', json_format format pretty /\ get p = Ok d /\ Forall (eq None) (plan w) /\
    show_Run get (Encode short nl) p format w = (Ok tt, w') /\ out w' = out w ++ t.
(** Derivations whose strings are UTF-8, printed in either format by any release
    of Go, are the same if what is printed has the same value. *)
Theorem C90_determined_partial : forall short short' nl nl' d d' t t' lax lax' v, wf_maps d -> wf_maps d' -> drv_utf8 d -> drv_utf8 d' ->
  prints short nl d t -> prints short' nl' d' t' -> jtext lax v t -> jtext lax' v t' -> (N.of_nat (nesting v) <= 10000)%N -> same_fields d d'.
Proof.
  assert (X : forall short nl d t lax v, wf_maps d -> drv_utf8 d -> prints short nl d t -> jtext lax v t -> (N.of_nat (nesting v) <= 10000)%N -> json_of d v).
  { intros short nl d t lax v W U (get & p & format & pretty & w & w' & F & G & H & S & O) J N. destruct (C88_json_printed_all short nl get p format pretty d w F G W H) as (j & v' & t' & w1 & J1 & _ & VE & V & S1 & O1).
    specialize (VE U). subst v'. assert (w1 = w') by congruence. subst w1. assert (t = t' ++ [x0a]) by (rewrite O in O1; apply app_inv_head in O1; exact O1). subst t.
    assert (E : v = j). { apply (jtext_fun lax false v j (t' ++ [x0a])); [exact J| |exact N|pose proof (drv_nest _ _ J1); change max_depth with 10000%N; lia].
      exists [], t', [x0a]. split; [constructor|]. split; [exact V|]. split; [constructor; [cbn [In]; auto|constructor]|reflexivity]. }
    subst v. exact J1. }
  intros short short' nl nl' d d' t t' lax lax' v W W' U U' P P' J J' N. apply (drv_inj d d' v); eapply X; eassumption.
Qed.
Print Assumptions C90_determined_partial.
(** Missing: strings that are not UTF-8.  Two derivations that differ in a byte of
    a variable print the same; and two variables are printed under one name. *)
Definition latin1 (c : byte) : drv := mk (bs "/bin/sh") [] [(bs "name", bs "x"); (bs "text", [c])].
Definition full : nils := Nils (fun _ => false) (fun _ => false).
Definition two_keys : drv := mk (bs "/bin/sh") [] [(bs "name", bs "x"); ([xe8], bs "1"); ([xe9], bs "2")].
Theorem C90_determined_refuted :
  (wf_maps (latin1 xe8) /\ drv_Validate (latin1 xe8) = Ok tt /\ wf_maps (latin1 xe9) /\ drv_Validate (latin1 xe9) = Ok tt /\ ~ same_fields (latin1 xe8) (latin1 xe9) /\
   forall short nl pretty w, Encode short nl pretty (latin1 xe8) w = Encode short nl pretty (latin1 xe9) w) /\
  (wf_maps two_keys /\ drv_Validate two_keys = Ok tt /\ forall short, exists t ms vs, Encode short full false two_keys good_sink = (Ok tt, Sink (t ++ [x0a]) []) /\ jtext true (JObj ms) t /\
     named "env" ms = [JObj vs] /\ ~ NoDup (map fst vs)).
Proof.
  split.
  - split; [repeat split; apply nodup_dec; vm_compute; reflexivity|]. split; [vm_compute; reflexivity|]. split; [repeat split; apply nodup_dec; vm_compute; reflexivity|]. split; [vm_compute; reflexivity|]. split.
    + intros (_ & _ & _ & _ & _ & _ & P). assert (I : In (bs "text", [xe8]) (d_env (latin1 xe9))) by (eapply Permutation_in; [exact P|right; left; reflexivity]). destruct I as [I|[I|[]]]; discriminate I.
    + intros short nl pretty w. unfold Encode. replace (compact short (drv_json nl (latin1 xe8))) with (compact short (drv_json nl (latin1 xe9))); [reflexivity|]. unfold drv_json. change (d_args (latin1 xe8)) with (@nil bytes). change (d_args (latin1 xe9)) with (@nil bytes). destruct nl as [f g]. cbn [nil_field nil_names]. destruct (f (bs "args")); destruct short; vm_compute; reflexivity.
  - split; [repeat split; apply nodup_dec; vm_compute; reflexivity|]. split; [vm_compute; reflexivity|]. intros short.
    assert (P : exists ms, parse_value (compact short (drv_json full two_keys)) = Some (JObj ms, []) /\ exists vs, named "env" ms = [JObj vs] /\ ~ NoDup (map fst vs)).
    { eexists. split; [destruct short; vm_compute; reflexivity|]. eexists. split; [vm_compute; reflexivity|]. intros N. inversion N as [|? ? N1 N2]; subst. inversion N2 as [|? ? N3 N4]; subst. apply N3. left. reflexivity. }
    destruct P as (ms & P & vs & E & N). apply parse_jtext in P. destruct P as (_ & u & J & E2). rewrite app_nil_r in E2. subst u. exists (compact short (drv_json full two_keys)), ms, vs. split; [reflexivity|]. auto.
Qed.
Print Assumptions C90_determined_refuted.
Example C88_nonvacuous : json_format (bs "json-pretty") true /\ wf_maps sample /\ drv_utf8 sample /\ ~ drv_utf8 (latin1 xe9) /\
  show_Run (fun _ => Ok (Drv [] [(bs "out", Output p1 [] (bs "<1>"))] [] [] (bs "p") (bs "b") [] [(bs "name", [x22; xe9; xc3; xa9])])) (Encode false full) (bs "x") (bs "json-pretty") good_sink
  = (Ok tt, Sink (bs "{
  ""outputs"": {
    ""out"": {
      ""path"": ""/nix/store/00bgd045z0d4icpbc2yyz4gx48ak44la-x"",
      ""hash"": ""\u003c1\u003e""
    }
  },
  ""inputSrcs"": [],
  ""inputDrvs"": {},
  ""system"": ""p"",
  ""builder"": ""b"",
  ""args"": [],
  ""env"": {
    ""name"": ""\""\ufffdé""
  }
}
") []).
Proof.
  split; [right; auto|]. split; [exact sample_wf|]. split; [|split; [|vm_compute; reflexivity]].
  - unfold drv_utf8. repeat (split; [repeat (apply Forall_cons; [|]); try apply Forall_nil; repeat split; repeat (apply Forall_cons; [|]); try apply Forall_nil; apply utf8_literal; vm_compute; reflexivity|]). repeat (apply Forall_cons; [split; apply utf8_literal; vm_compute; reflexivity|]). apply Forall_nil.
  - intros (_ & _ & _ & _ & _ & _ & H). inversion H as [|? ? _ H1]; subst. inversion H1 as [|? ? (_ & H2) _]; subst. cbn [snd] in H2. inversion H2 as [|c b s U S E]. pose proof (decode_utf8 c b s U) as D. rewrite E in D. change (decode_rune [xe9]) with (65533%N, 1) in D.
    assert (c = 65533%N) by congruence. subst c. apply utf8_encode in U. rewrite U in D. discriminate D.
Qed.

Example C88_nil_nonvacuous :
  show_Run (fun _ => Ok (Drv [] [(bs "out", Output p1 [] [])] [] [] (bs "p") (bs "b") [] [])) (Encode false (Nils (beq (bs "args")) (fun _ => true))) (bs "x") (bs "json") good_sink
  = (Ok tt, Sink (compact false (JObj [(bs "outputs", JObj [(bs "out", JObj [(bs "path", JStr p1)])]); (bs "inputSrcs", JArr []); (bs "inputDrvs", JObj []); (bs "system", JStr (bs "p"));
      (bs "builder", JStr (bs "b")); (bs "args", JNull); (bs "env", JObj [])]) ++ [x0a]) []).
Proof. vm_compute. reflexivity. Qed.

Example C90_nonvacuous : prints false full sample_sorted (compact false (drv_json full sample_sorted) ++ [x0a]) /\ wf_maps sample_sorted /\
  exists v, jtext true v (compact false (drv_json full sample_sorted) ++ [x0a]) /\ (N.of_nat (nesting v) <= 10000)%N.
Proof.
  split; [exists (fun _ => Ok sample_sorted), [], (bs "json"), false, good_sink; eexists; split; [left; auto|]; split; [reflexivity|]; split; [constructor|]; split; reflexivity|].
  assert (W : wf_maps sample_sorted) by (repeat split; apply nodup_dec; vm_compute; reflexivity). split; [exact W|]. destruct W as (N1 & N2 & N3). pose proof (drv_ok full _ N1 N2 N3) as J. destruct (written false _ (drv_nums _ _ J)) as (v & R & V & _).
  destruct (parse_value (compact false (drv_json full sample_sorted) ++ [x0a])) as [(v' & rest)|] eqn:P; [|vm_compute in P; discriminate P].
  assert (E : rest = [x0a]) by (vm_compute in P; congruence). subst rest. apply parse_jtext in P. destruct P as (N & u & (w1 & u' & w2 & W1 & V' & W2 & ->) & T). exists v'. split; [|exact N]. rewrite T.
  exists w1, u', (w2 ++ [x0a]). split; [exact W1|]. split; [exact V'|]. split; [apply Forall_app; split; [exact W2|constructor; [cbn [In]; auto|constructor]]|]. rewrite <- !app_assoc. reflexivity.
Qed.

(** * C91: the name in structured attributes *)
(** JSON that the parser reads "__json" as: a name is found exactly in an object
    whose members called "name", up to case, are strings or null; the last counts. *)
Theorem C91_structured_name : forall r d, ReadDerivation attrs_name r = Ok d ->
  match mget (d_env d) (bs "__json") with
  | None => d_name d = []
  | Some t => exists v, jtext true v t /\ (N.of_nat (nesting v) <= 10000)%N /\ attr_name v (d_name d)
  end.
Proof.
  intros r d H. apply accept_iff in H. destruct H as (_ & (body & f0 & f1 & f2 & f5 & f6 & outs & ins & env & H) & _). repeat (destruct H as (_ & H)). unfold json_consistent in H.
  destruct (mget (d_env d) (bs "__json")) as [t|]; [apply attrs_iff; exact H|exact H].
Qed.
Print Assumptions C91_structured_name.
(** And no other "__json" is accepted: exactly when the text is such an object, an
    otherwise acceptable derivation is read. *)
Theorem C91_accepts_iff : forall r d, ReadDerivation attrs_name r = Ok d <->
  fin r = EEOF /\ drv_Validate d = Ok tt /\ reads_drv (fun _ => Ok (Some (d_name d))) (src_data r) d /\
  match mget (d_env d) (bs "__json") with
  | None => d_name d = []
  | Some t => exists v, jtext true v t /\ (N.of_nat (nesting v) <= 10000)%N /\ attr_name v (d_name d)
  end.
Proof.
  intros r d. rewrite accept_iff. unfold reads_drv. split.
  - intros (F & (body & f0 & f1 & f2 & f5 & f6 & outs & ins & env & H) & V). split; [exact F|]. split; [exact V|]. repeat match type of H with _ /\ _ /\ _ => let A := fresh "A" in destruct H as (A & H) end. destruct H as (Z9 & J).
    unfold json_consistent in *. split.
    + exists body, f0, f1, f2, f5, f6, outs, ins, env. repeat (split; [assumption|]). destruct (mget (d_env d) (bs "__json")); [reflexivity|exact J].
    + destruct (mget (d_env d) (bs "__json")) as [t|]; [apply attrs_iff; exact J|exact J].
  - intros (F & V & (body & f0 & f1 & f2 & f5 & f6 & outs & ins & env & H) & J). split; [exact F|]. split; [|exact V]. repeat match type of H with _ /\ _ /\ _ => let A := fresh "A" in destruct H as (A & H) end. destruct H as (Z9 & _).
    exists body, f0, f1, f2, f5, f6, outs, ins, env. repeat (split; [assumption|]). unfold json_consistent. destruct (mget (d_env d) (bs "__json")) as [t|]; [apply attrs_iff; exact J|exact J].
Qed.
Print Assumptions C91_accepts_iff.
(** Nix takes the attribute "name" only.  A structured derivation with an attribute
    NAME that is a number cannot be read; with a string it takes that for the name. *)
Definition structured (j : bytes) : drv := mk (bs "/bin/sh") [] [(bs "__json", j); (bs "out", p1)].
Definition with_name (n : bytes) (d : drv) : drv := Drv n (d_outputs d) (d_srcs d) (d_inputs d) (d_platform d) (d_builder d) (d_args d) (d_env d).
Definition q (s : string) : bytes := flat_map (fun c => if byte_eqb c "'"%byte then [x22] else [c]) (bs s).
Theorem C91_case_refuted :
  is_err (ReadDerivation attrs_name (src1 (text_of (structured (q "{'NAME':1,'name':'x'}"))))) = true /\
  ReadDerivation attrs_name (src1 (text_of (structured (q "{'name':'x','Name':'y'}")))) = Ok (with_name (bs "y") (structured (q "{'name':'x','Name':'y'}"))) /\
  ReadDerivation attrs_name (src1 (text_of (structured (q "{'name':'x'}")))) = Ok (with_name (bs "x") (structured (q "{'name':'x'}"))).
Proof. split; [|split]; vm_compute; reflexivity. Qed.
Print Assumptions C91_case_refuted.

(** * C92: when the parser panics *)
Theorem C92_panics_iff : forall r, is_panic (ReadDerivation attrs_name r) = true <->
  fin r = EEOF /\ exists d t, parseDerivation (fun _ => Ok (Some [])) (src_data r) = Ok d /\ mget (d_env d) (bs "__json") = Some t /\ jtext true JNull t.
Proof.
  intros r. unfold ReadDerivation, ReadAll. destruct (fin r); cbn [rbind]; try (split; [discriminate|intros (H & _); discriminate H]).
  set (b := src_data r). assert (NP : is_panic (parseDerivation (fun _ => Ok (Some [])) b) = false) by (apply parse_no_panic; intros j; split; [reflexivity|discriminate]). rewrite parse_eq in NP. rewrite !parse_eq. destruct (length b <? 8); [split; [discriminate|intros (_ & d & t & H & _); discriminate H]|].
  destruct (Storepath.slice b 0 6) as [pre|e|m]; cbn [rbind] in *; [|split; [discriminate|intros (_ & d & t & H & _); discriminate H]|discriminate NP]. destruct (negb (beq pre (bs "Derive"))); [split; [discriminate|intros (_ & d & t & H & _); discriminate H]|].
  destruct (Storepath.slice b 6 (length b)) as [body|e|m]; cbn [rbind] in *; [|split; [discriminate|intros (_ & d & t & H & _); discriminate H]|discriminate NP]. destruct (arrayEach drv_field body _) as [d0|e|m]; cbn [rbind] in *; [|split; [discriminate|intros (_ & d & t & H & _); discriminate H]|discriminate NP].
  clear NP. unfold set_name at 1. split.
  - destruct (mget (d_env d0) (bs "__json")) as [t|] eqn:E; cbn [rbind].
    + destruct (attrs_name t) as [[n|]|e|m] eqn:A; cbn [rbind].
      * match goal with |- context [drv_Validate ?x] => pose proof (Validate_no_panic x) as Q; destruct (drv_Validate x); cbn [rbind]; intros H; [discriminate H|discriminate H|rewrite Q in H || discriminate Q] end.
      * intros _. split; [reflexivity|]. eexists _, t. split; [unfold set_name; rewrite E; reflexivity|]. cbn [d_env]. split; [exact E|apply attrs_null; exact A].
      * discriminate.
      * pose proof (attrs_no_panic t) as Q. rewrite A in Q. discriminate Q.
    + pose proof (Validate_no_panic d0) as Q. destruct (drv_Validate d0); cbn [rbind]; intros H; [discriminate H|discriminate H|discriminate Q].
  - intros (_ & d & t & S & G & J). apply set_name_ok in S. rewrite S in G. cbn [d_env] in G. rewrite G. apply attrs_null in J. rewrite J. reflexivity.
Qed.
Print Assumptions C92_panics_iff.
Theorem C92_no_panic_refuted : is_panic (ReadDerivation attrs_name (src1 (text_of (structured (bs " null"))))) = true.
Proof. vm_compute. reflexivity. Qed.
Print Assumptions C92_no_panic_refuted.

(** * C93, C94: listings *)
(** What ParseLS accepts, from the bytes of the reader: white space, one object of
    the grammar, and anything; Go's decoder does not look at what follows. *)
Theorem C93_listing_read : forall r root, ParseLS_reader r = Ok root ->
  exists w u rest v, src_data r = w ++ u ++ rest /\ white w /\ jvalue true v u /\ (N.of_nat (nesting v) <= 10000)%N /\ listing_of v root /\ lversion root = 1%Z /\
    forall m, below (lroot_node root) m -> exists n, m = Some n /\ Forall (fun e => clean_name (fst e)) (lentries n) /\ (lentries n <> [] -> fields_fit n).
Proof.
  intros r root H. apply C40_listing_validated_partial in H. destruct H as (D & V1 & B). unfold ls_Decode in D. destruct (parse_value (src_data r)) as [(v & rest)|] eqn:P; [|discriminate D]. destruct (into_root v) as [x|] eqn:R; [|discriminate D]. assert (x = root) by congruence. subst x.
  destruct (ls_text _ _ (ex_intro _ _ P)) as (w & u & rest' & T & W & V & N). exists w, u, rest', v. split; [exact T|]. split; [exact W|]. split; [exact V|]. split; [exact N|]. split; [apply into_root_sound; [exact R|lia]|]. auto.
Qed.
Print Assumptions C93_listing_read.
(** And such a text is accepted whatever follows it, with that result (maps have no order). *)
Theorem C93_listing_accepted : forall r root w u rest v, src_data r = w ++ u ++ rest -> white w -> jvalue true v u -> (N.of_nat (nesting v) <= 10000)%N -> listing_of v root -> lversion root = 1%Z ->
  (forall m, below (lroot_node root) m -> exists n, m = Some n /\ Forall (fun e => clean_name (fst e)) (lentries n) /\ (lentries n <> [] -> fields_fit n)) ->
  exists root', ParseLS_reader r = Ok root' /\ lversion root' = 1%Z /\ reordered (Some (lroot_node root')) (Some (lroot_node root)).
Proof.
  intros r root w u rest v T W V N L V1 B. destruct (into_root_complete v root L) as (n & R & RO). exists (LRoot (lversion root) n). split; [|split; [exact V1|exact RO]].
  apply C40_listing_validated_partial. split; [|split; [exact V1|]].
  - unfold ls_Decode. rewrite T, (ls_parse w u rest v W V N); [rewrite R; reflexivity|]. destruct L as (ms & -> & _). reflexivity.
  - cbn [lroot_node]. assert (C : checked (Some (lroot_node root))) by (apply checked_below; intros m M; destruct (B m M) as (k & A1 & A2 & A3); eauto).
    apply (reordered_checked _ _ (reordered_sym _ _ RO)) in C. rewrite checked_below in C. intros m M. destruct (C m M) as (k & A1 & A2 & A3). eauto.
Qed.
Print Assumptions C93_listing_accepted.
(** The listing a text stands for is unique, but for the order of the maps. *)
Theorem C93_listing_unique : forall v root root', listing_of v root -> listing_of v root' -> lversion root = lversion root' /\ exists n, reordered (Some n) (Some (lroot_node root)) /\ reordered (Some n) (Some (lroot_node root')).
Proof.
  intros v root root' L L'. destruct (into_root_complete v root L) as (n & R & RO). destruct (into_root_complete v root' L') as (n' & R' & RO'). rewrite R in R'. assert (lversion root = lversion root' /\ n = n') as (E & <-) by (split; congruence). split; [exact E|]. exists n. auto.
Qed.
Print Assumptions C93_listing_unique.
(** A listing with another version, another structure or a field that is not known
    is an error, and so is a text that is not JSON. *)
Definition ls (s : string) : res lroot := ParseLS_reader (src1 (q s)).
Definition a_file : lnode := LNode (bs "regular") [] 5 [] false 96.
Example C93_nonvacuous :
  ls "{'version':1,'root':{'type':'directory','entries':{'a':{'type':'regular','size':5,'narOffset':96}}}}" = Ok (LRoot 1 (LNode (bs "directory") [(bs "a", Some a_file)] 0 [] false 0)) /\
  ls " {'root':{'ENTRIES':{'b':{}},'type':'directory'},'root':{'entries':{'a':{'size':4,'size':5,'narOffset':96,'type':'regular'}}},'VERSION':1} trailing" =
    Ok (LRoot 1 (LNode (bs "directory") [(bs "b", Some (LNode [] [] 0 [] false 0)); (bs "a", Some a_file)] 0 [] false 0)) /\
  is_err (ls "{'version':1,'root':{'color':1}}") = true /\ is_err (ls "{'version':2,'root':{}}") = true /\ is_err (ls "{'version':1,'root':[]}") = true /\
  is_err (ls "{'version':1.0,'root':{}}") = true /\ is_err (ls "{'version':1,'root':{}") = true /\
  is_err (ls "{'version':1,'root':{'entries':{'a/b':{}}}}") = true.
Proof. repeat split; vm_compute; reflexivity. Qed.
(** * C94: when ParseLS panics *)
Theorem C94_panics_only : forall r, is_panic (ParseLS_reader r) = true ->
  exists w u rest v root, src_data r = w ++ u ++ rest /\ white w /\ jvalue true v u /\ listing_of v root /\ lversion root = 1%Z /\ below (lroot_node root) None.
Proof.
  intros r H. unfold ParseLS_reader, ParseLS, ls_Decode in H. destruct (parse_value (src_data r)) as [(v & rest)|] eqn:P; [|discriminate H]. destruct (into_root v) as [root|] eqn:R; [|discriminate H]. cbn [rbind] in H.
  destruct (Z.eqb_spec (lversion root) 1) as [V1|]; [|discriminate H]. cbn [negb] in H. destruct (ls_text _ _ (ex_intro _ _ P)) as (w & u & rest' & T & W & V & _). exists w, u, rest', v, root. split; [exact T|]. split; [exact W|]. split; [exact V|].
  split; [apply into_root_sound; [exact R|lia]|]. split; [exact V1|]. apply validate_panic. destruct (validateNode (lroot_node root)); [discriminate H|discriminate H|reflexivity].
Qed.
Print Assumptions C94_panics_only.
Theorem C94_no_panic_refuted : is_panic (ls "{'version':1,'root':{'type':'directory','entries':{'a':null}}}") = true.
Proof. vm_compute. reflexivity. Qed.
Print Assumptions C94_no_panic_refuted.
