From Verif Require Import Base.Bytes Base.BytesFacts Model.GoIO Model.GoStd Model.Nixhash Model.Storepath Model.Derivation Model.DrvParser Spec.StorePathSpec Spec.DerivationSpec
  Proof.StorePathProps Proof.DrvEncode Proof.DrvParse Proof.DrvRound Proof.DrvValidate Proof.DrvText Proof.DrvAny.
Ltac Zify.zify_post_hook ::= idtac.

Lemma quoted_inj a b : quoted a = quoted b -> a = b.
Proof. intros H. pose proof (unquote_quoted a) as X. rewrite H, unquote_quoted in X. injection X as X. auto. Qed.
Lemma strings_iff items : forall i acc l, fold_items string_item items i acc = Ok l <-> exists l', items = map quoted l' /\ l = acc ++ l'.
Proof.
  induction items as [|v items IH]; intros i acc l; cbn [fold_items].
  - split; [intros H; injection H as <-; exists []; rewrite app_nil_r; auto|]. intros (l' & A & ->). destruct l'; [rewrite app_nil_r; reflexivity|discriminate].
  - unfold string_item at 1. destruct (unquoteSlice_cases v) as [(s & E & E1)|(e & E0)]; [rewrite E1|rewrite E0]; cbn [rbind].
    + rewrite IH. split.
      * intros (l' & A & ->). exists (s :: l'). cbn [map]. rewrite A, E, <- app_assoc. auto.
      * intros (l' & A & ->). destruct l' as [|s' l']; [discriminate|]. cbn [map] in A. injection A as A1 A2. assert (s = s') by (apply quoted_inj; congruence). subst s'.
        exists l'. rewrite <- app_assoc. auto.
    + split; [discriminate|]. intros (l' & A & _). destruct l' as [|s' l']; [discriminate|]. injection A as A1 _. subst v. rewrite unquote_quoted in E0. discriminate.
Qed.
Lemma each_strings_iff v acc l : arrayEach string_item v acc = Ok l <-> exists l', array_of v (map quoted l') /\ l = acc ++ l'.
Proof.
  rewrite arrayEach_ok. split.
  - intros (items & A & F). apply strings_iff in F. destruct F as (l' & -> & ->). eauto.
  - intros (l' & A & ->). exists (map quoted l'). split; [exact A|]. apply strings_iff. eauto.
Qed.

(** * Entries *)
Ltac unq v := let s := fresh "s" in let E := fresh "E" in let E1 := fresh "E1" in let e := fresh "e" in
  destruct (unquoteSlice_cases v) as [(s & E & E1)|(e & E1)]; rewrite E1; cbn [rbind].
Lemma nble_blt a b : ble a b = false -> blt b a = true.
Proof. intros H. rewrite blt_not_ble, H. reflexivity. Qed.
Lemma output_item_inv m prev v i st : output_item (m, prev) v i = Ok st ->
  exists no, st = (mset m (fst no) (snd no), fst no) /\ reads_output v no /\ blt prev (fst no) = true.
Proof.
  unfold output_item. destruct (arrayEach (output_field prev) v ([], Output [] [] [])) as [[name o]|e|w] eqn:E; cbn [rbind]; try discriminate.
  apply arrayEach_ok in E. destruct E as (items & A & F). destruct name as [|c name]; [discriminate|]. intros H. injection H as <-. exists (c :: name, o). split; [reflexivity|].
  assert (K : (exists rest, items ++ rest = map quoted [c :: name; o_path o; o_algo o; o_hash o] /\ items <> [] /\ Forall (fun x => x = quoted []) rest) /\ blt prev (c :: name) = true).
  { destruct items as [|v0 items]; [discriminate F|]. cbn [fold_items] in F. unfold output_field at 1 in F. revert F. unq v0; [|discriminate].
    destruct (ble s prev) eqn:O; cbn [rbind]; [discriminate|]. apply nble_blt in O. destruct items as [|v1 items].
    { cbn [fold_items]. intros H. injection H as <- <-. split; [|exact O]. exists (map quoted [[]; []; []]). subst v0. split; [reflexivity|]. split; [discriminate|]. repeat constructor. }
    cbn [fold_items]. unfold output_field at 1. cbn [Nat.add]. unq v1; [|discriminate]. destruct items as [|v2 items].
    { cbn [fold_items]. intros H. injection H as <- <-. split; [|exact O]. exists (map quoted [[]; []]). subst v0 v1. split; [reflexivity|]. split; [discriminate|]. repeat constructor. }
    cbn [fold_items]. unfold output_field at 1. cbn [Nat.add]. unq v2; [|discriminate]. destruct items as [|v3 items].
    { cbn [fold_items]. intros H. injection H as <- <-. split; [|exact O]. exists (map quoted [[]]). subst v0 v1 v2. split; [reflexivity|]. split; [discriminate|]. repeat constructor. }
    cbn [fold_items]. unfold output_field at 1. cbn [Nat.add]. unq v3; [|discriminate]. destruct items as [|v4 items].
    { cbn [fold_items]. intros H. injection H as <- <-. split; [|exact O]. exists []. subst v0 v1 v2 v3. split; [reflexivity|]. split; [discriminate|]. constructor. }
    cbn [fold_items]. unfold output_field at 1. cbn [Nat.add]. discriminate. }
  destruct K as [(rest & K1 & K2 & K3) K4]. split; [|exact K4]. split; [discriminate|]. exists items, rest. cbn [fst snd]. auto.
Qed.
Lemma output_item_reads m prev v i no : reads_output v no -> blt prev (fst no) = true -> output_item (m, prev) v i = Ok (mset m (fst no) (snd no), fst no).
Proof.
  destruct no as [name o]. intros (NE & items & rest & A & E & N & R) O. cbn [fst snd] in *. unfold output_item. rewrite (arrayEach_of _ v items A).
  assert (B : ble name prev = false) by (apply blt_nble; exact O). destruct o as [pa al ha]. cbn [o_path o_algo o_hash] in E.
  assert (F : fold_items (output_field prev) items 0 ([], Output [] [] []) = Ok (name, Output pa al ha)).
  { destruct items as [|v0 items]; [congruence|]. cbn [map app] in E. injection E as -> E. cbn [fold_items]. unfold output_field at 1. rewrite unquote_quoted. cbn [rbind]. rewrite B. cbn [rbind].
    destruct items as [|v1 items].
    { cbn [app] in E. subst rest. inversion R as [|? ? R1 R']; subst. inversion R' as [|? ? R2 R'']; subst. inversion R'' as [|? ? R3 _]; subst.
      apply quoted_inj in R1, R2, R3. subst. reflexivity. }
    cbn [app] in E. injection E as -> E. cbn [fold_items]. unfold output_field at 1. cbn [Nat.add]. rewrite unquote_quoted. cbn [rbind].
    destruct items as [|v2 items].
    { cbn [app] in E. subst rest. inversion R as [|? ? R1 R']; subst. inversion R' as [|? ? R2 R'']; subst.
      apply quoted_inj in R1, R2. subst. reflexivity. }
    cbn [app] in E. injection E as -> E. cbn [fold_items]. unfold output_field at 1. cbn [Nat.add]. rewrite unquote_quoted. cbn [rbind].
    destruct items as [|v3 items].
    { cbn [app] in E. subst rest. inversion R as [|? ? R1 R']; subst. apply quoted_inj in R1. subst. reflexivity. }
    cbn [app] in E. injection E as -> E. destruct items; [|discriminate]. cbn [fold_items]. unfold output_field at 1. cbn [Nat.add]. rewrite unquote_quoted. reflexivity. }
  rewrite F. cbn [rbind]. destruct name; [congruence|reflexivity].
Qed.
Lemma input_item_inv m prev v i st : input_item (m, prev) v i = Ok st ->
  exists pn, st = (mset m (fst pn) (snd pn), fst pn) /\ (fst pn = [] \/ (reads_input v pn /\ blt prev (fst pn) = true)).
Proof.
  unfold input_item. destruct (arrayEach (input_field prev) v ([], [])) as [[p names]|e|w] eqn:E; cbn [rbind]; try discriminate.
  apply arrayEach_ok in E. destruct E as (items & A & F). intros H. injection H as <-. exists (p, names). split; [reflexivity|]. cbn [fst snd].
  destruct items as [|v0 items]; [injection F as <- <-; left; reflexivity|]. right. cbn [fold_items] in F. unfold input_field at 1 in F. revert F. unq v0; [|discriminate].
  destruct (ble s prev) eqn:O; cbn [rbind]; [discriminate|]. apply nble_blt in O. destruct items as [|v1 items].
  { cbn [fold_items]. intros H. injection H as <- <-. split; [|exact O]. split; [eapply blt_ne; exact O|]. exists []. right. subst v0. auto. }
  cbn [fold_items]. unfold input_field at 1. cbn [Nat.add]. destruct (arrayEach string_item v1 []) as [l|e|w] eqn:E2; cbn [rbind]; try discriminate. destruct items as [|v2 items].
  { cbn [fold_items]. intros H. injection H as <- <-. apply each_strings_iff in E2. destruct E2 as (l' & A2 & ->). cbn [app]. split; [|exact O]. split; [eapply blt_ne; exact O|]. exists v1. left. subst v0. auto. }
  cbn [fold_items]. unfold input_field at 1. cbn [Nat.add]. discriminate.
Qed.
Lemma input_item_reads m prev v i pn : reads_input v pn -> blt prev (fst pn) = true -> input_item (m, prev) v i = Ok (mset m (fst pn) (snd pn), fst pn).
Proof.
  destruct pn as [p names]. cbn [fst snd]. intros (NE & w & H) O. cbn [fst snd] in *. assert (B : ble p prev = false) by (apply blt_nble; exact O). unfold input_item.
  destruct H as [(A & A2)|(A & ->)]; rewrite (arrayEach_of _ v _ A); cbn [fold_items]; unfold input_field at 1; rewrite unquote_quoted; cbn [rbind]; rewrite B; cbn [rbind]; [|reflexivity].
  unfold input_field at 1. cbn [Nat.add]. replace (arrayEach string_item w []) with (Ok names); [reflexivity|]. symmetry. apply each_strings_iff. exists names. auto.
Qed.
Lemma env_item_inv m prev v i st : env_item (m, prev) v i = Ok st ->
  exists kv, st = (mset m (fst kv) (snd kv), fst kv) /\ (fst kv = [] \/ (reads_env v kv /\ blt prev (fst kv) = true)).
Proof.
  unfold env_item. destruct (arrayEach (env_field prev) v ([], [])) as [[k x]|e|w] eqn:E; cbn [rbind]; try discriminate.
  apply arrayEach_ok in E. destruct E as (items & A & F). intros H. injection H as <-. exists (k, x). split; [reflexivity|]. cbn [fst snd].
  destruct items as [|v0 items]; [injection F as <- <-; left; reflexivity|]. right. cbn [fold_items] in F. unfold env_field at 1 in F. revert F. unq v0; [|discriminate].
  destruct (ble s prev) eqn:O; cbn [rbind]; [discriminate|]. apply nble_blt in O. destruct items as [|v1 items].
  { cbn [fold_items]. intros H. injection H as <- <-. split; [|exact O]. split; [eapply blt_ne; exact O|]. exists []. cbn [fst snd]. split; [reflexivity|]. right. subst v0. auto. }
  cbn [fold_items]. unfold env_field at 1. cbn [Nat.add]. destruct (unquote v1) as [y|e|w] eqn:E2; cbn [rbind]; try discriminate. destruct items as [|v2 items].
  { cbn [fold_items]. intros H. injection H as <- <-. apply unquote_ok in E2. destruct E2 as (w & -> & ->). split; [|exact O]. split; [eapply blt_ne; exact O|]. exists w. cbn [fst snd]. split; [reflexivity|]. left. subst v0. auto. }
  cbn [fold_items]. unfold env_field at 1. cbn [Nat.add]. discriminate.
Qed.
Lemma env_item_reads m prev v i kv : reads_env v kv -> blt prev (fst kv) = true -> env_item (m, prev) v i = Ok (mset m (fst kv) (snd kv), fst kv).
Proof.
  destruct kv as [k x]. cbn [fst snd]. intros (NE & w & X & H) O. cbn [fst snd] in *. assert (B : ble k prev = false) by (apply blt_nble; exact O). unfold env_item.
  destruct H as [A|(A & ->)]; rewrite (arrayEach_of _ v _ A); cbn [fold_items]; unfold env_field at 1; rewrite unquote_quoted; cbn [rbind]; rewrite B; cbn [rbind].
  - unfold env_field at 1. cbn [Nat.add]. replace (unquote (quoted w)) with (Ok x); [reflexivity|]. symmetry. apply unquote_ok. eauto.
  - rewrite X. reflexivity.
Qed.

(** * Maps *)
Section Maps.
Context {V : Type}.
Variable item : amap V * bytes -> bytes -> nat -> res (amap V * bytes).
Variable reads : bytes -> bytes * V -> Prop.
Hypothesis inv : forall m prev v i st, item (m, prev) v i = Ok st ->
  exists kv, st = (mset m (fst kv) (snd kv), fst kv) /\ (fst kv = [] \/ (reads v kv /\ blt prev (fst kv) = true)).
Hypothesis fwd : forall m prev v i kv, reads v kv -> blt prev (fst kv) = true -> item (m, prev) v i = Ok (mset m (fst kv) (snd kv), fst kv).
Lemma fold_keys items : forall i m prev m' p' k, fold_items item items i (m, prev) = Ok (m', p') -> In k (mkeys m) -> In k (mkeys m').
Proof.
  induction items as [|v items IH]; intros i m prev m' p' k H I; cbn [fold_items] in H; [injection H as <- <-; exact I|].
  destruct (item (m, prev) v i) as [[m1 p1]|e|w] eqn:E; cbn [rbind] in H; try discriminate. apply inv in E. destruct E as (kv & E & _). injection E as -> ->.
  eapply IH; [exact H|]. apply mset_keys. right. exact I.
Qed.
Lemma fold_map_inv items : forall i m prev m' p', fold_items item items i (m, prev) = Ok (m', p') -> ~ In [] (mkeys m') -> (forall k, In k (mkeys m) -> ble k prev = true) ->
  exists l, m' = m ++ l /\ Forall2 reads items l /\ strictly_sorted (prev :: map fst l).
Proof.
  induction items as [|v items IH]; intros i m prev m' p' H NE LE; cbn [fold_items] in H.
  - injection H as <- <-. exists []. rewrite app_nil_r. split; [reflexivity|]. split; constructor; constructor.
  - destruct (item (m, prev) v i) as [[m1 p1]|e|w] eqn:E; cbn [rbind] in H; try discriminate. apply inv in E. destruct E as ([k x] & E & C). cbn [fst snd] in *. injection E as -> ->.
    destruct C as [->|(R & O)].
    + exfalso. apply NE. eapply fold_keys; [exact H|]. apply mset_keys. left. reflexivity.
    + assert (FR : ~ In k (mkeys m)). { intros X. apply LE in X. rewrite blt_not_ble, X in O. discriminate. }
      rewrite (mset_fresh m k x FR) in H. apply IH in H; [|exact NE|].
      * destruct H as (l & -> & F & S). exists ((k, x) :: l). rewrite <- app_assoc. split; [reflexivity|]. split; [constructor; assumption|]. cbn [map fst].
        constructor; [exact S|]. constructor; [exact O|]. inversion S as [|? ? _ F']; subst. apply Forall_impl with (2 := F'). intros z Hz. eapply blt_trans; eauto.
      * intros k' Hk'. unfold mkeys in Hk'. rewrite map_app in Hk'. apply in_app_or in Hk'. destruct Hk' as [Hk'|[<-|[]]]; [|apply ble_refl].
        apply blt_ble. eapply ble_blt_trans; [apply LE; exact Hk'|exact O].
Qed.
Lemma fold_map_fwd items : forall l i m prev, Forall2 reads items l -> strictly_sorted (prev :: map fst l) -> (forall k, In k (mkeys m) -> ble k prev = true) ->
  exists p', fold_items item items i (m, prev) = Ok (m ++ l, p').
Proof.
  induction items as [|v items IH]; intros l i m prev F S LE; inversion F as [|? kv ? l' R F']; subst; cbn [fold_items].
  - rewrite app_nil_r. eauto.
  - cbn [map] in S. inversion S as [|? ? S' F0]; subst. inversion F0 as [|? ? O F1]; subst. rewrite (fwd m prev v i kv R O). cbn [rbind].
    assert (FR : ~ In (fst kv) (mkeys m)). { intros X. apply LE in X. rewrite blt_not_ble, X in O. discriminate. }
    rewrite (mset_fresh m (fst kv) (snd kv) FR). destruct (IH l' (i + 1) (m ++ [(fst kv, snd kv)]) (fst kv) F' S') as (p' & E).
    + intros k' Hk'. unfold mkeys in Hk'. rewrite map_app in Hk'. apply in_app_or in Hk'. destruct Hk' as [Hk'|[<-|[]]]; [|apply ble_refl].
      apply blt_ble. eapply ble_blt_trans; [apply LE; exact Hk'|exact O].
    + exists p'. rewrite E, <- app_assoc. destruct kv; reflexivity.
Qed.
Lemma parse_map_iff v l : ~ In [] (mkeys l) ->
  (let* st := arrayEach item v ([], []) in Ok (fst st)) = Ok l <-> exists items, array_of v items /\ Forall2 reads items l /\ strictly_sorted (mkeys l).
Proof.
  intros NE. split.
  - destruct (arrayEach item v ([], [])) as [[m p]|e|w] eqn:E; cbn [rbind]; try discriminate. cbn [fst]. intros H. injection H as ->. apply arrayEach_ok in E. destruct E as (items & A & F).
    destruct (fold_map_inv items 0 [] [] l p F NE) as (l' & -> & F2 & S); [intros k []|]. exists items. cbn [app]. split; [exact A|]. split; [exact F2|]. inversion S; assumption.
  - intros (items & A & F & S). destruct (fold_map_fwd items l 0 [] [] F) as (p & E).
    + unfold mkeys in S, NE. apply sorted_from_empty; assumption.
    + intros k [].
    + replace (arrayEach item v ([], [])) with (Ok (l, p)); [reflexivity|]. symmetry. apply arrayEach_ok. exists items. auto.
Qed.
End Maps.

(** * Derivations *)
Lemma quoted_iff v : forall s, unquoteSlice v = Ok s <-> v = quoted s.
Proof. intros s. apply unquoteSlice_iff. Qed.
Definition empty_drv : drv := Drv [] [] [] [] [] [] [] [].
Lemma fields_iff items d : ~ In [] (mkeys (d_outputs d)) -> ~ In [] (mkeys (d_inputs d)) -> ~ In [] (mkeys (d_env d)) -> d_env d <> [] -> 
  (fold_items drv_field items 0 empty_drv = Ok d <->
  (d_name d = [] /\ exists f0 f1 f2 f5 f6 outs ins env, items = [f0; f1; f2; quoted (d_platform d); quoted (d_builder d); f5; f6] /\
    array_of f0 outs /\ Forall2 reads_output outs (d_outputs d) /\ strictly_sorted (mkeys (d_outputs d)) /\
    array_of f1 ins /\ Forall2 reads_input ins (d_inputs d) /\ strictly_sorted (mkeys (d_inputs d)) /\
    array_of f2 (map quoted (d_srcs d)) /\ array_of f5 (map quoted (d_args d)) /\
    array_of f6 env /\ Forall2 reads_env env (d_env d) /\ strictly_sorted (mkeys (d_env d)))).
Proof.
  intros N1 N2 N3 NE. 
  assert (I1 : forall m prev v i st, output_item (m, prev) v i = Ok st -> exists kv, st = (mset m (fst kv) (snd kv), fst kv) /\ (fst kv = [] \/ (reads_output v kv /\ blt prev (fst kv) = true))).
  { intros m prev v i st H. apply output_item_inv in H. destruct H as (no & A & B & C). exists no. auto. }
  pose proof (fun v l => parse_map_iff output_item reads_output I1 output_item_reads v l) as PO.
  pose proof (fun v l => parse_map_iff input_item reads_input input_item_inv input_item_reads v l) as PI.
  pose proof (fun v l => parse_map_iff env_item reads_env env_item_inv env_item_reads v l) as PE.
  split.
  - intros H. unfold empty_drv in H.
    destruct items as [|f0 items]; [injection H as <-; cbn in NE; congruence|]. cbn [fold_items] in H. unfold drv_field at 1 in H.
    destruct (parse_outputs f0) as [mo|e|w] eqn:E0; cbn [rbind] in H; try discriminate.
    destruct items as [|f1 items]; [injection H as <-; cbn in NE; congruence|]. cbn [fold_items Nat.add] in H. unfold drv_field at 1 in H.
    destruct (parse_inputs f1) as [mi|e|w] eqn:E1; cbn [rbind] in H; try discriminate.
    destruct items as [|f2 items]; [injection H as <-; cbn in NE; congruence|]. cbn [fold_items Nat.add] in H. unfold drv_field at 1 in H.
    destruct (arrayEach string_item f2 []) as [srcs|e|w] eqn:E2; cbn [rbind] in H; try discriminate.
    destruct items as [|f3 items]; [injection H as <-; cbn in NE; congruence|]. cbn [fold_items Nat.add] in H. unfold drv_field at 1 in H.
    destruct (unquoteSlice f3) as [pl|e|w] eqn:E3; cbn [rbind] in H; try discriminate.
    destruct items as [|f4 items]; [injection H as <-; cbn in NE; congruence|]. cbn [fold_items Nat.add] in H. unfold drv_field at 1 in H.
    destruct (unquoteSlice f4) as [bl|e|w] eqn:E4; cbn [rbind] in H; try discriminate.
    destruct items as [|f5 items]; [injection H as <-; cbn in NE; congruence|]. cbn [fold_items Nat.add] in H. unfold drv_field at 1 in H.
    destruct (arrayEach string_item f5 []) as [args|e|w] eqn:E5; cbn [rbind] in H; try discriminate.
    destruct items as [|f6 items]; [injection H as <-; cbn in NE; congruence|]. cbn [fold_items Nat.add] in H. unfold drv_field at 1 in H.
    destruct (parse_env f6) as [me|e|w] eqn:E6; cbn [rbind] in H; try discriminate.
    destruct items as [|f7 items]; [|cbn [fold_items Nat.add] in H; unfold drv_field at 1 in H; discriminate]. injection H as <-. cbn in N1, N2, N3 |- *.
    split; [reflexivity|]. apply PO in E0; [|exact N1]. apply PI in E1; [|exact N2]. apply PE in E6; [|exact N3].
    apply each_strings_iff in E2, E5. destruct E2 as (l2 & A2 & ->). destruct E5 as (l5 & A5 & ->). apply quoted_iff in E3, E4. subst f3 f4. cbn [app].
    destruct E0 as (i0 & A0 & B0 & C0). destruct E1 as (i1 & A1 & B1 & C1). destruct E6 as (i6 & A6 & B6 & C6).
    exists f0, f1, f2, f5, f6, i0, i1, i6. auto 20.
  - intros (Hn & f0 & f1 & f2 & f5 & f6 & i0 & i1 & i6 & -> & A0 & B0 & C0 & A1 & B1 & C1 & A2 & A5 & A6 & B6 & C6).
    destruct d as [nm outs srcs ins pl bl args env]. cbn [d_name d_outputs d_srcs d_inputs d_platform d_builder d_args d_env] in *. subst nm.
    assert (E0 : parse_outputs f0 = Ok outs) by (apply PO; eauto). assert (E1 : parse_inputs f1 = Ok ins) by (apply PI; eauto). assert (E6 : parse_env f6 = Ok env) by (apply PE; eauto).
    assert (E2 : arrayEach string_item f2 [] = Ok srcs) by (apply each_strings_iff; eauto). assert (E5 : arrayEach string_item f5 [] = Ok args) by (apply each_strings_iff; eauto).
    unfold empty_drv. cbn [fold_items Nat.add]. unfold drv_field at 1. rewrite E0. cbn [rbind]. unfold drv_field at 1. rewrite E1. cbn [rbind]. unfold drv_field at 1. rewrite E2. cbn [rbind].
    unfold drv_field at 1. rewrite unquote_quoted. cbn [rbind]. unfold drv_field at 1. rewrite unquote_quoted. cbn [rbind]. unfold drv_field at 1. rewrite E5. cbn [rbind].
    unfold drv_field at 1. rewrite E6. reflexivity.
Qed.
Lemma array_of_2 v i : array_of v i -> 2 <= length v.
Proof. intros [(L & _)|(o & s & c & -> & _)]; [lia|]. cbn [length]. rewrite app_length. cbn. lia. Qed.
Lemma slice_pre (a b : bytes) : slice (a ++ b) 0 (length a) = Ok a.
Proof. pose proof (slice_mid [] a b) as X. exact X. Qed.
Lemma slice_post (a b : bytes) : slice (a ++ b) (length a) (length (a ++ b)) = Ok b.
Proof. pose proof (slice_mid a b []) as X. rewrite app_nil_r in X. rewrite app_length. exact X. Qed.
Lemma accept_iff json r d : ReadDerivation json r = Ok d <-> fin r = EEOF /\ reads_drv json (src_data r) d /\ drv_Validate d = Ok tt.
Proof.
  unfold ReadDerivation, ReadAll.
  assert (NK : forall e : drv, drv_Validate e = Ok tt -> ~ In [] (mkeys (d_outputs e)) /\ ~ In [] (mkeys (d_inputs e)) /\ ~ In [] (mkeys (d_env e)) /\ d_env e <> []).
  { intros e V. apply Validate_needs in V. destruct V as (VO & VI & _ & _ & _ & _ & VE & VN). repeat split.
    - intros X. unfold mkeys in X. apply in_map_iff in X. destruct X as ([n o] & X1 & X2). cbn in X1. subst n. destruct VO as [(o' & VO & _)|(_ & VO)].
      + rewrite VO in X2. destruct X2 as [X2|[]]. discriminate.
      + rewrite Forall_forall in VO. destruct (VO _ X2) as (Z & _). apply Z. reflexivity.
    - intros X. unfold mkeys in X. apply in_map_iff in X. destruct X as ([n o] & X1 & X2). cbn in X1. subst n. unfold valid_inputs in VI. rewrite Forall_forall in VI. destruct (VI _ X2) as (Z & _). discriminate Z.
    - exact VE.
    - intros X. rewrite X in VN. destruct VN as [[]|[[] _]]. }
  split.
  - destruct (fin r); cbn [rbind]; try discriminate. rewrite parse_eq. destruct (length (src_data r) <? 8) eqn:L; [discriminate|]. apply Nat.ltb_ge in L.
    set (b := src_data r) in *. destruct (slice b 0 6) as [pre|e|w] eqn:S1; cbn [rbind]; try discriminate. destruct (beq_spec pre (bs "Derive")) as [->|]; cbn [negb]; [|discriminate].
    destruct (slice b 6 (length b)) as [body|e|w] eqn:S2; cbn [rbind]; try discriminate.
    apply slice_inv in S1, S2. destruct S1 as (_ & _ & S1). destruct S2 as (_ & _ & S2). rewrite Nat.sub_0_r in S1. cbn [skipn] in S1.
    assert (HB : b = bs "Derive" ++ body). { rewrite S1, S2. rewrite (firstn_all2 (n := length b - 6) (skipn 6 b)) by (rewrite skipn_length; lia). rewrite firstn_skipn. reflexivity. }
    destruct (arrayEach drv_field body _) as [d0|e|w] eqn:E; cbn [rbind]; try discriminate. destruct (set_name json d0) as [d1|e|w] eqn:SN; cbn [rbind]; try discriminate.
    destruct (drv_Validate d1) as [[]|e|w] eqn:V; cbn [rbind]; try discriminate. intros H. injection H as <-. split; [reflexivity|]. split; [|exact V].
    pose proof (set_name_ok _ _ _ SN) as SE. destruct (NK _ V) as (K1 & K2 & K3 & K4). rewrite SE in K1, K2, K3, K4. cbn in K1, K2, K3, K4.
    apply arrayEach_ok in E. destruct E as (items & A & F). apply fields_iff in F; [|assumption..].
    destruct F as (Hn & f0 & f1 & f2 & f5 & f6 & i0 & i1 & i6 & -> & R). exists body, f0, f1, f2, f5, f6, i0, i1, i6. rewrite SE. cbn. split; [exact HB|]. split; [exact A|].
    destruct R as (R1 & R2 & R3 & R4 & R5 & R6 & R7 & R8 & R9 & R10 & R11). repeat (split; [assumption|]).
    unfold json_consistent. cbn [d_env d_name]. unfold set_name in SN. destruct (mget (d_env d0) (bs "__json")) as [j|]; [|injection SN as <-; exact Hn].
    destruct (json j) as [[n|]|e|w]; cbn [rbind] in SN; try discriminate. injection SN as <-. reflexivity.
  - intros (-> & (body & f0 & f1 & f2 & f5 & f6 & i0 & i1 & i6 & T & A & R1 & R2 & R3 & R4 & R5 & R6 & R7 & R8 & R9 & R10 & R11 & J) & V). cbn [rbind]. rewrite parse_eq, T.
    pose proof (array_of_2 _ _ A) as LB. replace (length (bs "Derive" ++ body) <? 8) with false by (symmetry; apply Nat.ltb_ge; rewrite app_length; cbn [length bs list_byte_of_string]; cbn; lia).
    pose proof (slice_pre (bs "Derive") body) as X. change (length (bs "Derive")) with 6 in X. rewrite X. cbn [rbind]. rewrite beq_refl. cbn [negb].
    pose proof (slice_post (bs "Derive") body) as Y. change (length (bs "Derive")) with 6 in Y. rewrite Y. cbn [rbind].
    destruct (NK _ V) as (K1 & K2 & K3 & K4). destruct d as [nm outs srcs ins pl bl args env]. cbn in K1, K2, K3, K4.
    replace (arrayEach drv_field body (Drv [] [] [] [] [] [] [] [])) with (Ok (Drv [] outs srcs ins pl bl args env)).
    + cbn [rbind]. replace (set_name json (Drv [] outs srcs ins pl bl args env)) with (Ok (Drv nm outs srcs ins pl bl args env)); [cbn [rbind]; rewrite V; reflexivity|].
      unfold set_name. unfold json_consistent in J. cbn [d_env d_name d_outputs d_srcs d_inputs d_platform d_builder d_args] in *. destruct (mget env (bs "__json")) as [j|]; rewrite J; reflexivity.
    + symmetry. apply arrayEach_ok. eexists. split; [exact A|]. apply fields_iff; [assumption..|]. cbn in *. split; [reflexivity|]. exists f0, f1, f2, f5, f6, i0, i1, i6. auto 20.
Qed.

(** * No panic *)
Lemma unq_no_panic v : is_panic (unquoteSlice v) = false.
Proof. unq v; reflexivity. Qed.
Lemma parse_no_panic json b : (forall j, is_panic (json j) = false /\ json j <> Ok None) -> is_panic (parseDerivation json b) = false.
Proof.
  intros HJ. rewrite parse_eq. destruct (length b <? 8) eqn:L; [reflexivity|]. apply Nat.ltb_ge in L.
  rewrite slice_ok by lia. cbn [rbind]. destruct (negb _); [reflexivity|]. rewrite slice_ok by lia. cbn [rbind].
  assert (PS : forall v acc, is_panic (arrayEach string_item v acc) = false).
  { intros v acc. apply arrayEach_no_panic. intros st v0 i. unfold string_item. unq v0; reflexivity. }
  assert (PF : forall st v i, is_panic (drv_field st v i) = false).
  { intros [nm outs srcs ins pl bl args env] v i. unfold drv_field.
    destruct i as [|[|[|[|[|[|[|i]]]]]]].
    - unfold parse_outputs. assert (X : is_panic (arrayEach output_item v ([], [])) = false).
      { apply arrayEach_no_panic. intros [m p] v0 i. unfold output_item.
        assert (Y : is_panic (arrayEach (output_field p) v0 ([], Output [] [] [])) = false).
        { apply arrayEach_no_panic. intros [n o] v1 i1. unfold output_field. destruct i1 as [|[|[|[|i1]]]]; [| | | |reflexivity]; unq v1; try reflexivity. destruct (ble s p); reflexivity. }
        destruct (arrayEach _ _ _) as [[n o]|e|w]; cbn [rbind]; [destruct n; reflexivity|reflexivity|discriminate]. }
      destruct (arrayEach _ _ _); cbn [rbind]; [reflexivity|reflexivity|discriminate].
    - unfold parse_inputs. assert (X : is_panic (arrayEach input_item v ([], [])) = false).
      { apply arrayEach_no_panic. intros [m p] v0 i. unfold input_item.
        assert (Y : is_panic (arrayEach (input_field p) v0 ([], [])) = false).
        { apply arrayEach_no_panic. intros [n o] v1 i1. unfold input_field. destruct i1 as [|[|i1]]; [| |reflexivity]; [unq v1; try reflexivity; destruct (ble s p); reflexivity|].
          specialize (PS v1 o). destruct (arrayEach _ _ _); cbn [rbind]; [reflexivity|reflexivity|discriminate]. }
        destruct (arrayEach _ _ _) as [[n o]|e|w]; cbn [rbind]; [reflexivity|reflexivity|discriminate]. }
      destruct (arrayEach _ _ _); cbn [rbind]; [reflexivity|reflexivity|discriminate].
    - specialize (PS v srcs). destruct (arrayEach _ _ _); cbn [rbind]; [reflexivity|reflexivity|discriminate].
    - unq v; reflexivity.
    - unq v; reflexivity.
    - specialize (PS v args). destruct (arrayEach _ _ _); cbn [rbind]; [reflexivity|reflexivity|discriminate].
    - unfold parse_env. assert (X : is_panic (arrayEach env_item v ([], [])) = false).
      { apply arrayEach_no_panic. intros [m p] v0 i. unfold env_item.
        assert (Y : is_panic (arrayEach (env_field p) v0 ([], [])) = false).
        { apply arrayEach_no_panic. intros [n o] v1 i1. unfold env_field. destruct i1 as [|[|i1]]; [| |reflexivity]; [unq v1; try reflexivity; destruct (ble s p); reflexivity|].
          unfold unquote. unq v1; [destruct (negb _); reflexivity|reflexivity]. }
        destruct (arrayEach _ _ _) as [[n o]|e|w]; cbn [rbind]; [reflexivity|reflexivity|discriminate]. }
      destruct (arrayEach _ _ _); cbn [rbind]; [reflexivity|reflexivity|discriminate].
    - reflexivity. }
  pose proof (arrayEach_no_panic drv_field (firstn (length b - 6) (skipn 6 b)) (Drv [] [] [] [] [] [] [] []) PF) as X.
  destruct (arrayEach _ _ _) as [d|e|w]; cbn [rbind]; [|reflexivity|discriminate]. unfold set_name. destruct (mget _ _) as [j|]; [|reflexivity].
  destruct (HJ j) as [H1 H2]. destruct (json j) as [[n|]|e|w]; cbn [rbind]; [reflexivity|congruence|reflexivity|discriminate].
Qed.
Lemma read_no_panic json r : (forall j, is_panic (json j) = false /\ json j <> Ok None) -> is_panic (ReadDerivation json r) = false.
Proof.
  intros HJ. unfold ReadDerivation, ReadAll. destruct (fin r); cbn [rbind]; try reflexivity. pose proof (parse_no_panic json (src_data r) HJ) as P.
  destruct (parseDerivation json (src_data r)) as [d|e|w]; cbn [rbind]; [|reflexivity|discriminate]. pose proof (Validate_no_panic d) as Q. destruct (drv_Validate d); [reflexivity|reflexivity|discriminate].
Qed.

(** * Nothing is dropped from closed text *)
Lemma pieces_join c : (c = ")"%byte \/ c = "]"%byte) -> forall s depth esc ins cur, quotes_closed esc ins s = true ->
  pieces depth esc ins cur (s ++ [c]) <> [] /\ join_byte (pieces depth esc ins cur (s ++ [c])) ","%byte ++ [c] = cur ++ s ++ [c].
Proof.
  intros HC. induction s as [|x s IH]; intros depth esc ins cur Q; cbn [app]; rewrite pieces_eq.
  - cbn [quotes_closed] in Q. destruct esc; [discriminate|]. destruct ins; [discriminate|].
    replace (byte_eqb c "\") with false by (destruct HC; subst; reflexivity). replace (byte_eqb c x22) with false by (destruct HC; subst; reflexivity). split; [discriminate|reflexivity].
  - assert (NX : forall d e i, quotes_closed e i s = true -> pieces d e i (cur ++ [x]) (s ++ [c]) <> [] /\ join_byte (pieces d e i (cur ++ [x]) (s ++ [c])) ","%byte ++ [c] = cur ++ x :: s ++ [c]).
    { intros d e i H. destruct (IH d e i (cur ++ [x]) H) as [A B]. split; [exact A|]. rewrite B, <- app_assoc. reflexivity. }
    assert (QE : quotes_closed esc ins (x :: s) = if esc then quotes_closed false ins s else if byte_eqb x "\" then quotes_closed true ins s else if byte_eqb x x22 then quotes_closed false (negb ins) s else quotes_closed false ins s).
    { cbn [quotes_closed]. destruct esc; [reflexivity|]. destruct x; reflexivity. }
    rewrite QE in Q. destruct esc; [apply NX; exact Q|]. destruct (byte_eqb x "\"); [apply NX; exact Q|]. destruct (byte_eqb x x22); [apply NX; exact Q|]. destruct ins; [apply NX; exact Q|].
    cbn zeta. set (d' := if byte_eqb x "[" then _ else _). clearbody d'. destruct (s ++ [c]) as [|y l] eqn:E; [destruct s; discriminate|]. rewrite <- E in *. clear y l E.
    destruct (Z.eqb depth 1 && byte_eqb x ",") eqn:G; [|apply NX; exact Q]. apply andb_prop in G. destruct G as [_ G]. apply byte_eqb_eq in G. subst x.
    destruct (IH d' false false [] Q) as [A B]. split; [discriminate|]. destruct (pieces d' false false [] (s ++ [c])) as [|p ps]; [congruence|].
    change (join_byte (cur :: p :: ps) ",") with (cur ++ ","%byte :: join_byte (p :: ps) ","). rewrite <- app_assoc. cbn [app]. rewrite B. reflexivity.
Qed.
Lemma array_closed o s c items : closes o c -> s <> [] -> array_of (o :: s ++ [c]) items -> quotes_closed false false s = true -> o :: s ++ [c] = [o] ++ join_byte items ","%byte ++ [c].
Proof.
  intros HC NE A Q. assert (A2 : array_of (o :: s ++ [c]) (pieces 1 false false [] (s ++ [c]))) by (right; exists o, s, c; auto).
  rewrite (array_unique _ _ _ A A2). destruct (pieces_join c (match HC with or_introl H => or_introl (proj2 H) | or_intror H => or_intror (proj2 H) end) s 1 false false [] Q) as [_ B].
  rewrite B. reflexivity.
Qed.
