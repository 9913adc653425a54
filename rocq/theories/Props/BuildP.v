(** C114: a derivation completed with its calculated output paths is accepted by the stores. *)
From Verif Require Import Base.Bytes Base.BytesFacts Model.GoIO Model.GoStd Model.Nixhash Model.Storepath Model.Derivation Model.DrvParser Model.DrvStore
  Spec.StorePathSpec Spec.DerivationSpec Spec.StoreSpec Spec.BuildSpec Proof.StorePathProps Proof.DrvEncode Proof.DrvText Proof.DrvHash Proof.DrvValidate
  Proof.StoreMap Proof.StoreBadger Props.DerivationP Props.StoreP.
Ltac Zify.zify_post_hook ::= idtac.

Lemma opath_valid sha dname b n o p : valid_name dname -> Forall (fun c => In c name_alphabet) n -> opath sha dname (Ok b) n o = Ok p -> Validate p = Ok tt.
Proof.
  intros VD VN H.
  assert (PN : valid_name (if beq n (bs "out") then dname else dname ++ bs "-" ++ n)).
  { destruct (beq n (bs "out")); [exact VD|]. destruct VD as [A B]. split; [destruct dname; [congruence|discriminate]|].
    apply Forall_app. split; [exact B|]. apply Forall_app. split; [|exact VN]. apply alpha_dec. vm_compute. reflexivity. }
  unfold opath in H. cbn zeta in H. destruct (beq (o_algo o) []); cbn [negb rbind] in H.
  - injection H as <-. refine (proj1 (proj2 (roundtrip_Absolute (SP _ _) _ PN))). apply fold20_eq.
  - destruct (beq (o_algo o) (bs "r:sha256")); injection H as <-; refine (proj1 (proj2 (roundtrip_Absolute (SP _ _) _ PN))); apply fold20_eq.
Qed.
Lemma fill_keys paths d : mkeys (d_outputs (fill paths d)) = mkeys (d_outputs d) /\ mkeys (d_env (fill paths d)) = mkeys (d_env d) /\ d_inputs (fill paths d) = d_inputs d.
Proof.
  unfold fill. cbn [d_outputs d_env d_inputs]. split; [|split; [|reflexivity]].
  - exact (mkeys_map (fun n o => Output (path_of paths n) (o_algo o) (o_hash o)) (d_outputs d)).
  - exact (mkeys_map (fun k v => if existsb (beq k) (map fst (d_outputs d)) then path_of paths k else v) (d_env d)).
Qed.
Lemma fill_wf paths d : wf_maps d -> wf_maps (fill paths d).
Proof. intros (A & B & C). destruct (fill_keys paths d) as (E1 & E2 & E3). unfold wf_maps. rewrite E1, E2, E3. auto. Qed.
Lemma fill_valid sha d repl b paths : wf_maps d -> recipe d -> drv_bytes d true repl = Ok b -> CalculateOutputPaths sha d repl = Ok paths ->
  valid_drv (fill paths d) /\ ~ ambiguous (fill paths d) /\ drv_Name (fill paths d) = drv_Name d.
Proof.
  intros W (O & I & S & SO & P & B & E & A & (VN & AL & N1 & N2) & NM) HB C.
  destruct (Calc_ok sha d repl b W (proj1 VN) HB) as (paths' & C' & _ & HP). rewrite C' in C. injection C as ->.
  destruct (fill_keys paths d) as (E1 & E2 & E3).
  assert (NA : ~ ambiguous (fill paths d)). { unfold ambiguous, has_key. rewrite E2. exact A. }
  split; [|split; [exact NA|exact (fill_name paths d N1 N2)]].
  assert (NN : drv_Name d <> []) by apply VN.
  unfold valid_drv, has_key. rewrite E2, E3. split; [|split; [exact I|split; [exact S|split; [exact SO|split; [exact P|split; [exact B|split; [exact E|split]]]]]]].
  - unfold fill. cbn [d_outputs]. destruct O as [(o & -> & F)|(NE & F)].
    + left. cbn [map fst snd]. eexists. split; [reflexivity|exact F].
    + right. split; [destruct (d_outputs d); [congruence|discriminate]|]. rewrite Forall_forall. intros no H. apply in_map_iff in H. destruct H as ([n o] & <- & H).
      cbn [fst snd o_algo o_path]. rewrite Forall_forall in F. destruct (F _ H) as [F1 F2]. split; [exact F1|]. split; [exact F2|].
      destruct (HP n o H) as (p & HO & HG). unfold path_of, mget_or. rewrite HG.
      rewrite Forall_forall in AL. exact (opath_valid sha (drv_Name d) b n o p VN (AL n (in_map fst _ _ H)) HO).
  - intros J. unfold fill. cbn [d_name]. intros Z. unfold drv_Name, mget_or in NN. destruct (mget (d_env d) (bs "__json")) eqn:M; [exact (NN Z)|].
    revert J. apply (mget_none (d_env d)). exact M.
  - intros J. destruct NM as [NM|NM]; [contradiction|exact NM].
Qed.

(** With every input in the store, and their replacement strings at hand: the
    output paths can be calculated; filled in, whatever order the maps are walked
    in, Put accepts the derivation, returns its path and hands it out again; and its
    own replacement string, for the derivations that will need it, can be calculated
    from the same strings. *)
Theorem C114_map_partial : forall sha h d repl,
  Forall wf_maps h -> let s := map_run sha h in
  wf_maps d -> recipe d -> no_clash repl d ->
  (forall q, In q (mkeys (d_inputs d)) -> exists y, mget repl q = Some y /\ modulo sha (getter s) q y) ->
  exists paths, CalculateOutputPaths sha d repl = Ok paths /\
  forall e, same_drv (fill paths d) e -> no_path_clash sha (h ++ [e]) ->
  exists p s' x, map_Put sha s e = (Ok p, s') /\ DrvPath sha e = Ok p /\ map_Get s' p = Ok e /\
    CalculateDrvReplacement sha e repl = Ok x /\ modulo sha (getter s') p x.
Proof.
  intros sha h d repl WF s W R NC HI.
  assert (CV : covers repl d). { intros q Hq. destruct (HI q Hq) as (y & E & _). congruence. }
  destruct (bytes_covered d true repl CV) as (b & HB).
  assert (NN : drv_Name d <> []) by apply R.
  destruct (Calc_ok sha d repl b W NN HB) as (paths & C & KS & HP). exists paths. split; [exact C|]. intros e SE PC.
  destruct (fill_valid sha d repl b paths W R HB C) as (V & NA & DN).
  assert (WF' : wf_maps (fill paths d)) by exact (fill_wf paths d W).
  assert (WE : wf_maps e). { destruct SE as (_ & S1 & _ & S2 & _ & _ & _ & S3). destruct WF' as (A1 & A2 & A3).
    split; [|split]; (eapply Permutation_NoDup; [apply Permutation_map; eassumption|assumption]). }
  assert (VE : valid_drv e) by exact (same_valid _ _ SE V).
  assert (NAE : ~ ambiguous e).
  { intros X. apply NA. apply (same_ambiguous e); [|exact X]. destruct SE as (S0 & S1 & S2 & S3 & S4 & S5 & S6 & S7). repeat split; symmetry; assumption. }
  assert (KE : forall q, In q (mkeys (d_inputs e)) <-> In q (mkeys (d_inputs d))).
  { intros q. rewrite <- (same_keys _ _ SE q). destruct (fill_keys paths d) as (_ & _ & ->). reflexivity. }
  assert (PCh : no_path_clash sha h). { apply (clash_incl sha (h ++ [e])); [intros a Ha; apply in_or_app; left; exact Ha|exact PC]. }
  pose proof (graph_run sha h WF PCh) as G. fold s in G.
  assert (HS : forall q, In q (mkeys (d_inputs d)) -> mget (ms_drvs s) q <> None).
  { intros q Hq. destruct (HI q Hq) as (y & _ & M). inversion M as [? d0 ? ? ? G0]. rewrite getter_eq in G0. congruence. }
  assert (CE : covers repl e). { intros q Hq. apply CV, KE, Hq. }
  assert (AG : forall q, In q (mkeys (d_inputs e)) -> mget repl q = mget (ms_repl s) q).
  { intros q Hq. apply KE in Hq. destruct (HI q Hq) as (y & -> & M). destruct G as ((K & _) & _ & G2). specialize (HS q Hq). apply K in HS.
    destruct (mget (ms_repl s) q) as [z|] eqn:Z; [|congruence]. f_equal. apply getter_modulo in M. exact (modulo_fun sha _ q y M z (G2 q z Z)). }
  assert (RP : right_paths sha e repl).
  { assert (NC' : no_clash repl (fill paths d)). { unfold no_clash. destruct (fill_keys paths d) as (_ & _ & ->). exact NC. }
    pose proof (Calc_same sha (fill paths d) e repl WF' SE NC') as SM.
    rewrite (Calc_eq_mask sha (fill paths d) d repl DN (mask_fill paths d)), C in SM.
    destruct (CalculateOutputPaths sha e repl) as [paths'|?|?] eqn:CE'; cbn [same_map_result] in SM; try contradiction. exists paths'. split; [exact CE'|].
    intros n o Ho. assert (Ho' : In (n, o) (d_outputs (fill paths d))). { eapply Permutation_in; [symmetry; apply SE|exact Ho]. }
    unfold fill in Ho'. cbn [d_outputs] in Ho'. apply in_map_iff in Ho'. destruct Ho' as ([n' o'] & EQ & Ho'). cbn [fst snd] in EQ. injection EQ as -> <-. cbn [o_path].
    destruct (HP n o' Ho') as (p & _ & HG). unfold path_of, mget_or. rewrite HG. apply in_mget.
    - eapply Permutation_NoDup; [apply Permutation_map; exact SM|]. fold (mkeys paths). rewrite KS. apply W.
    - eapply Permutation_in; [exact SM|]. apply mget_in. exact HG. }
  assert (OK : is_ok (fst (map_Put sha s e)) = true).
  { apply (C61_accepts sha h e WE). split; [apply Validate_iff; assumption|]. split.
    - intros q Hq. apply has_true. apply HS, KE, Hq.
    - exact (right_agree sha e repl (ms_repl s) CE AG RP). }
  pose proof (C61_put sha h e) as PU. cbn zeta in PU. fold s in PU. destruct (map_Put sha s e) as [[p|?|?] s'] eqn:MP; try discriminate OK.
  destruct PU as (DP & GE & _). destruct (Repl_covered sha e repl CE) as (x & X). exists p, s', x.
  split; [reflexivity|]. split; [exact DP|]. split; [exact GE|]. split; [exact X|].
  assert (RUN : map_run sha (h ++ [e]) = s'). { unfold map_run. rewrite fold_left_app. cbn [fold_left]. fold (map_run sha h). fold s. rewrite MP. reflexivity. }
  assert (WF2 : Forall wf_maps (h ++ [e])) by (apply Forall_app; split; [exact WF|apply Forall_cons; [exact WE|apply Forall_nil]]).
  pose proof (graph_run sha (h ++ [e]) WF2 PC) as (_ & _ & G2). rewrite RUN in G2. apply getter_modulo. apply G2.
  revert MP. unfold map_Put. destruct (validateDerivationInStore e _); [|discriminate|discriminate]. destruct (checkOutputPaths sha e _); [|discriminate|discriminate].
  rewrite DP. cbn [ms_repl ms_drvs]. rewrite <- (Repl_agree sha e repl (ms_repl s) CE AG), X. intros [= <-]. cbn [ms_repl]. rewrite mget_mset, beq_refl. reflexivity.
Qed.
Print Assumptions C114_map_partial.
(** The badger store too, for derivations it can handle (C63). *)
Theorem C114_badger_partial : forall sha json h d repl,
  Forall (badger_fit json) h -> let s := map_run sha h in let b := badger_run sha h in
  wf_maps d -> recipe d -> no_clash repl d ->
  (forall q, In q (mkeys (d_inputs d)) -> exists y, mget repl q = Some y /\ modulo sha (getter s) q y) ->
  exists paths, CalculateOutputPaths sha d repl = Ok paths /\
  forall e, same_drv (fill paths d) e -> no_path_clash sha (h ++ [e]) -> badger_fit json e ->
  exists p b' e', badger_Put sha b e true = (Ok p, b') /\ DrvPath sha e = Ok p /\ badger_Get json b' p = Ok e' /\ same_drv e e'.
Proof.
  intros sha json h d repl F s b W R NC HI.
  assert (WF : Forall wf_maps h). { rewrite Forall_forall in *. intros x Hx. apply (F x Hx). }
  destruct (C114_map_partial sha h d repl WF W R NC HI) as (paths & C & K). exists paths. split; [exact C|]. intros e SE PC FE.
  destruct (K e SE PC) as (p & s' & x & MP & DP & MG & _).
  destruct (C63_agree_partial sha json h e p F FE) as (A & _). fold s b in A, MP. rewrite MP in A. cbn [fst] in A.
  destruct (badger_Put sha b e true) as [[p'|?|?] b'] eqn:BP; cbn [fst same_outcome] in A; try contradiction. subst p'.
  assert (F2 : Forall (badger_fit json) (h ++ [e])) by (apply Forall_app; split; [exact F|apply Forall_cons; [exact FE|apply Forall_nil]]).
  destruct (C63_agree_partial sha json (h ++ [e]) e p F2 FE) as (_ & _ & G).
  assert (RUN : map_run sha (h ++ [e]) = s'). { unfold map_run. rewrite fold_left_app. cbn [fold_left]. fold (map_run sha h). fold s. rewrite MP. reflexivity. }
  assert (BRUN : badger_run sha (h ++ [e]) = b'). { unfold badger_run. rewrite fold_left_app. cbn [fold_left]. fold (badger_run sha h). fold b. rewrite BP. reflexivity. }
  rewrite RUN, BRUN, MG in G. destruct G as (e' & GE & S). exists p, b', e'. auto.
Qed.
Print Assumptions C114_badger_partial.

(** Concretely: [db_] without its output path, to be built with [da] in the store. *)
Definition bare (d : drv) : drv := Drv (d_name d) (map (fun no => (fst no, Output [] (o_algo (snd no)) (o_hash (snd no)))) (d_outputs d)) (d_srcs d) (d_inputs d) (d_platform d) (d_builder d) (d_args d)
  (map (fun kv => if beq (fst kv) (bs "out") then (fst kv, []) else kv) (d_env d)).
Definition repl_a : amap bytes := ms_repl (map_run sha0 [da]).
Example C114_nonvacuous : Forall wf_maps [da] /\ wf_maps (bare db_) /\ recipe (bare db_) /\ no_clash repl_a (bare db_) /\
  (forall q, In q (mkeys (d_inputs (bare db_))) -> exists y, mget repl_a q = Some y /\ modulo sha0 (getter (map_run sha0 [da])) q y) /\
  CalculateOutputPaths sha0 (bare db_) repl_a = Ok [(bs "out", zpath "b")] /\ fill [(bs "out", zpath "b")] (bare db_) = db_ /\ no_path_clash sha0 [da; db_] /\
  is_err (fst (map_Put sha0 (map_run sha0 [da]) (bare db_))) = true.
Proof.
  pose proof hist_wf as HW. unfold hist in HW. inversion HW as [|? ? W1 H1]; subst. inversion H1 as [|? ? W2 H2]; subst.
  assert (WD : Forall wf_maps [da]) by (constructor; [exact W1|constructor]).
  assert (PCa : no_path_clash sha0 [da]). { intros a c [<-|[]] [<-|[]] _. split; [repeat split; reflexivity|intros; reflexivity]. }
  split; [exact WD|]. split; [split; [|split]; apply nodup_dec; vm_compute; reflexivity|]. split; [|split; [|split; [|split; [|split; [|split]]]]].
  - split; [right; split; [discriminate|]; constructor; [split; [discriminate|intros X; apply X; reflexivity]|constructor]|].
    split.
    { constructor; [|constructor]. cbn [fst snd]. split; [vm_compute; reflexivity|]. split; [discriminate|]. split; [repeat constructor|]. intros [E|[]]; discriminate. }
    split; [constructor|]. split; [constructor|]. split; [discriminate|]. split; [discriminate|].
    split; [intros [E|[E|[]]]; discriminate|]. split; [intros (_ & [E|[E|[]]] & _); discriminate|]. split; [|right; left; reflexivity].
    split; [split; [discriminate|apply alpha_dec; vm_compute; reflexivity]|]. split; [constructor; [apply alpha_dec; vm_compute; reflexivity|constructor]|].
    split; intros [E|[]]; discriminate.
  - intros p q u v x [Hp|[]] [Hq|[]] _ _. congruence.
  - intros q [<-|[]]. destruct (mget repl_a (zpath "a.drv")) as [y|] eqn:E; [|vm_compute in E; discriminate]. exists y. split; [exact E|].
    apply getter_modulo. destruct (graph_run sha0 [da] WD PCa) as (_ & _ & G). exact (G _ _ E).
  - vm_compute. reflexivity.
  - vm_compute. reflexivity.
  - apply (clash_incl sha0 hist); [intros a [<-|[<-|[]]]; cbn; auto|exact hist_no_clash].
  - vm_compute. reflexivity.
Qed.

(** An output called [name] takes the place of the variable the name is read from. *)
Theorem C114_name_refuted : exists d paths, wf_maps d /\ no_paths_yet (d_outputs d) /\ valid_name (drv_Name d) /\
  CalculateOutputPaths sha0 d [] = Ok paths /\ is_err (fst (map_Put sha0 (map_run sha0 []) (fill paths d))) = true.
Proof.
  exists (Drv [] [(bs "name", Output [] [] [])] [] [] (bs "p") (bs "b") [] [(bs "name", bs "x")]).
  eexists. split; [repeat split; apply nodup_dec; vm_compute; reflexivity|]. split; [right; split; [discriminate|]; constructor; [split; [discriminate|intros X; apply X; reflexivity]|constructor]|].
  split; [split; [discriminate|apply alpha_dec; vm_compute; reflexivity]|]. split; [vm_compute; reflexivity|]. vm_compute. reflexivity.
Qed.
Print Assumptions C114_name_refuted.
(** An output name that cannot be part of a store path: paths are calculated, and refused by Put. *)
Theorem C114_alphabet_refuted : exists d paths, wf_maps d /\ no_paths_yet (d_outputs d) /\ valid_name (drv_Name d) /\
  CalculateOutputPaths sha0 d [] = Ok paths /\ is_err (fst (map_Put sha0 (map_run sha0 []) (fill paths d))) = true /\ d_env (fill paths d) = d_env d.
Proof.
  exists (Drv [] [(bs "a b", Output [] [] [])] [] [] (bs "p") (bs "b") [] [(bs "name", bs "x")]).
  eexists. split; [repeat split; apply nodup_dec; vm_compute; reflexivity|]. split; [right; split; [discriminate|]; constructor; [split; [discriminate|intros X; apply X; reflexivity]|constructor]|].
  split; [split; [discriminate|apply alpha_dec; vm_compute; reflexivity]|]. split; [vm_compute; reflexivity|]. split; vm_compute; reflexivity.
Qed.
Print Assumptions C114_alphabet_refuted.
(** Two inputs with the same replacement string: the calculation and Put may walk the map in different orders. *)
Theorem C114_order_refuted : exists paths e, CalculateOutputPaths idsha (app_drv app_ins) (ms_repl (map_run idsha store_libs)) = Ok paths /\
  same_drv (fill paths (app_drv app_ins)) e /\ is_ok (fst (map_Put idsha (map_run idsha store_libs) (fill paths (app_drv app_ins)))) = true /\
  is_err (fst (map_Put idsha (map_run idsha store_libs) e)) = true.
Proof.
  destruct (CalculateOutputPaths idsha (app_drv app_ins) (ms_repl (map_run idsha store_libs))) as [paths|?|?] eqn:E; [|vm_compute in E; discriminate..].
  exists paths, (flip_inputs (fill paths (app_drv app_ins))). split; [reflexivity|]. split; [apply flip_same|].
  assert (X : fill paths (app_drv app_ins) = app1) by (unfold app1, filled; rewrite E; reflexivity). rewrite X. split; vm_compute; reflexivity.
Qed.
Print Assumptions C114_order_refuted.
(** With two inputs the badger store refuses. *)
Theorem C114_badger_refuted : let repl := ms_repl (map_run sha0 [da; db_]) in
  recipe (bare dc) /\ CalculateOutputPaths sha0 (bare dc) repl = Ok [(bs "out", zpath "c")] /\ fill [(bs "out", zpath "c")] (bare dc) = dc /\
  fst (map_Put sha0 (map_run sha0 [da; db_]) dc) = Ok (zpath "c.drv") /\ is_err (fst (badger_Put sha0 (badger_run sha0 [da; db_]) dc true)) = true.
Proof.
  cbn zeta. split; [|split; [vm_compute; reflexivity|split; [vm_compute; reflexivity|exact C63_two_inputs_differ_refuted]]].
  split; [right; split; [discriminate|]; constructor; [split; [discriminate|intros X; apply X; reflexivity]|constructor]|].
  split.
  { constructor; [|constructor; [|constructor]]; cbn [fst snd]; (split; [vm_compute; reflexivity|]; split; [discriminate|]; split; [repeat constructor|]; intros [E|[]]; discriminate). }
  split; [constructor|]. split; [constructor|]. split; [discriminate|]. split; [discriminate|].
  split; [intros [E|[E|[]]]; discriminate|]. split; [intros (_ & [E|[E|[]]] & _); discriminate|]. split; [|right; left; reflexivity].
  split; [split; [discriminate|apply alpha_dec; vm_compute; reflexivity]|]. split; [constructor; [apply alpha_dec; vm_compute; reflexivity|constructor]|].
  split; intros [E|[]]; discriminate.
Qed.
Print Assumptions C114_badger_refuted.
