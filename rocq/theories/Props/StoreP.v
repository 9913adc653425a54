(** C61-C64: the derivation stores. *)
From Verif Require Import Base.Bytes Base.BytesFacts Model.GoIO Model.GoStd Model.Nixhash Model.Storepath Model.Derivation Model.DrvParser Model.DrvStore
  Spec.StorePathSpec Spec.DerivationSpec Spec.RoundSpec Spec.StoreSpec Proof.DrvEncode Proof.DrvText Proof.DrvExact Proof.DrvInjNeat Proof.DrvHash Proof.StoreMap Proof.StoreBadger Props.DerivationP.
Ltac Zify.zify_post_hook ::= idtac.

(** Concrete derivations: a, b (which needs a), c (which needs both), f (fixed output, needs both).
    The hash function of the examples is constant, so that the output paths can be written down. *)
Definition sha0 : bytes -> bytes := fun _ => repeat x00 32.
Definition zpath (n : string) : bytes := bs "/nix/store/00000000000000000000000000000000-" ++ bs n.
Definition node (n : string) (algo : bytes) (ins : amap (list bytes)) : drv :=
  Drv [] [(bs "out", Output (zpath n) algo (match algo with [] => [] | _ => bs "00ff" end))] [] ins (bs "x86_64-linux") (bs "/bin/sh") [bs "-c"]
    [(bs "name", bs n); (bs "out", zpath n)].
Definition da : drv := node "a" [] [].
Definition db_ : drv := node "b" [] [(zpath "a.drv", [bs "out"])].
Definition dc : drv := node "c" [] [(zpath "a.drv", [bs "out"]); (zpath "b.drv", [bs "out"])].
Definition df : drv := node "f" (bs "r:sha256") [(zpath "a.drv", [bs "out"]); (zpath "b.drv", [bs "out"])].
Definition hist : list drv := [da; db_; dc; df].
Lemma hist_wf : Forall wf_maps hist.
Proof. unfold hist. repeat (apply Forall_cons; [split; [|split]; apply nodup_dec; vm_compute; reflexivity|]). apply Forall_nil. Qed.

(** * C61: the MapStore is a map *)
Theorem C61_put : forall sha h d, let s := map_run sha h in
  match map_Put sha s d with
  | (Ok p, s') => DrvPath sha d = Ok p /\ map_Get s' p = Ok d /\ map_Has s' p = Ok true /\ forall q, q <> p -> map_Get s' q = map_Get s q /\ map_Has s' q = map_Has s q
  | (_, s') => s' = s
  end.
Proof.
  intros sha h d s. destruct (put_cases sha s d (run_inv sha h)) as [(p & x & E & _ & _ & P & _)|(E & O & _)].
  - rewrite E. unfold map_Get, map_Has. cbn [ms_drvs]. rewrite mset_same. split; [exact P|]. split; [reflexivity|]. split; [reflexivity|]. intros q Hq. rewrite mset_other by exact Hq. auto.
  - destruct (map_Put sha s d) as [[p|e|w] s']; [discriminate|exact E..].
Qed.
Print Assumptions C61_put.
Theorem C61_has_get : forall s p, map_Has s p = Ok (is_ok (map_Get s p)).
Proof. intros s p. unfold map_Has, map_Get. destruct (mget (ms_drvs s) p); reflexivity. Qed.
Print Assumptions C61_has_get.
(** When Put accepts; [ms_repl s] are the replacement strings the store keeps. *)
Theorem C61_accepts : forall sha h d, wf_maps d -> let s := map_run sha h in
  is_ok (fst (map_Put sha s d)) = true <-> drv_Validate d = Ok tt /\ (forall q, In q (mkeys (d_inputs d)) -> map_Has s q = Ok true) /\ right_paths sha d (ms_repl s).
Proof.
  intros sha h d W s. rewrite <- (check_ok sha d (ms_repl s) W). destruct (put_cases sha s d (run_inv sha h)) as [(p & x & E & V & C & _)|(_ & O & N)].
  - rewrite E. cbn [fst is_ok]. apply validate_in_ok in V. tauto.
  - rewrite O. split; [discriminate|]. intros (A & B & C). exfalso. apply N. split; [apply validate_in_ok; auto|]. split; [exact C|].
    destruct (C54_total_partial sha d (ms_repl s) W (check_name sha d _ C)) as (X & _). exact X.
Qed.
Print Assumptions C61_accepts.
(** The same against the hash modulo inputs of the stored derivations. *)
Theorem C61_accepts_graph_partial : forall sha h d, Forall wf_maps h -> no_path_clash sha h -> wf_maps d -> let s := map_run sha h in
  is_ok (fst (map_Put sha s d)) = true <-> acceptable sha (getter s) d.
Proof.
  intros sha h d WF NC W s. pose proof (graph_run sha h WF NC) as G. fold s in G. unfold s. rewrite (C61_accepts sha h d W). fold s. unfold acceptable.
  assert (HG : (forall q, In q (mkeys (d_inputs d)) -> map_Has s q = Ok true) <-> (forall q, In q (mkeys (d_inputs d)) -> getter s q <> None)).
  { split; intros H q Hq; specialize (H q Hq); rewrite getter_eq in *; apply has_true; assumption. }
  rewrite HG. split.
  - intros (A & B & C). split; [exact A|]. split; [exact B|]. split; [exact (right_name sha d _ C)|]. apply (right_iff sha h s d G); [|exact C].
    intros q Hq. specialize (B q Hq). rewrite getter_eq in B. exact B.
  - intros (A & B & _ & C). split; [exact A|]. split; [exact B|]. apply (right_iff sha h s d G); [|exact C]. intros q Hq. specialize (B q Hq). rewrite getter_eq in B. exact B.
Qed.
Print Assumptions C61_accepts_graph_partial.
Example C61_nonvacuous : map (fun d => fst (map_Put sha0 (map_run sha0 [da; db_]) d)) [da; dc; df] = [Ok (zpath "a.drv"); Ok (zpath "c.drv"); Ok (zpath "f.drv")] /\
  is_err (fst (map_Put sha0 (map_run sha0 [da]) dc)) = true /\ map_Get (map_run sha0 hist) (zpath "c.drv") = Ok dc /\
  is_err (fst (map_Put sha0 (map_run sha0 hist) (Drv [] [(bs "out", Output (zpath "y") [] [])] [] [] (bs "p") (bs "b") [] [(bs "name", bs "x")]))) = true.
Proof. split; [vm_compute; reflexivity|]. split; [vm_compute; reflexivity|]. split; vm_compute; reflexivity. Qed.
(** Put panics on a derivation with an empty name, although it is valid. *)
Theorem C61_put_panics : forall sha h, exists d, drv_Validate d = Ok tt /\ is_panic (fst (map_Put sha (map_run sha h) d)) = true.
Proof.
  intros sha h. exists (Drv [] [(bs "out", Output (zpath "x") [] [])] [] [] (bs "p") (bs "b") [] [(bs "name", [])]). split; [vm_compute; reflexivity|]. reflexivity.
Qed.
Print Assumptions C61_put_panics.

(** Two inputs with the same replacement string (two derivations that differ only in which of two
    equivalent downloads they use): whether Put accepts depends on the iteration order of the map.
    Here the hash function is the identity, which has no collisions. *)
Definition idsha : bytes -> bytes := fun b => b.
Definition okb {A} (z : A) (r : res A) : A := match r with Ok a => a | _ => z end.
Definition filled (repl : amap bytes) (d : drv) : drv := fill (okb [] (CalculateOutputPaths idsha d repl)) d.
Definition dl (url : string) : drv := filled [] (Drv [] [(bs "out", Output [] (bs "r:sha256") (bs "00ff"))] [] [] (bs "builtin") (bs "builtin:fetchurl") [] [(bs "name", bs "src"); (bs "out", []); (bs "url", bs url)]).
Definition dpath (d : drv) : bytes := okb [] (DrvPath idsha d).
Definition store_dls : list drv := [dl "http://one"; dl "http://two"].
Definition lib (src : drv) : drv := filled (ms_repl (map_run idsha store_dls))
  (Drv [] [(bs "dev", Output [] [] []); (bs "out", Output [] [] [])] [] [(dpath src, [bs "out"])] (bs "x86_64-linux") (bs "/bin/sh") [] [(bs "dev", []); (bs "name", bs "lib"); (bs "out", [])]).
Definition store_libs : list drv := store_dls ++ [lib (dl "http://one"); lib (dl "http://two")].
Definition app_ins : amap (list bytes) := [(dpath (lib (dl "http://one")), [bs "out"]); (dpath (lib (dl "http://two")), [bs "dev"])].
Definition app_drv (ins : amap (list bytes)) : drv := Drv [] [(bs "out", Output [] [] [])] [] ins (bs "x86_64-linux") (bs "/bin/sh") [] [(bs "name", bs "app"); (bs "out", [])].
Definition app1 : drv := filled (ms_repl (map_run idsha store_libs)) (app_drv app_ins).
Definition flip_inputs (d : drv) : drv := Drv (d_name d) (d_outputs d) (d_srcs d) (rev (d_inputs d)) (d_platform d) (d_builder d) (d_args d) (d_env d).
Lemma flip_same d : same_drv d (flip_inputs d).
Proof. repeat split; try reflexivity. apply Permutation_rev. Qed.
Theorem C61_order_refuted : exists sha h d e, Forall wf_maps h /\ wf_maps d /\ same_drv d e /\ (forall a b, sha a = sha b -> a = b) /\
  forallb (fun n => is_ok (fst (map_Put sha (map_run sha (firstn n h)) (nth n h d)))) (seq 0 (length h)) = true /\
  is_ok (fst (map_Put sha (map_run sha h) d)) = true /\ is_err (fst (map_Put sha (map_run sha h) e)) = true.
Proof.
  exists idsha, store_libs, app1, (flip_inputs app1). split; [unfold store_libs, store_dls; cbn [app]; repeat (apply Forall_cons; [split; [|split]; apply nodup_dec; vm_compute; reflexivity|]); apply Forall_nil|].
  split; [split; [|split]; apply nodup_dec; vm_compute; reflexivity|]. split; [apply flip_same|]. split; [intros a b H; exact H|].
  split; [vm_compute; reflexivity|]. split; vm_compute; reflexivity.
Qed.
Print Assumptions C61_order_refuted.

(** * C62: closed and consistent *)
Theorem C62_closed : forall sha h p d, let s := map_run sha h in map_Get s p = Ok d ->
  drv_Validate d = Ok tt /\ DrvPath sha d = Ok p /\ (forall q, In q (mkeys (d_inputs d)) -> is_ok (map_Get s q) = true) /\ mhas (ms_repl s) p = true.
Proof.
  intros sha h p d s H. destruct (run_inv sha h) as (K & I). fold s in K, I. unfold map_Get in H. destruct (mget (ms_drvs s) p) as [e|] eqn:E; [|discriminate]. injection H as ->.
  destruct (I p d E) as (A & B & C). split; [exact A|]. split; [exact B|]. split.
  - intros q Hq. specialize (C q Hq). unfold map_Get. destruct (mget (ms_drvs s) q); [reflexivity|congruence].
  - unfold mhas. assert (X : mget (ms_repl s) p <> None) by (apply K; congruence). destruct (mget (ms_repl s) p); [reflexivity|congruence].
Qed.
Print Assumptions C62_closed.
Theorem C62_consistent_partial : forall sha h p d, Forall wf_maps h -> no_path_clash sha h -> let s := map_run sha h in map_Get s p = Ok d ->
  In d h /\ right_paths_in sha (getter s) d /\ exists x, mget (ms_repl s) p = Some x /\ forall y, modulo sha (getter s) p y <-> y = x.
Proof.
  intros sha h p d WF NC s H. pose proof (graph_run sha h WF NC) as G. fold s in G. pose proof (C62_closed sha h p d H) as (_ & _ & CL & R). fold s in CL, R.
  unfold map_Get in H. destruct (mget (ms_drvs s) p) as [e|] eqn:E; [|discriminate]. injection H as ->. pose proof G as (_ & G1 & G2). destruct (G1 p d E) as (A & B). split; [exact A|]. split.
  - apply (right_iff sha h s d G); [|exact B]. intros q Hq. specialize (CL q Hq). unfold map_Get in CL. destruct (mget (ms_drvs s) q); [discriminate|discriminate CL].
  - unfold mhas in R. destruct (mget (ms_repl s) p) as [x|] eqn:X; [|discriminate]. exists x. split; [reflexivity|]. pose proof (G2 p x X) as M. apply getter_modulo in M. intros y. split.
    + intros Y. exact (modulo_fun sha _ p y Y x M).
    + intros ->. exact M.
Qed.
Print Assumptions C62_consistent_partial.
Lemma hist_no_clash : no_path_clash sha0 hist.
Proof.
  assert (D : forall d e, In d hist -> In e hist -> DrvPath sha0 d = DrvPath sha0 e -> d = e).
  { intros d e Hd He H. unfold hist in Hd, He. cbn [In] in Hd, He. apply (f_equal (fun r => match r with Ok p => p | _ => [] end)) in H. apply beq_eq in H.
    destruct Hd as [<-|[<-|[<-|[<-|[]]]]], He as [<-|[<-|[<-|[<-|[]]]]]; try reflexivity; vm_compute in H; discriminate. }
  intros d e Hd He H. rewrite (D d e Hd He H). split; [|reflexivity]. repeat split; reflexivity.
Qed.
Example C62_nonvacuous : Forall wf_maps hist /\ no_path_clash sha0 hist /\ map_Get (map_run sha0 hist) (zpath "c.drv") = Ok dc /\ length (ms_drvs (map_run sha0 hist)) = 4.
Proof. split; [exact hist_wf|]. split; [exact hist_no_clash|]. split; vm_compute; reflexivity. Qed.
(** Two derivations written as the same text share a path: Put accepts both, the second replaces the first. *)
Theorem C62_overwrite_refuted : exists d e p, wf_maps d /\ wf_maps e /\ d_args d <> d_args e /\
  fst (map_Put sha0 (map_run sha0 []) d) = Ok p /\ map_Get (map_run sha0 [d]) p = Ok d /\
  (forall sha, DrvPath sha d = DrvPath sha e) /\ fst (map_Put sha0 (map_run sha0 [d]) e) = Ok p /\ map_Get (map_run sha0 [d; e]) p = Ok e.
Proof.
  set (mkd := fun args => Drv [] [(bs "out", Output (zpath "a") [] [])] [] [] (bs "p") (bs "b") args [(bs "name", bs "a")]).
  exists (mkd [["a"%byte; x22; ","%byte; x22; "b"%byte]]), (mkd [bs "a"; bs "b"]), (zpath "a.drv").
  split; [repeat split; apply nodup_dec; vm_compute; reflexivity|]. split; [repeat split; apply nodup_dec; vm_compute; reflexivity|]. split; [discriminate|].
  split; [vm_compute; reflexivity|]. split; [vm_compute; reflexivity|]. split; [|split; vm_compute; reflexivity].
  intros sha. rewrite ?DrvPath_def. replace (drv_bytes (mkd [["a"%byte; x22; ","%byte; x22; "b"%byte]]) false []) with (drv_bytes (mkd [bs "a"; bs "b"]) false []) by (vm_compute; reflexivity). reflexivity.
Qed.
Print Assumptions C62_overwrite_refuted.

(** * C63: the BadgerStore *)
Theorem C63_agree_partial : forall sha json h d p, Forall (badger_fit json) h -> badger_fit json d ->
  let s := map_run sha h in let b := badger_run sha h in
  same_outcome (fst (map_Put sha s d)) (fst (badger_Put sha b d true)) /\
  map_Has s p = badger_Has b p /\
  match map_Get s p with
  | Ok e => exists e', badger_Get json b p = Ok e' /\ same_drv e e'
  | _ => is_err (badger_Get json b p) = true
  end.
Proof.
  intros sha json h d p F FD s b. assert (FW : forall d, badger_fit json d -> few_inputs d) by (intros x X; apply X).
  pose proof (run_agree sha (badger_fit json) FW h F) as R. split; [exact (proj1 (put_agree sha _ FW s b d (run_inv sha h) R FD))|]. split; [exact (related_has _ s b R p)|].
  pose proof (get_text (badger_fit json) json s b p (fun x X => proj1 X) R) as G. destruct (map_Get s p) as [e|e|w]; [|exact G..].
  destruct G as ((W & NA & PR & J & _) & V & t & A & ->). apply (round_trip_neat json e W V NA PR J t A); [apply app_nil_r|reflexivity].
Qed.
Print Assumptions C63_agree_partial.
(** Which Puts are accepted, and what is there afterwards, does not depend on
    the texts: it is enough that nothing has two inputs.  What Get returns is
    then always what reading the text of the derivation gives. *)
Theorem C63_puts_partial : forall sha h d p, Forall wf_maps h -> Forall few_inputs h -> wf_maps d -> few_inputs d ->
  let s := map_run sha h in let b := badger_run sha h in
  same_outcome (fst (map_Put sha s d)) (fst (badger_Put sha b d true)) /\
  map_Has s p = badger_Has b p /\
  forall json, match map_Get s p with
  | Ok e => exists t, aterm e t /\ badger_Get json b p = ReadDerivation json (Src [t] EEOF false)
  | _ => is_err (badger_Get json b p) = true
  end.
Proof.
  intros sha h d p W F WD FD s b. set (P := fun x => wf_maps x /\ few_inputs x). assert (FW : forall d, P d -> few_inputs d) by (intros x X; apply X).
  assert (FP : Forall P h) by (rewrite Forall_forall in *; intros x X; split; auto).
  pose proof (run_agree sha P FW h FP) as R. split; [exact (proj1 (put_agree sha P FW s b d (run_inv sha h) R (conj WD FD)))|]. split; [exact (related_has _ s b R p)|].
  intros json. pose proof (get_text P json s b p (fun x X => proj1 X) R) as G. destruct (map_Get s p) as [e|e|w]; [|exact G..].
  destruct G as (_ & _ & t & A & E). eauto.
Qed.
Print Assumptions C63_puts_partial.
(** And this is exact: of what the MapStore accepts, the BadgerStore accepts what has no two inputs. *)
Theorem C63_exact : forall sha h d p, Forall wf_maps h -> Forall few_inputs h -> wf_maps d -> fst (map_Put sha (map_run sha h) d) = Ok p ->
  (is_ok (fst (badger_Put sha (badger_run sha h) d true)) = true <-> few_inputs d) /\
  (few_inputs d -> fst (badger_Put sha (badger_run sha h) d true) = Ok p).
Proof.
  intros sha h d p W F WD M. assert (K : few_inputs d -> fst (badger_Put sha (badger_run sha h) d true) = Ok p).
  { intros FD. destruct (C63_puts_partial sha h d p W F WD FD) as (S & _). cbv zeta in S. rewrite M in S. destruct (fst (badger_Put sha (badger_run sha h) d true)); cbn in S; [congruence|destruct S..]. }
  split; [|exact K]. split; [|intros FD; rewrite (K FD); reflexivity].
  intros B. assert (X : is_fixed d \/ ~ is_fixed d).
  { unfold is_fixed, fixed_output. destruct (d_outputs d) as [|[n o] [|y l]]; [right; intros (x & X & _); discriminate X| |right; intros (x & X & _); discriminate X].
    destruct (bytes_eq_dec (o_algo o) []) as [E|E]; [right; intros (x & X & Y); injection X as _ X; subst x; exact (Y E)|].
    destruct (bytes_eq_dec n (bs "out")) as [->|N]; [left; eauto|right; intros (x & X & _); apply (f_equal (map fst)) in X; cbn [map fst] in X; injection X as X; exact (N X)]. }
  destruct X as [X|X]; [left; exact X|]. right. destruct (le_lt_dec (length (d_inputs d)) 1) as [L|L]; [exact L|].
  pose proof (badger_two_inputs sha (badger_run sha h) d true WD L X) as E. congruence.
Qed.
Print Assumptions C63_exact.
Lemma fit_dec (d : drv) : wf_maps d -> mget (d_env d) (bs "__json") = None -> d_name d = [] -> forallb literalb (raw_strings d) = true -> plain_text (d_platform d) -> plain_text (d_builder d) ->
  (is_fixed d \/ length (d_inputs d) <= 1) -> badger_fit no_json d.
Proof.
  intros W J N L P1 P2 F. split; [exact W|]. split; [intros (_ & X & _); revert X; apply (mget_none (d_env d)); exact J|]. split; [split; [apply literals_neat, literals_dec; exact L|auto]|].
  split; [unfold json_consistent; rewrite J; exact N|exact F].
Qed.
Example C63_nonvacuous : Forall (badger_fit no_json) [da; db_; df] /\ fst (badger_Put sha0 (badger_run sha0 [da; db_]) df true) = Ok (zpath "f.drv") /\ badger_Get no_json (badger_run sha0 [da; db_]) (zpath "b.drv") = Ok db_.
Proof.
  pose proof hist_wf as H. unfold hist in H. inversion H as [|? ? W1 H1]; subst. inversion H1 as [|? ? W2 H2]; subst. inversion H2 as [|? ? W3 H3]; subst. inversion H3 as [|? ? W4 H4]; subst.
  split; [|split; vm_compute; reflexivity]. constructor; [|constructor; [|constructor; [|constructor]]];
    (apply fit_dec; [assumption|vm_compute; reflexivity|reflexivity|vm_compute; reflexivity|apply plain_dec; vm_compute; reflexivity|apply plain_dec; vm_compute; reflexivity|]);
    [right; cbn; lia|right; cbn; lia|left; eexists; split; [reflexivity|discriminate]].
Qed.
(** A derivation with a quote in an argument, which does not read back, is accepted by both all the same. *)
Definition quoted_arg : drv := Drv [] [(bs "out", Output (zpath "a") [] [])] [] [] (bs "p") (bs "b") [["a"%byte; x22; ","%byte; x22; "b"%byte]] [(bs "name", bs "a")].
Example C63_puts_nonvacuous : exists p, Forall wf_maps [da] /\ Forall few_inputs [da] /\ wf_maps quoted_arg /\ few_inputs quoted_arg /\ ~ readable quoted_arg /\
  fst (map_Put sha0 (map_run sha0 [da]) quoted_arg) = Ok p.
Proof.
  eexists. pose proof hist_wf as H. unfold hist in H. inversion H as [|? ? W1 H1]; subst.
  split; [constructor; [exact W1|constructor]|]. split; [constructor; [right; cbn; lia|constructor]|].
  split; [repeat split; apply nodup_dec; vm_compute; reflexivity|]. split; [right; cbn; lia|]. split; [|vm_compute; reflexivity].
  intros ((_ & _ & _ & L & _) & _). inversion L as [|? ? N _]; subst. specialize (N 0%Z). vm_compute in N. discriminate N; split; [reflexivity|discriminate].
Qed.
(** The loop that collects the replacement strings ends after the first input, so a
    derivation with two inputs is never accepted unless its output is fixed. *)
Theorem C63_two_inputs_refuted : forall sha b d commits, wf_maps d -> 2 <= length (d_inputs d) -> ~ is_fixed d -> is_ok (fst (badger_Put sha b d commits)) = false.
Proof. exact badger_two_inputs. Qed.
Print Assumptions C63_two_inputs_refuted.
Theorem C63_two_inputs_differ_refuted : fst (map_Put sha0 (map_run sha0 [da; db_]) dc) = Ok (zpath "c.drv") /\ is_err (fst (badger_Put sha0 (badger_run sha0 [da; db_]) dc true)) = true.
Proof. split; vm_compute; reflexivity. Qed.
Print Assumptions C63_two_inputs_differ_refuted.
(** A derivation whose text does not read back comes out changed. *)
Theorem C63_get_refuted : exists d p, wf_maps d /\ fst (badger_Put sha0 [] d true) = Ok p /\ map_Get (map_run sha0 [d]) p = Ok d /\
  forall json, exists e, badger_Get json (badger_run sha0 [d]) p = Ok e /\ d_args e <> d_args d.
Proof.
  set (mkd := fun args => Drv [] [(bs "out", Output (zpath "a") [] [])] [] [] (bs "p") (bs "b") args [(bs "name", bs "a")]).
  exists (mkd [["a"%byte; x22; ","%byte; x22; "b"%byte]]), (zpath "a.drv"). split; [repeat split; apply nodup_dec; vm_compute; reflexivity|]. split; [vm_compute; reflexivity|]. split; [vm_compute; reflexivity|].
  intros json. exists (mkd [bs "a"; bs "b"]). split; [vm_compute; reflexivity|discriminate].
Qed.
Print Assumptions C63_get_refuted.

(** * C64: crashes, failing commits, overlapping calls *)
Theorem C64_together : forall sha b calls p, reachable sha (b, calls) -> (has_key_in b (bs "drv:" ++ p) <-> has_key_in b (bs "replacement:" ++ p)).
Proof. intros sha b calls p R. destruct (reach_good sha _ R) as (G & _). rewrite !has_key_get. apply (good_together sha b G). Qed.
Print Assumptions C64_together.
Theorem C64_closed : forall sha b calls p text, reachable sha (b, calls) -> mget (content b) (bs "drv:" ++ p) = Some text ->
  exists d, drv_Validate d = Ok tt /\ DrvPath sha d = Ok p /\ WriteDerivation d good_sink = (Ok tt, Sink text []) /\ forall q, In q (mkeys (d_inputs d)) -> has_key_in b (bs "drv:" ++ q).
Proof.
  intros sha b calls p text R H. destruct (reach_good sha _ R) as (G & _). destruct (good_closed sha b G p text H) as (d & A & B & C & D). exists d. split; [exact A|]. split; [exact B|]. split.
  - destruct (write_buf d) as (l & L & W). unfold good_sink. rewrite W. unfold drv_bytes in C. rewrite L in C. injection C as <-. reflexivity.
  - intros q Hq. apply has_key_get. exact (D q Hq).
Qed.
Print Assumptions C64_closed.
(** A Put that fails leaves no trace, one that succeeds adds its two entries in one transaction. *)
Theorem C64_all_or_nothing : forall sha b d commits,
  match badger_Put sha b d commits with
  | (Ok p, b') => exists text x, b' = b ++ [[(bs "drv:" ++ p, text); (bs "replacement:" ++ p, x)]] /\ WriteDerivation d good_sink = (Ok tt, Sink text [])
  | (_, b') => b' = b
  end.
Proof.
  intros sha b d c. destruct (bput_cases sha b d c) as [(repl & p & t & x & E & _ & _ & _ & _ & _ & T & _)|(E & O)].
  - rewrite E. exists t, x. split; [reflexivity|]. destruct (write_buf d) as (l & L & W). unfold good_sink. rewrite W. unfold drv_bytes in T. rewrite L in T. injection T as <-. reflexivity.
  - destruct (badger_Put sha b d c) as [[p|e|w] b']; [discriminate|exact E..].
Qed.
Print Assumptions C64_all_or_nothing.
(** Overlapping calls: a step changes the database only if its call returns success with that step. *)
Theorem C64_steps : forall sha b calls i c commits, reachable sha (b, calls) -> nth_error calls i = Some c ->
  match put_step sha b commits c with
  | (c', b') => b' = b \/ exists p text x, c' = PReturned (Ok p) /\ b' = b ++ [[(bs "drv:" ++ p, text); (bs "replacement:" ++ p, x)]]
  end.
Proof.
  intros sha b calls i c commits R H. destruct (reach_good sha _ R) as (_ & F). pose proof (Forall_nth_error _ _ _ _ F H) as G. cbn [fst snd] in G. destruct (put_step sha b commits c) as [c' b'] eqn:S.
  destruct (step_cases sha b commits c c' b' S G) as [(E & _)|(p & t & x & E & C & _)]; [left; exact E|right; exists p, t, x; auto].
Qed.
Print Assumptions C64_steps.
(** A call that runs without interruption is Put. *)
Theorem C64_alone : forall sha b d commits,
  snd (run_alone sha (length (d_inputs d) + 3) b commits (put_start d)) = snd (badger_Put sha b d commits) /\
  fst (run_alone sha (length (d_inputs d) + 3) b commits (put_start d)) = PReturned (fst (badger_Put sha b d commits)).
Proof. intros. rewrite alone_put. auto. Qed.
Print Assumptions C64_alone.
Definition run1 (i n : nat) : list event := repeat (EStep i true) n.
Example C64_nonvacuous : (* b is refused because a is not there yet; a is stored, then b; the crash loses b *)
  let es := [EPut db_; EPut da; EStep 0 true] ++ run1 1 4 ++ [EPut db_] ++ run1 2 4 in
  length (fst (world_run sha0 ([], []) es)) = 2 /\ length (fst (world_run sha0 ([], []) (es ++ [ECrash 1]))) = 1 /\
  snd (world_run sha0 ([], []) es) = [PReturned (Err (EMsg "unable to find referred input drv path")); PReturned (Ok (zpath "a.drv")); PReturned (Ok (zpath "b.drv"))].
Proof. split; [vm_compute; reflexivity|]. split; vm_compute; reflexivity. Qed.
