(** C105: the derivation stores and the caller's Derivation structs. *)
From Verif Require Import Base.Bytes Base.BytesFacts Model.GoIO Model.GoStd Model.Derivation Model.DrvParser Model.DrvStore Model.DrvStorePtr
  Spec.DerivationSpec Spec.StoreSpec Spec.StorePtrSpec Proof.StoreMap Proof.StorePtrProps Props.DerivationP Props.StoreP.
Ltac Zify.zify_post_hook ::= idtac.

(** MapStore.  For every history of calls and assignments: Put and Has answer as
    a store that keeps values (the one of C61-C63) given the derivations as they
    were when Put was called. *)
Theorem C105_put_has : forall sha ops m, let y := v_run sha ops m NewMapStore in
  but_gets (fst (d_run sha ops m PNewMapStore)) = but_gets (fst y) /\ snd y = map_run sha (given ops m).
Proof. intros sha ops m y. split; [exact (proj1 (whole sha ops m))|apply v_run_given]. Qed.
Print Assumptions C105_put_has.
(** Get returns the very struct given to the last accepted Put for that path: its content now, not then. *)
Theorem C105_get_shares : forall sha ops m path, let x := d_run sha ops m PNewMapStore in
  fst (snd x) = dheap_after ops m /\
  match pmap_Get (snd (snd x)) path with
  | Ok p => put_last sha ops m path p
  | _ => map_Has (map_run sha (given ops m)) path = Ok false
  end.
Proof.
  intros sha ops m path x. destruct (whole sha ops m) as (_ & H2 & (S1 & _ & S3 & S4) & _). fold x in H2, S1, S4. split; [exact H2|].
  unfold pmap_Get. destruct (mget (ps_drvs (snd (snd x))) path) as [p|] eqn:M; [exact (proj1 (S4 path p M))|].
  change (map_run sha (given ops m)) with (fold_left (fun s d => snd (map_Put sha s d)) (given ops m) NewMapStore). rewrite <- v_run_given.
  unfold map_Has. rewrite (proj1 (proj2 S1 path) M). reflexivity.
Qed.
Print Assumptions C105_get_shares.
(** If accepted structs are not changed, the store keeps what it was given. *)
Theorem C105_unchanged_partial : forall sha ops m, unchanged sha ops m ->
  fst (d_run sha ops m PNewMapStore) = fst (v_run sha ops m NewMapStore).
Proof. intros sha ops m. exact (proj2 (proj2 (proj2 (whole sha ops m)))). Qed.
Print Assumptions C105_unchanged_partial.
(** Missing: a struct changed after Put.  Get then returns, for the old path, a
    derivation with another path, or an invalid one. *)
Definition no_drvs : dheap := fun _ => Drv [] [] [] [] [] [] [] [].
Theorem C105_changed_refuted :
  let ops := [DSet 0 da; DPut 0; DSet 0 (node "evil" [] []); DGet (zpath "a.drv"); DSet 0 (no_drvs 0); DGet (zpath "a.drv"); DHas (zpath "a.drv")] in
  fst (d_run sha0 ops no_drvs PNewMapStore) =
    [SPut (Ok (zpath "a.drv")); SGot (Ok (node "evil" [] [])); SGot (Ok (no_drvs 0)); SHas (Ok true)] /\
  fst (v_run sha0 ops no_drvs NewMapStore) =
    [SPut (Ok (zpath "a.drv")); SGot (Ok da); SGot (Ok da); SHas (Ok true)] /\
  DrvPath sha0 (node "evil" [] []) = Ok (zpath "evil.drv") /\ is_err (drv_Validate (no_drvs 0)) = true.
Proof. split; [vm_compute; reflexivity|]. split; [vm_compute; reflexivity|]. split; vm_compute; reflexivity. Qed.
Print Assumptions C105_changed_refuted.

(** BadgerStore: later changes never matter; the database holds what Put was given. *)
Lemma b_run_given sha json ops : forall m b, snd (b_run sha json ops m b) = fold_left (fun b d => snd (badger_Put sha b d true)) (given ops m) b.
Proof.
  induction ops as [|o ops IH]; intros m b; [reflexivity|]. destruct o as [p d|p|q|q]; cbn [b_run given fold_left]; [apply IH| | |].
  - specialize (IH m (snd (badger_Put sha b (m p) true))). destruct (badger_Put sha b (m p) true) as [r b1]. cbn [snd] in IH |- *. destruct (b_run sha json ops m b1). exact IH.
  - specialize (IH m b). destruct (b_run sha json ops m b). exact IH.
  - specialize (IH m b). destruct (b_run sha json ops m b). exact IH.
Qed.
Theorem C105_badger_keeps_text : forall sha json ops m, snd (b_run sha json ops m []) = badger_run sha (given ops m).
Proof. intros sha json ops m. apply b_run_given. Qed.
Print Assumptions C105_badger_keeps_text.
(** Together with C63: on the derivations the BadgerStore handles, whatever the
    caller does to the structs, Get returns the derivation that was given. *)
Theorem C105_badger_get : forall sha json ops m path, Forall (badger_fit json) (given ops m) ->
  match map_Get (map_run sha (given ops m)) path with
  | Ok e => exists e', badger_Get json (snd (b_run sha json ops m [])) path = Ok e' /\ same_drv e e'
  | _ => is_err (badger_Get json (snd (b_run sha json ops m [])) path) = true
  end.
Proof.
  intros sha json ops m path F. rewrite C105_badger_keeps_text. destruct (given ops m) as [|d l] eqn:G; [reflexivity|].
  rewrite <- G in *. assert (FD : badger_fit json d) by (rewrite G in F; inversion F; assumption).
  exact (proj2 (proj2 (C63_agree_partial sha json (given ops m) d path F FD))).
Qed.
Print Assumptions C105_badger_get.

Ltac cut_ops E := repeat match type of E with
  | _ = ?a ++ _ => is_var a; destruct a as [|? a]; cbn [app] in E
  | _ :: _ = _ :: _ => injection E; clear E; intros E; intros
  | _ = _ => discriminate E
  end; repeat match goal with H : @eq d_op ?x ?y |- _ => first [is_var x; subst x|is_var y; subst y|discriminate H|injection H as ?H; intros] end.
Definition ex_changes : list d_op := [DSet 0 da; DPut 0; DSet 1 db_; DPut 1; DSet 2 (no_drvs 0); DPut 2; DSet 2 df; DPut 2; DGet (zpath "f.drv")].
Example C105_nonvacuous : unchanged sha0 ex_changes no_drvs /\
  fst (d_run sha0 ex_changes no_drvs PNewMapStore) = [SPut (Ok (zpath "a.drv")); SPut (Ok (zpath "b.drv")); SPut (Err (EMsg "unable to validate derivation")); SPut (Ok (zpath "f.drv")); SGot (Ok df)] /\
  Forall (badger_fit no_json) (given [DSet 0 da; DPut 0; DSet 0 db_; DPut 0; DSet 0 df; DPut 0; DSet 0 (no_drvs 0)] no_drvs) /\
  badger_Get no_json (snd (b_run sha0 no_json [DSet 0 da; DPut 0; DSet 0 db_; DPut 0; DSet 0 df; DPut 0; DSet 0 (no_drvs 0)] no_drvs [])) (zpath "b.drv") = Ok db_.
Proof.
  split; [|split; [vm_compute; reflexivity|split; [exact (proj1 C63_nonvacuous)|vm_compute; reflexivity]]].
  assert (N : forall a p b d c, ex_changes = a ++ DPut p :: b ++ DSet p d :: c -> a = firstn 5 ex_changes /\ p = 2).
  { intros a p b d c E. unfold ex_changes in *.
    cut_ops E; subst; try discriminate; split; reflexivity. }
  intros a p b d c E H. destruct (N a p b d c E) as (-> & ->). vm_compute in H. discriminate H.
Qed.
