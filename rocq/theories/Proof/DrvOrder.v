(** Inputs with the same replacement: the ATerm tells their outputs apart (C52). *)
From Verif Require Import Base.Bytes Base.BytesFacts Model.GoIO Model.GoStd Model.Derivation Model.DrvParser Spec.StorePathSpec Spec.DerivationSpec
  Proof.DrvEncode Proof.DrvParse Proof.DrvRound Proof.DrvHash.
Ltac Zify.zify_post_hook ::= idtac.

Lemma join_inside sep A C : exists P S, forall t, join_byte (A ++ t :: C) sep = P ++ t ++ S.
Proof.
  induction A as [|x A (P & S & H)].
  - destruct C as [|c C]; [exists [], []|exists [], (sep :: join_byte (c :: C) sep)]; intros t; cbn [app join_byte]; [rewrite app_nil_r|]; reflexivity.
  - exists (x ++ sep :: P), S. intros t. rewrite <- app_assoc. cbn [app]. rewrite <- (H t). cbn [join_byte]. destruct (A ++ t :: C) eqn:E; [destruct A; discriminate|reflexivity].
Qed.
Lemma join_cancel sep A C t u : join_byte (A ++ t :: C) sep = join_byte (A ++ u :: C) sep -> t = u.
Proof.
  destruct (join_inside sep A C) as (P & S & H). rewrite !H. intros E. apply app_inv_head in E. apply app_inv_tail in E. exact E.
Qed.
Lemma brackets_inj a b : brackets a = brackets b -> join_byte a ","%byte = join_byte b ","%byte.
Proof. unfold brackets. intros E. apply app_inv_head in E. apply app_inv_tail in E. exact E. Qed.
Lemma parens_cancel A C t u : parens (A ++ t :: C) = parens (A ++ u :: C) -> t = u.
Proof. unfold parens. intros E. apply app_inv_head in E. apply app_inv_tail in E. exact (join_cancel _ _ _ _ _ E). Qed.
Lemma brackets_cancel A C t u : brackets (A ++ t :: C) = brackets (A ++ u :: C) -> t = u.
Proof. intros E. apply brackets_inj in E. exact (join_cancel _ _ _ _ _ E). Qed.
Lemma names_inj a b : Forall literal a -> Forall literal b -> brackets (map quoted a) = brackets (map quoted b) -> a = b.
Proof. intros A B E. pose proof (each_strings a [] A) as X. rewrite E, (each_strings b [] B) in X. cbn [app] in X. congruence. Qed.
Lemma drv_text_ins outs srcs plat bld args env i j : drv_text outs i srcs plat bld args env = drv_text outs j srcs plat bld args env ->
  brackets (map input_text i) = brackets (map input_text j).
Proof. unfold drv_text. intros E. apply app_inv_head in E. exact (parens_cancel [_] _ _ _ E). Qed.
Lemma mset_twice {V} (m : amap V) k v w : mset (mset m k v) k w = mset m k w.
Proof.
  induction m as [|[k' u] m IH]; cbn [mset]; [rewrite beq_refl; reflexivity|]. destruct (beq k' k) eqn:B; cbn [mset]; [rewrite beq_refl; reflexivity|]. rewrite B, IH. reflexivity.
Qed.
Lemma mset_mkeys {V} (m : amap V) k v w : mkeys (mset m k v) = mkeys (mset m k w).
Proof.
  unfold mkeys. induction m as [|[k' u] m IH]; cbn [mset map fst]; [reflexivity|]. destruct (beq k' k); cbn [map fst]; [reflexivity|]. rewrite IH. reflexivity.
Qed.
Lemma ordered_mset_cancel (m : amap (list bytes)) x a b : NoDup (mkeys m) -> Forall literal a -> Forall literal b ->
  brackets (map input_text (ordered (mset m x a) [])) = brackets (map input_text (ordered (mset m x b) [])) -> a = b.
Proof.
  intros N A B E. unfold ordered in E. rewrite (mset_mkeys m x b a) in E. set (K := sort_strings (mkeys (mset m x a))) in *.
  assert (NK : NoDup K). { eapply Permutation_NoDup; [symmetry; apply sort_perm|]. apply mset_nodup. exact N. }
  assert (I : In x K). { apply sort_in. apply mset_keys. left. reflexivity. }
  apply in_split in I. destruct I as (K1 & K2 & HK). rewrite HK in *. rewrite !map_app in E. cbn [map] in E.
  assert (NI : ~ In x (K1 ++ K2)) by (apply NoDup_remove_2 in NK; exact NK).
  assert (G : forall L, (forall k, In k L -> k <> x) -> map input_text (map (fun k => (k, mget_or (mset m x a) k [])) L) = map input_text (map (fun k => (k, mget_or (mset m x b) k [])) L)).
  { intros L HL. rewrite !map_map. apply map_ext_in. intros k Hk. unfold mget_or. rewrite !mset_other by (apply HL; exact Hk). reflexivity. }
  rewrite (G K1), (G K2) in E by (intros k Hk ->; apply NI, in_or_app; auto). apply brackets_cancel in E.
  unfold input_text in E. cbn [fst snd] in E. unfold mget_or in E. rewrite !mset_same in E. apply (parens_cancel [_] []) in E. apply names_inj; assumption.
Qed.
Lemma replace_inputs_app repl l1 l2 : forall acc, replace_inputs repl acc (l1 ++ l2) = let* m := replace_inputs repl acc l1 in replace_inputs repl m l2.
Proof. induction l1 as [|[p a] l1 IH]; intros acc; cbn [app replace_inputs rbind]; [reflexivity|]. destruct (mget repl p); [apply IH|reflexivity]. Qed.
Lemma replace_inputs_any repl l : forall acc, (forall p, In p (map fst l) -> mget repl p <> None) -> NoDup (mkeys acc) ->
  exists m, replace_inputs repl acc l = Ok m /\ NoDup (mkeys m).
Proof.
  induction l as [|[p a] l IH]; intros acc H N; cbn [replace_inputs]; [eauto|]. destruct (mget repl p) eqn:E; [|exfalso; apply (H p); [left; reflexivity|exact E]].
  apply IH; [intros q Hq; apply H; right; exact Hq|apply mset_nodup; exact N].
Qed.
Lemma clash_bytes d repl strip p q a b x rest : repl <> [] -> (forall k, In k (map fst rest) -> mget repl k <> None) ->
  mget repl p = Some x -> mget repl q = Some x -> Forall literal a -> Forall literal b ->
  drv_bytes (with_inputs d (rest ++ [(p, a); (q, b)])) strip repl = drv_bytes (with_inputs d (rest ++ [(q, b); (p, a)])) strip repl -> a = b.
Proof.
  intros NE HR HP HQ A B E. rewrite !drv_bytes_eq in E. unfold with_inputs in E. cbn [d_inputs d_outputs d_srcs d_platform d_builder d_args d_env] in E.
  destruct repl as [|r0 repl]; [congruence|]. set (R := r0 :: repl) in *. destruct (replace_inputs_any R rest [] HR (NoDup_nil _)) as (m & HM & N).
  rewrite !replace_inputs_app, HM in E. cbn [rbind replace_inputs] in E. rewrite HP, HQ, !mset_twice in E.
  assert (E2 := f_equal (fun r => match r with Ok t => t | _ => [] end) E). cbn beta iota in E2. apply drv_text_ins in E2. symmetry. exact (ordered_mset_cancel m x b a N B A E2).
Qed.
