(** Proofs of C22-C24. *)
From Coq Require Import Permutation.
From Verif Require Import Base.Bytes Base.BytesFacts Model.Nixbase32 Model.Storepath Model.References
  Spec.StorePathSpec Spec.RefSpec Proof.Base32Props Proof.StorePathProps.
Ltac Zify.zify_post_hook ::= idtac.

Definition run_writes (r : scanner) (ws : list bytes) : scanner :=
  fold_left (fun r w => fst (rs_Write r w)) ws r.
Lemma run_writes_concat ws : forall r, run_writes r ws = fst (rs_Write r (concat ws)).
Proof.
  unfold rs_Write. cbn [fst]. induction ws as [|w ws IH]; intros r; [reflexivity|].
  cbn [run_writes fold_left concat]. rewrite fold_left_app. unfold run_writes in IH.
  rewrite IH. reflexivity.
Qed.

(** * The candidate map *)
Lemma build_spec cands : forall m m', build_hashes cands m = Ok m' ->
  NoDup (mkeys m) ->
  NoDup (mkeys m') /\
  (forall h p, mget m' h = Some p <->
     candidate_for cands h p \/ (Forall (fun q => hash_of q <> h) cands /\ mget m h = Some p)) /\
  Forall (fun p => has_prefix p StoreDir = true /\ 45 <= length p) cands.
Proof.
  induction cands as [|c cands IH]; intros m m'; cbn [build_hashes].
  - intros [= <-] Hn. split; [exact Hn|]. split; [|constructor]. intros h p. split.
    + intros H. right. split; [constructor|exact H].
    + intros [(l1 & l2 & H & _)|[_ H]]; [destruct l1; discriminate|exact H].
  - destruct (has_prefix c StoreDir) eqn:Ep; [|discriminate]. cbn [negb].
    change (length StoreDir + refLength + 3) with 45.
    change storePrefixLength with 11. change (11 + refLength) with 43.
    destruct (Nat.ltb_spec (length c) 45) as [|L]; [discriminate|].
    rewrite slice_ok by lia. cbn [rbind]. change (43 - 11) with 32. fold (hash_of c).
    intros H Hn. apply IH in H; [|apply mset_nodup; exact Hn].
    destruct H as (H1 & H2 & H3). split; [exact H1|]. split; [|constructor; auto].
    intros h p. rewrite H2. split.
    + intros [(l1 & l2 & -> & Hp & Hl)|[Hf Hm]].
      * left. exists (c :: l1), l2. auto.
      * rewrite mget_mset in Hm. destruct (beq_spec (hash_of c) h) as [E|E].
        -- left. injection Hm as <-. exists [], cands. auto.
        -- right. split; [constructor; auto|exact Hm].
    + intros [(l1 & l2 & E & Hp & Hl)|[Hf Hm]].
      * destruct l1 as [|x l1]; injection E as -> ->.
        -- right. split; [exact Hl|]. rewrite mget_mset, Hp, beq_refl. reflexivity.
        -- left. exists l1, l2. auto.
      * inversion Hf; subst. right. split; [assumption|]. rewrite mget_mset.
        destruct (beq_spec (hash_of c) h); [contradiction|exact Hm].
Qed.

(** * The scanning invariant *)
Lemma Is_b32 c : Is c = true <-> is_b32 c.
Proof. apply Is_alphabet. Qed.

Record inv (hashes : amap bytes) (d : bytes) (r : scanner) : Prop := {
  inv_hashes : rs_hashes r = hashes;
  inv_buf : exists pre, d = pre ++ rs_buf r /\ aligned pre /\ Forall is_b32 (rs_buf r) /\ length (rs_buf r) < 32;
  inv_nodup : NoDup (mkeys (rs_hits r));
  inv_hits : forall h, In h (mkeys (rs_hits r)) <-> mhas hashes h = true /\ aligned_occurrence h d
}.
Lemma app_snoc_inv {A} (a b : list A) x y : a ++ [x] = b ++ [y] -> a = b /\ x = y.
Proof. intros H. apply app_inj_tail in H. exact H. Qed.

(** The alignment of a position is determined by the data. *)
Lemma aligned_run_unique a1 r1 a2 r2 :
  a1 ++ r1 = a2 ++ r2 -> Forall is_b32 r1 -> Forall is_b32 r2 ->
  (a1 = [] \/ exists a' c, a1 = a' ++ [c] /\ ~ is_b32 c) ->
  (a2 = [] \/ exists a' c, a2 = a' ++ [c] /\ ~ is_b32 c) -> a1 = a2 /\ r1 = r2.
Proof.
  revert r2. induction r1 as [|x r1 IH] using rev_ind; intros r2 E F1 F2 H1 H2.
  - rewrite app_nil_r in E. destruct r2 as [|y r2 _] using rev_ind; [rewrite app_nil_r in E; auto|].
    exfalso. rewrite app_assoc in E. destruct H1 as [->|(a' & c & -> & Hc)].
    + destruct a2, r2; discriminate.
    + apply app_snoc_inv in E. destruct E as [_ ->]. apply Forall_app in F2. destruct F2 as [_ F2].
      inversion F2; contradiction.
  - destruct r2 as [|y r2 _] using rev_ind.
    + exfalso. rewrite app_nil_r, app_assoc in E. destruct H2 as [->|(a' & c & -> & Hc)].
      * destruct a1, r1; discriminate.
      * apply app_snoc_inv in E. destruct E as [_ ->]. apply Forall_app in F1. destruct F1 as [_ F1].
        inversion F1; contradiction.
    + rewrite !app_assoc in E. apply app_snoc_inv in E. destruct E as [E ->].
      apply Forall_app in F1, F2. destruct F1 as [F1 _], F2 as [F2 _].
      destruct (IH r2 E F1 F2 H1 H2) as [-> ->]. auto.
Qed.

Lemma aligned_nil : aligned [].
Proof. exists [], [], 0. repeat split; auto. Qed.
Lemma aligned_break a c : ~ is_b32 c -> aligned (a ++ [c]).
Proof. intros H. exists (a ++ [c]), [], 0. rewrite app_nil_r. repeat split; auto. right. eauto. Qed.
Lemma aligned_next pre w : aligned pre -> Forall is_b32 w -> length w = 32 -> aligned (pre ++ w).
Proof.
  intros (a & run & k & -> & F & L & Ha) Fw Lw. exists a, (run ++ w), (S k).
  rewrite app_assoc. repeat split; auto; [apply Forall_app; auto|rewrite app_length; lia].
Qed.

(** A new aligned occurrence can only be the window just completed. *)
Lemma occ_snoc h d c : aligned_occurrence h (d ++ [c]) <->
  aligned_occurrence h d \/ (hash_part h /\ exists pre, d ++ [c] = pre ++ h /\ aligned pre).
Proof.
  split.
  - intros [Hh (pre & post & E & Ha)]. destruct post as [|y post _] using rev_ind.
    + right. split; [exact Hh|]. exists pre. rewrite app_nil_r in E. auto.
    + left. split; [exact Hh|]. exists pre, post. rewrite !app_assoc in E. apply app_snoc_inv in E.
      destruct E as [-> _]. rewrite <- app_assoc. auto.
  - intros [[Hh (pre & post & -> & Ha)]|[Hh (pre & E & Ha)]]; (split; [exact Hh|]).
    + exists pre, (post ++ [c]). rewrite <- !app_assoc. auto.
    + exists pre, []. rewrite app_nil_r. auto.
Qed.

Lemma scan_step hashes d r c : inv hashes d r -> inv hashes (d ++ [c]) (scan_byte r c).
Proof.
  intros [Ih (pre & Ed & Ia & Fb & Lb) In_ Ihit]. unfold scan_byte.
  destruct (Is c) eqn:Ec; cbn [negb].
  - apply Is_b32 in Ec. change refLength with 32.
    assert (Fb' : Forall is_b32 (rs_buf r ++ [c])) by (apply Forall_app; auto).
    destruct (Nat.eqb_spec (length (rs_buf r ++ [c])) 32) as [L|L].
    + set (w := rs_buf r ++ [c]) in *.
      assert (Hw : hash_part w) by (split; auto).
      assert (Edw : d ++ [c] = pre ++ w) by (unfold w; rewrite Ed, <- app_assoc; reflexivity).
      assert (Hun : forall h, (hash_part h /\ exists pre, d ++ [c] = pre ++ h /\ aligned pre) <-> h = w).
      { intros h. split.
        - intros [[Lh _] (pre' & E & _)]. rewrite Edw in E.
          assert (Hl : length pre = length pre').
          { apply (f_equal (@length byte)) in E. rewrite !app_length in E. lia. }
          clear -E Hl. revert pre' E Hl. induction pre as [|x pre IH]; intros [|y pre'] E Hl; cbn in *; try discriminate; auto.
          injection E as _ E. eauto.
        - intros ->. split; [exact Hw|]. exists pre. auto. }
      constructor; cbn [rs_hashes rs_hits rs_buf].
      * exact Ih.
      * exists (d ++ [c]). rewrite app_nil_r. split; [reflexivity|]. split; [|split; [constructor|cbn; lia]].
        rewrite Edw. apply aligned_next; auto.
      * destruct (mhas (rs_hashes r) w); [apply mset_nodup|]; exact In_.
      * intros h. rewrite occ_snoc, Hun. rewrite Ih.
        destruct (mhas hashes w) eqn:Em.
        -- rewrite mset_keys, Ihit. split; [intros [->|[H1 H2]]|intros [H1 [H2| ->]]]; auto.
        -- rewrite Ihit. split; [intros [H1 H2]|intros [H1 [H2| ->]]]; auto; congruence.
    + constructor; cbn [rs_hashes rs_hits rs_buf].
      * exact Ih.
      * exists pre. rewrite Ed, <- app_assoc. repeat split; auto.
        rewrite app_length in *. cbn in *. lia.
      * exact In_.
      * intros h. rewrite Ihit, occ_snoc. split; [tauto|]. intros [H1 [H2|[[Lh Fh] (pre' & E & Ha')]]]; [auto|].
        exfalso. rewrite Ed, <- app_assoc in E.
        destruct Ia as (a & run & k & -> & F & Lr & Hb). destruct Ha' as (a' & run' & k' & -> & F' & Lr' & Hb').
        rewrite <- !app_assoc in E.
        destruct (aligned_run_unique a (run ++ rs_buf r ++ [c]) a' (run' ++ h) E) as [_ E']; auto;
          try (apply Forall_app; auto).
        apply (f_equal (@length byte)) in E'. rewrite !app_length in *. cbn [length] in *. lia.
  - assert (Hc : ~ is_b32 c) by (rewrite <- Is_b32; congruence).
    constructor; cbn [rs_hashes rs_hits rs_buf].
    + exact Ih.
    + exists (d ++ [c]). rewrite app_nil_r. repeat split; [apply aligned_break; exact Hc|constructor|cbn; lia].
    + exact In_.
    + intros h. rewrite Ihit, occ_snoc. split; [tauto|]. intros [H1 [H2|[[Lh Fh] (pre' & E & _)]]]; [auto|].
      exfalso. destruct h as [|y h _] using rev_ind; [discriminate Lh|].
      rewrite app_assoc in E. apply app_snoc_inv in E. destruct E as [_ <-].
      apply Forall_app in Fh. destruct Fh as [_ Fh]. inversion Fh; contradiction.
Qed.
Lemma scan_inv hashes r d s : inv hashes d r -> inv hashes (d ++ s) (fold_left scan_byte s r).
Proof.
  revert d r. induction s as [|c s IH]; intros d r H; cbn [fold_left]; [rewrite app_nil_r; exact H|].
  replace (d ++ c :: s) with ((d ++ [c]) ++ s) by (rewrite <- app_assoc; reflexivity).
  apply IH, scan_step, H.
Qed.

Definition new_scanner_facts cands r0 : NewReferenceScanner cands = Ok r0 ->
  NoDup (mkeys (rs_hashes r0)) /\
  (forall h p, mget (rs_hashes r0) h = Some p <-> candidate_for cands h p) /\
  inv (rs_hashes r0) [] r0 /\
  Forall (fun p => has_prefix p StoreDir = true /\ 45 <= length p) cands.
Proof.
  unfold NewReferenceScanner. destruct (build_hashes cands []) as [m| |] eqn:E; try discriminate.
  intros [= <-]. cbn [rs_hashes]. apply build_spec in E; [|constructor]. destruct E as (E1 & E2 & E3).
  split; [exact E1|]. split; [|split; [|exact E3]].
  - intros h p. rewrite E2. split; [intros [H|[_ H]]; [exact H|discriminate]|auto].
  - constructor; cbn; auto.
    + exists []. split; [reflexivity|]. split; [apply aligned_nil|]. split; [constructor|lia].
    + constructor.
    + intros h. split; [intros []|]. intros [_ [[L _] (pre & post & E & _)]].
      destruct pre, h; discriminate.
Qed.

Lemma hits_nodup_map hashes (hits : amap unit) :
  NoDup (mkeys hits) -> (forall h p, mget hashes h = Some p -> hash_of p = h) ->
  (forall h, In h (mkeys hits) -> mhas hashes h = true) ->
  map hash_of (map (fun h => match mget hashes h with Some p => p | None => [] end) (mkeys hits)) = mkeys hits.
Proof.
  intros Hn Hh Hin. rewrite map_map. rewrite <- map_id. apply map_ext_in. intros h Hi.
  apply Hin in Hi. unfold mhas in Hi. destruct (mget hashes h) eqn:E; [eauto|discriminate].
Qed.

Lemma references_exact cands r0 d : NewReferenceScanner cands = Ok r0 ->
  let refs := References (fst (rs_Write r0 d)) in
  (forall p, In p refs <-> aligned_occurrence (hash_of p) d /\ candidate_for cands (hash_of p) p) /\
  sortedb refs /\ NoDup (map hash_of refs).
Proof.
  intros H. apply new_scanner_facts in H. destruct H as (_ & H2 & H3 & _).
  apply (scan_inv _ _ _ d) in H3. cbn [app] in H3. unfold rs_Write. cbn [fst].
  set (r := fold_left scan_byte d r0) in *. cbn zeta. destruct H3 as [I1 _ I3 I4].
  assert (Hh : forall h p, mget (rs_hashes r0) h = Some p -> hash_of p = h).
  { intros h p E. apply H2 in E. destruct E as (l1 & l2 & _ & E & _). exact E. }
  assert (Hin : forall h, In h (mkeys (rs_hits r)) -> mhas (rs_hashes r0) h = true) by (intros h; rewrite I4; tauto).
  unfold References. rewrite I1. split; [|split].
  - intros p. split.
    + intros Hp. apply (Permutation_in _ (sort_perm _)) in Hp. apply in_map_iff in Hp.
      destruct Hp as (h & E & Hi). pose proof (Hin h Hi) as Hm. unfold mhas in Hm.
      destruct (mget (rs_hashes r0) h) as [q|] eqn:Eq; [|discriminate]. subst q.
      rewrite (Hh _ _ Eq). apply I4 in Hi. split; [apply Hi|]. apply H2. exact Eq.
    + intros [Ho Hc]. apply (Permutation_in _ (Permutation_sym (sort_perm _))). apply in_map_iff.
      apply H2 in Hc. exists (hash_of p). rewrite Hc. split; [reflexivity|]. apply I4. split; [|exact Ho].
      unfold mhas. rewrite Hc. reflexivity.
  - apply sort_sorted.
  - eapply Permutation_NoDup; [|exact I3]. rewrite <- (hits_nodup_map (rs_hashes r0) (rs_hits r) I3 Hh Hin) at 1.
    apply Permutation_map, Permutation_sym, sort_perm.
Qed.
Lemma aligned_occ_occurs h d : aligned_occurrence h d -> occurs h d.
Proof. intros [_ (pre & post & E & _)]. exists pre, post. exact E. Qed.
Lemma aligned_occ_mono h d e : aligned_occurrence h d -> aligned_occurrence h (d ++ e).
Proof. intros [Hh (pre & post & -> & Ha)]. split; [exact Hh|]. exists pre, (post ++ e). rewrite <- !app_assoc. auto. Qed.
Lemma candidate_in cands h p : candidate_for cands h p -> In p cands.
Proof. intros (l1 & l2 & -> & _). apply in_elt. Qed.
Lemma candidate_exists cands p : In p cands -> exists q, candidate_for cands (hash_of p) q.
Proof.
  intros H. induction cands as [|c cands IH]; [destruct H|].
  assert (D : (exists q, In q cands /\ hash_of q = hash_of p) \/ Forall (fun q => hash_of q <> hash_of p) cands).
  { clear. induction cands as [|c l IH]; [right; constructor|].
    destruct IH as [(q & H1 & H2)|IH]; [left; exists q; cbn; auto|].
    destruct (bytes_eq_dec (hash_of c) (hash_of p)); [left; exists c; cbn; auto|right; constructor; auto]. }
  destruct D as [(q & H1 & H2)|D].
  - assert (Hq : exists q', candidate_for cands (hash_of p) q').
    { clear -H1 H2. revert q H1 H2. induction cands as [|c l IH]; intros q H1 H2; [destruct H1|].
      assert (D : (exists q, In q l /\ hash_of q = hash_of p) \/ Forall (fun q => hash_of q <> hash_of p) l).
      { clear. induction l as [|c l IH]; [right; constructor|].
        destruct IH as [(q & H1 & H2)|IH]; [left; exists q; cbn; auto|].
        destruct (bytes_eq_dec (hash_of c) (hash_of p)); [left; exists c; cbn; auto|right; constructor; auto]. }
      destruct D as [(q' & D1 & D2)|D].
      - destruct (IH q' D1 D2) as (x & l1 & l2 & -> & E1 & E2). exists x, (c :: l1), l2. auto.
      - destruct H1 as [->|H1]; [exists q, [], l; auto|].
        rewrite Forall_forall in D. elim (D q H1 H2). }
    destruct Hq as (x & l1 & l2 & -> & E1 & E2). exists x, (c :: l1), l2. auto.
  - destruct H as [->|H]; [exists p, [], cands; auto|]. rewrite Forall_forall in D. elim (D p H eq_refl).
Qed.
Lemma not_missed cands r0 d p a post : NewReferenceScanner cands = Ok r0 -> In p cands ->
  hash_part (hash_of p) -> d = a ++ hash_of p ++ post ->
  (a = [] \/ exists a' c, a = a' ++ [c] /\ ~ is_b32 c) ->
  exists q, In q (References (fst (rs_Write r0 d))) /\ hash_of q = hash_of p.
Proof.
  intros H0 Hp Hh Hd Ha. destruct (candidate_exists _ _ Hp) as [q Hq].
  assert (Eq : hash_of q = hash_of p) by (destruct Hq as (? & ? & _ & E & _); exact E).
  exists q. split; [|exact Eq]. apply (references_exact cands r0 d H0). rewrite Eq. split; [|exact Hq].
  split; [exact Hh|]. exists a, post. split; [exact Hd|]. exists a, [], 0. rewrite app_nil_r. repeat split; auto.
Qed.
