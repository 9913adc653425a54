(** C97: the shared buffers of the wire package. *)
From Coq Require Import Permutation.
From Verif Require Import Base.Bytes Base.BytesFacts Model.GoIO Model.Wire Model.WirePool Spec.WirePoolSpec Proof.WireFacts Proof.WirePoolFacts.
Ltac Zify.zify_post_hook ::= idtac.

(** In every interleaving, each goroutine's calls return what they return when it runs alone,
    and its reader and writer are as if it had run alone. *)
Theorem C97_as_alone : forall gs w, pruns (pstart gs) w -> Forall2 as_alone gs (snd w).
Proof.
  intros gs w H. destruct (runs_safe gs w H) as (_ & _ & L). clear H. revert L. generalize (m_buf (fst w)). intros h. generalize (snd w). intros ts L.
  induction L as [|g t gs ts LT LS IH]; [constructor|]. constructor; [exact (local_alone h g t LT)|exact IH].
Qed.
Print Assumptions C97_as_alone.
Theorem C97_finished : forall gs w i ops s k t, pruns (pstart gs) w -> nth_error gs i = Some (ops, s, k) -> nth_error (snd w) i = Some t -> finished t ->
  run_ops ops s k = (t_done t, t_src t, t_sink t).
Proof.
  intros gs w i ops s k t H G T (F1 & F2). pose proof (C97_as_alone gs w H) as A. assert (X : as_alone (ops, s, k) t).
  { clear H. revert i G T. induction A as [|g q gs ts AT AS IH]; intros [|i] G T; try discriminate; cbn [nth_error] in *; [congruence|eapply IH; eassumption]. }
  destruct X as (fin & E & D & R). rewrite F1, app_nil_r in E. subst fin. destruct (R F2) as (-> & ->). rewrite D. destruct (run_ops ops s k) as [[rs s1] w1]. reflexivity.
Qed.
Print Assumptions C97_finished.
(** No buffer is ever used by two goroutines, nor both used and in the pool. *)
Theorem C97_exclusive : forall gs w, pruns (pstart gs) w -> NoDup (concat (map holds (snd w)) ++ m_pool (fst w)).
Proof. intros gs w H. exact (proj1 (runs_safe gs w H)). Qed.
Print Assumptions C97_exclusive.
(** A goroutine with calls left can always go on ... *)
Theorem C97_progress : forall gs w a t b, pruns (pstart gs) w -> snd w = a ++ t :: b -> ~ finished t -> exists m' t', tstep (fst w) t m' t'.
Proof.
  intros gs w a t b H E NF. destruct (runs_safe gs w H) as (_ & _ & L). rewrite E in L. apply Forall2_app_inv_r in L. destruct L as (g1 & g2 & _ & L & _). inversion L as [|g ? ? ? LT _]; subst.
  exact (progress (fst w) g t LT NF).
Qed.
Print Assumptions C97_progress.
(** ... and is done after a number of its own steps that does not depend on the others. *)
Theorem C97_bounded : forall gs i k w ops s o, pruns_of i k (pstart gs) w -> nth_error gs i = Some (ops, s, o) -> k <= 24 * length ops + src_size s.
Proof.
  intros gs i k w ops s o H G.
  assert (X : exists t, nth_error (snd w) i = Some t /\ k + weight t <= 24 * length ops + src_size s).
  { remember (pstart gs) as u eqn:E. induction H as [w|k u m m' a t t' b R IH LA S|k u m m' a t t' b R IH LA S|k u h x l y n ts R IH].
    - subst w. exists (starts (ops, s, o)). unfold pstart. cbn [snd]. rewrite nth_error_map, G. split; [reflexivity|]. unfold weight. cbn [starts t_src t_pc t_ops]. lia.
    - destruct (IH E) as (q & Q & W). cbn [snd] in *. rewrite nth_error_app2 in * by lia. rewrite LA, Nat.sub_diag in *. cbn [nth_error] in *. injection Q as ->. exists t'. split; [reflexivity|]. pose proof (weight_step _ _ _ _ S). lia.
    - destruct (IH E) as (q & Q & W). cbn [snd] in *. exists q. split; [|exact W]. rewrite <- Q. destruct (Nat.lt_ge_cases i (length a)) as [L|L]; [rewrite !nth_error_app1 by exact L; reflexivity|].
      rewrite !nth_error_app2 by exact L. destruct (i - length a) as [|j] eqn:J; [lia|reflexivity].
    - exact (IH E). }
  destruct X as (t & _ & X). lia.
Qed.
Print Assumptions C97_bounded.

(** Two goroutines: one writes 1, the other reads a 2; the second call gets the first one's buffer back. *)
Definition src2 : src := Src [le64 2] EEOF false.
Definition two : list (list pool_op * src * sink) := [([OWrite 1], Src [] EEOF false, Sink [] []); ([ORead], src2, Sink [] [])].
Lemma reach_two : exists w, pruns (pstart two) w /\ Forall finished (snd w).
Proof.
  assert (FIN : forall n m gs (ts : list thread), (forall t, In t ts -> weight t <= n) -> length gs = length ts -> safe gs (m, ts) -> exists w, pruns (m, ts) w /\ Forall finished (snd w)).
  { assert (T : forall u v w, pruns v w -> pruns u v -> pruns u w) by (intros u v w H; induction H as [w0|v a b R IH S]; intros U; [exact U|]; exact (pruns_s _ _ _ (IH U) S)).
    assert (GO : forall k m gs ts, list_sum (map weight ts) <= k -> safe gs (m, ts) -> exists w, pruns (m, ts) w /\ Forall finished (snd w)).
    { induction k as [k IH] using lt_wf_ind. intros m gs ts LE SF.
      assert (D : Forall finished ts \/ exists a t b, ts = a ++ t :: b /\ ~ finished t).
      { clear. induction ts as [|t ts [F|(a & q & b & -> & N)]]; [left; constructor| |right; exists (t :: a), q, b; auto].
        assert (DT : finished t \/ ~ finished t) by (unfold finished; destruct t as [[|] [] ? ? ?]; cbn; ((left; split; reflexivity) || (right; intros (? & ?); discriminate))).
        destruct DT as [FT|NT]; [left; constructor; assumption|right; exists [], t, ts; auto]. }
      destruct D as [F|(a & t & b & -> & N)]; [exists (m, ts); split; [constructor|exact F]|].
      pose proof SF as (_ & _ & L). cbn [fst snd] in L. apply Forall2_app_inv_r in L. destruct L as (g1 & g2 & _ & L & _). inversion L as [|g ? ? ? LT _]; subst.
      destruct (progress m g t LT N) as (m' & t' & S). pose proof (weight_step _ _ _ _ S) as WS.
      assert (PS : pstep (m, a ++ t :: b) (m', a ++ t' :: b)) by (constructor; exact S).
      destruct (IH (list_sum (map weight (a ++ t' :: b))) ltac:(rewrite map_app, list_sum_app in *; cbn [map] in *; change (list_sum (weight t :: map weight b)) with (weight t + list_sum (map weight b)) in LE; change (list_sum (weight t' :: map weight b)) with (weight t' + list_sum (map weight b)); lia)
        m' _ (a ++ t' :: b) (le_n _) (step_safe _ _ _ PS SF)) as (w & R & F).
      exists w. split; [|exact F]. eapply T; [exact R|]. econstructor; [constructor|exact PS]. }
    intros n m gs ts _ _ SF. exact (GO _ m gs ts (le_n _) SF). }
  exact (FIN 1000 (fst (pstart two)) two (snd (pstart two)) ltac:(intros t [<-|[<-|[]]]; vm_compute; lia) eq_refl (start_safe two)).
Qed.
Example C97_nonvacuous : (exists w, pruns (pstart two) w /\ Forall finished (snd w)) /\
  run_ops [OWrite 1] (Src [] EEOF false) (Sink [] []) = ([RW None], Src [] EEOF false, Sink (le64 1) []) /\ fst (fst (run_ops [ORead] src2 (Sink [] []))) = [RR (Ok 2%N)].
Proof. split; [exact reach_two|]. split; vm_compute; reflexivity. Qed.
