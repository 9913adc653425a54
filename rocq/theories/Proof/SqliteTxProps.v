(** Invariant of the transactions of Model/SqliteTx.v (C115). *)
From Verif Require Import Base.Bytes Base.BytesFacts Model.GoIO Model.SqliteTx Spec.SqliteTxSpec.
Ltac Zify.zify_post_hook ::= idtac.

Lemma nth_set_nth {A} (x : A) : forall l n m, nth_error (set_nth n x l) m = if (m =? n) && (n <? length l) then Some x else nth_error l m.
Proof.
  induction l as [|a l IH]; intros n m; cbn [set_nth length].
  - rewrite (proj2 (Nat.ltb_ge n 0) (Nat.le_0_l n)), Bool.andb_false_r. destruct n; reflexivity.
  - destruct n as [|n]; destruct m as [|m]; cbn [nth_error Nat.eqb andb]; try reflexivity.
    exact (IH n m).
Qed.
Lemma len_set_nth {A} (x : A) : forall l n, length (set_nth n x l) = length l.
Proof. induction l as [|a l IH]; intros [|n]; cbn [set_nth length]; auto. Qed.

Section P.
Context {D O R : Type} (step : O -> D -> R * D).
Notation trace := (list (event O * outcome R)).

Lemma own_app n : forall a b : trace, own n (a ++ b) = own n a ++ own n b.
Proof.
  induction a as [|[e out] a IH]; intros b; [reflexivity|]. cbn [app own]. rewrite IH. destruct e as [|[m|] o f|tx|m f|m|]; try reflexivity. destruct out; try reflexivity.
  destruct (m =? n); reflexivity.
Qed.
Definition contrib (past : trace) (x : event O * outcome R) : list (O * R) :=
  match x with (EExec None o _, Ran r) => [(o, r)] | (ECommit n _, Done) => own n past | _ => [] end.
Lemma effects_app : forall tr past x, effects_after past (tr ++ [x]) = effects_after past tr ++ contrib (past ++ tr) x.
Proof.
  induction tr as [|y tr IH]; intros past x; cbn [app effects_after].
  - rewrite app_nil_r, app_nil_r. reflexivity.
  - rewrite IH, <- !app_assoc. reflexivity.
Qed.
Lemma effects_snoc tr x : effects (tr ++ [x]) = effects tr ++ contrib tr x.
Proof. apply (effects_app tr [] x). Qed.
Lemma replays_app : forall a b d d', replays step d (a ++ b) d' <-> exists d1, replays step d a d1 /\ replays step d1 b d'.
Proof.
  induction a as [|[o r] a IH]; intros b d d'; cbn [app replays].
  - split; [intros H; exists d; auto|intros (d1 & -> & H); exact H].
  - split.
    + intros (d1 & S & H). apply IH in H. destruct H as (d2 & H1 & H2). exists d2. split; [exists d1; auto|exact H2].
    + intros (d2 & (d1 & S & H1) & H2). exists d1. split; [exact S|]. apply IH. exists d2. auto.
Qed.
Lemma replays_snoc a d d1 o r d' : replays step d a d1 -> step o d1 = (r, d') -> replays step d (a ++ [(o, r)]) d'.
Proof. intros H S. apply replays_app. exists d1. split; [exact H|]. exists d'. split; [exact S|reflexivity]. Qed.

Lemma begins_app (a b : trace) : begins (a ++ b) = begins a + begins b.
Proof. unfold begins. rewrite filter_app, app_length. reflexivity. Qed.

Definition tx_ok (d0 : D) (tr : trace) (ws n : nat) (t : txn (D := D)) : Prop :=
  t_open t = true ->
  (t_alive t = true ->
     (t_dirty t = false -> own n tr = []) /\
     match t_snap t with
     | None => t_dirty t = false
     | Some (v, d) => v <= ws /\ (t_dirty t = true -> v = ws) /\
         exists tr1 tr2, tr = tr1 ++ tr2 /\ n < begins tr1 /\ replays step d0 (effects tr1 ++ own n tr) d /\ (v = ws -> effects tr1 = effects tr)
     end) /\
  (t_alive t = false -> exists o f, In (EExec (Some n) o f, Failed) tr).
Record inv (d0 : D) (tr : trace) (w : world D) : Prop := Inv {
  i_db : replays step d0 (effects tr) (w_db w);
  i_len : begins tr = length (w_txs w);
  i_new : forall n, length (w_txs w) <= n -> own n tr = [];
  i_tx : forall n t, nth_error (w_txs w) n = Some t -> tx_ok d0 tr (w_writes w) n t;
  i_lock : forall n m t u, nth_error (w_txs w) n = Some t -> nth_error (w_txs w) m = Some u -> holds_lock t = true -> holds_lock u = true -> n = m }.

Lemma tx_ok_quiet d0 tr ws n t x : contrib tr x = [] -> own n [x] = [] -> tx_ok d0 tr ws n t -> tx_ok d0 (tr ++ [x]) ws n t.
Proof.
  intros C N H T. destruct (H T) as [HA HD]. split.
  - intros A. destruct (HA A) as [H1 H2]. rewrite own_app, N, app_nil_r. split; [exact H1|]. destruct (t_snap t) as [[v d]|]; [|exact H2].
    destruct H2 as (V & VD & tr1 & tr2 & -> & NB & RP & EQ). split; [exact V|]. split; [exact VD|]. exists tr1, (tr2 ++ [x]). rewrite app_assoc.
    split; [reflexivity|]. split; [exact NB|]. split; [exact RP|]. intros E. rewrite effects_snoc, C, app_nil_r. exact (EQ E).
  - intros A. destruct (HD A) as (o & f & I). exists o, f. apply in_or_app. left. exact I.
Qed.
Lemma tx_ok_write d0 tr ws n t x : holds_lock t = false -> own n [x] = [] -> tx_ok d0 tr ws n t -> tx_ok d0 (tr ++ [x]) (S ws) n t.
Proof.
  intros L N H T. destruct (H T) as [HA HD]. split.
  - intros A. destruct (HA A) as [H1 H2]. rewrite own_app, N, app_nil_r. split; [exact H1|]. destruct (t_snap t) as [[v d]|]; [|exact H2].
    assert (DF : t_dirty t = false). { unfold holds_lock in L. rewrite T, A in L. exact L. }
    destruct H2 as (V & VD & tr1 & tr2 & -> & NB & RP & EQ). split; [lia|]. split; [congruence|]. exists tr1, (tr2 ++ [x]). rewrite app_assoc.
    split; [reflexivity|]. split; [exact NB|]. split; [exact RP|]. intros E. lia.
  - intros A. destruct (HD A) as (o & f & I). exists o, f. apply in_or_app. left. exact I.
Qed.
Lemma tx_ok_closed d0 tr ws n t : t_open t = false -> tx_ok d0 tr ws n t.
Proof. intros H T. congruence. Qed.
Lemma inv_quiet d0 tr w x : contrib tr x = [] -> (forall n, own n [x] = []) -> begins [x] = 0 -> inv d0 tr w -> inv d0 (tr ++ [x]) w.
Proof.
  intros C N B [I1 I2 I3 I4 I5]. constructor; [rewrite effects_snoc, C, app_nil_r; exact I1|rewrite begins_app, B; lia|..|exact I5].
  - intros n L. rewrite own_app, N, app_nil_r. exact (I3 n L).
  - intros n t H. apply tx_ok_quiet; auto.
Qed.
(** One transaction changes, nothing is written to the database. *)
Lemma inv_tx d0 tr w x n t : contrib tr x = [] -> (forall m, m <> n -> own m [x] = []) -> begins [x] = 0 -> n < length (w_txs w) -> inv d0 tr w ->
  tx_ok d0 (tr ++ [x]) (w_writes w) n t -> (holds_lock t = true -> forall m u, nth_error (w_txs w) m = Some u -> holds_lock u = true -> m = n) ->
  inv d0 (tr ++ [x]) (with_tx n t w).
Proof.
  intros C N B LN [I1 I2 I3 I4 I5] TX LK. unfold with_tx. assert (LT : (n <? length (w_txs w)) = true) by (apply Nat.ltb_lt; exact LN).
  constructor; cbn [w_db w_writes w_txs]; [rewrite effects_snoc, C, app_nil_r; exact I1|rewrite begins_app, B, len_set_nth; lia|..].
  - intros m L. rewrite len_set_nth in L. rewrite own_app, N by lia. rewrite app_nil_r. exact (I3 m L).
  - intros m u H. rewrite nth_set_nth, LT, Bool.andb_true_r in H. destruct (Nat.eqb_spec m n) as [->|NE]; [injection H as <-; exact TX|].
    apply tx_ok_quiet; auto.
  - intros m k u v Hm Hk Lu Lv. rewrite nth_set_nth, LT, Bool.andb_true_r in Hm, Hk.
    destruct (Nat.eqb_spec m n) as [->|Nm]; destruct (Nat.eqb_spec k n) as [->|Nk]; [reflexivity|..|exact (I5 _ _ _ _ Hm Hk Lu Lv)].
    + injection Hm as ->. symmetry. exact (LK Lu k v Hk Lv).
    + injection Hk as ->. exact (LK Lv m u Hm Lu).
Qed.
Lemma no_lock w : existsb (holds_lock (D := D)) (w_txs w) = false -> forall n t, nth_error (w_txs w) n = Some t -> holds_lock t = false.
Proof.
  intros H n t E. destruct (holds_lock t) eqn:L; [|reflexivity]. exfalso. assert (X : existsb holds_lock (w_txs w) = true); [|congruence].
  apply existsb_exists. exists t. split; [exact (nth_error_In _ _ E)|exact L].
Qed.
Lemma in_number {A} : forall (l : list A) k n t, nth_error l n = Some t -> In (k + n, t) (combine (seq k (length l)) l).
Proof.
  induction l as [|a l IH]; intros k n t H; [destruct n; discriminate|]. cbn [length seq combine]. destruct n as [|n]; cbn [nth_error] in H.
  - injection H as ->. left. rewrite Nat.add_0_r. reflexivity.
  - right. replace (k + S n) with (S k + n) by lia. exact (IH (S k) n t H).
Qed.
Lemma no_other (w : world D) n : others_lock n w = false -> forall m u, nth_error (w_txs w) m = Some u -> holds_lock u = true -> m = n.
Proof.
  intros H m u E L. destruct (Nat.eq_dec m n) as [->|NE]; [reflexivity|]. exfalso. assert (X : others_lock n w = true); [|congruence].
  unfold others_lock. apply existsb_exists. exists (m, u). split; [exact (in_number (w_txs w) 0 m u E)|]. cbn [fst snd]. rewrite (proj2 (Nat.eqb_neq m n) NE), L. reflexivity.
Qed.
Lemma stops_prefix (tr : trace) x : stops_at_failure (tr ++ [x]) -> stops_at_failure tr.
Proof.
  intros H tr1 tr2 n o f o' f' out E I. apply (H tr1 (tr2 ++ [x]) n o f o' f' out); [rewrite E, <- app_assoc; reflexivity|]. apply in_or_app. left. exact I.
Qed.
Lemma stopped (tr : trace) n o f out : stops_at_failure (tr ++ [(EExec (Some n) o f, out)]) -> forall o1 f1, ~ In (EExec (Some n) o1 f1, Failed) tr.
Proof.
  intros H o1 f1 I. apply in_split in I. destruct I as (a & b & ->). apply (H a (b ++ [(EExec (Some n) o f, out)]) n o1 f1 o f out); [rewrite <- app_assoc; reflexivity|].
  apply in_or_app. right. left. reflexivity.
Qed.

Lemma snap_ok d0 tr w n t : inv d0 tr w -> nth_error (w_txs w) n = Some t -> t_open t = true -> t_alive t = true ->
  let '(v, d) := snap t w in v <= w_writes w /\ (t_dirty t = true -> v = w_writes w) /\
  exists tr1 tr2, tr = tr1 ++ tr2 /\ n < begins tr1 /\ replays step d0 (effects tr1 ++ own n tr) d /\ (v = w_writes w -> effects tr1 = effects tr).
Proof.
  intros [I1 I2 I3 I4 I5] E T A. destruct (I4 n t E T) as [HA _]. destruct (HA A) as [H1 H2]. unfold snap. destruct (t_snap t) as [[v d]|]; [exact H2|].
  rewrite (H1 H2). split; [lia|]. split; [reflexivity|]. exists tr, []. rewrite !app_nil_r. split; [reflexivity|]. split; [|auto].
  rewrite I2. apply nth_error_Some. congruence.
Qed.
Lemma closed_inv d0 tr w x n : contrib tr x = [] -> (forall m, own m [x] = []) -> begins [x] = 0 -> n < length (w_txs w) -> inv d0 tr w ->
  inv d0 (tr ++ [x]) (with_tx n (Txn false false false None) w).
Proof. intros C N B L I. apply inv_tx; auto. - apply tx_ok_closed. reflexivity. - intros H. discriminate. Qed.

Lemma happen_inv d0 tr w e out w' : inv d0 tr w -> happen step e w = (out, w') -> stops_at_failure (tr ++ [(e, out)]) -> inv d0 (tr ++ [(e, out)]) w'.
Proof.
  intros I H ST. destruct e as [|[n|] o f|[n|]|n f|n|]; cbn [happen handle WithTx New q_db] in H.
  - (* Begin *) injection H as <- <-. destruct I as [I1 I2 I3 I4 I5]. constructor; cbn [w_db w_writes w_txs].
    + rewrite effects_snoc. cbn [contrib]. rewrite app_nil_r. exact I1.
    + rewrite begins_app, app_length, I2. reflexivity.
    + intros m L. rewrite app_length in L. cbn [length] in L. rewrite own_app. cbn [own]. rewrite app_nil_r. apply I3. lia.
    + intros m t E. destruct (Nat.lt_ge_cases m (length (w_txs w))) as [L|L].
      * rewrite nth_error_app1 in E by exact L. apply tx_ok_quiet; [reflexivity..|]. exact (I4 m t E).
      * rewrite nth_error_app2 in E by exact L. destruct (m - length (w_txs w)) as [|k] eqn:K; cbn [nth_error] in E; [|destruct k; discriminate]. injection E as <-.
        intros _. split; [|discriminate]. intros _. cbn [t_dirty t_snap begun]. split; [|reflexivity]. intros _. rewrite own_app, (I3 m) by lia. reflexivity.
    + assert (NL : forall k v, nth_error (w_txs w ++ [begun]) k = Some v -> holds_lock v = true -> nth_error (w_txs w) k = Some v).
      { intros k v E L. destruct (Nat.lt_ge_cases k (length (w_txs w))) as [LT|GE]; [rewrite nth_error_app1 in E by exact LT; exact E|].
        rewrite nth_error_app2 in E by exact GE. destruct (k - length (w_txs w)) as [|j]; cbn [nth_error] in E; [|destruct j; discriminate]. injection E as <-. discriminate. }
      intros m k t u Hm Hk Lt Lu. exact (I5 m k t u (NL _ _ Hm Lt) (NL _ _ Hk Lu) Lt Lu).
  - (* statement of a transaction *) cbn [exec] in H. destruct (nth_error (w_txs w) n) as [t|] eqn:E; [|injection H as <- <-; apply inv_quiet; auto].
    assert (LN : n < length (w_txs w)) by (apply nth_error_Some; congruence).
    destruct (t_open t) eqn:T; cbn [negb] in H; [|injection H as <- <-; apply inv_quiet; auto].
    destruct (t_alive t) eqn:A; cbn [negb] in H.
    2:{ destruct (i_tx _ _ _ I n t E T) as [_ HD]. destruct (HD A) as (o1 & f1 & F). exfalso. exact (stopped tr n o f out ST o1 f1 F). }
    pose proof (snap_ok d0 tr w n t I E T A) as S. destruct f.
    + destruct (snap t w) as [v d]. destruct S as (V & VD & tr1 & tr2 & EQ & NB & RP & ES).
      destruct (others_lock n w || negb (v =? w_writes w)) eqn:B.
      * injection H as <- <-. apply inv_tx; auto.
        -- intros _. cbn [t_alive t_snap t_dirty]. split; [|discriminate]. intros _. rewrite own_app. cbn [own]. rewrite app_nil_r. split; [apply (proj1 (proj1 (i_tx _ _ _ I n t E T) A))|].
           split; [exact V|]. split; [exact VD|]. exists tr1, (tr2 ++ [(EExec (Some n) o Fine, Failed)]). rewrite app_assoc, <- EQ. split; [reflexivity|]. split; [exact NB|]. split; [exact RP|].
           intros X. rewrite effects_snoc. cbn [contrib]. rewrite app_nil_r. exact (ES X).
        -- intros L m u Hm Lu. apply (i_lock _ _ _ I m n u t Hm E Lu). unfold holds_lock in *. cbn [t_open t_alive t_dirty andb] in L. rewrite T, A, L. reflexivity.
      * apply Bool.orb_false_iff in B. destruct B as [OL VV]. apply Bool.negb_false_iff, Nat.eqb_eq in VV. destruct (step o d) as [r d'] eqn:SO. injection H as <- <-. apply inv_tx; auto.
        -- intros m NE. cbn [own]. rewrite (proj2 (Nat.eqb_neq n m)) by congruence. reflexivity.
        -- intros _. cbn [t_alive t_snap t_dirty]. split; [|discriminate]. intros _. split; [discriminate|]. split; [exact V|]. split; [intros _; exact VV|].
           exists tr1, (tr2 ++ [(EExec (Some n) o Fine, Ran r)]). rewrite app_assoc, <- EQ. split; [reflexivity|]. split; [exact NB|]. split.
           ++ rewrite own_app. cbn [own]. rewrite Nat.eqb_refl. rewrite app_assoc. exact (replays_snoc _ _ _ _ _ _ RP SO).
           ++ intros _. rewrite effects_snoc. cbn [contrib]. rewrite app_nil_r. exact (ES VV).
        -- intros _ m u Hm Lu. exact (no_other w n OL m u Hm Lu).
    + injection H as <- <-. apply inv_quiet; auto.
    + injection H as <- <-. apply inv_tx; auto; [|discriminate]. intros _. split; [discriminate|]. intros _. exists o, FailsAndRollsBack. apply in_or_app. right. left. reflexivity.
  - (* statement on its own *) cbn [exec] in H. unfold alone in H. destruct f; try (injection H as <- <-; apply inv_quiet; auto).
    destruct (existsb holds_lock (w_txs w)) eqn:L; [injection H as <- <-; apply inv_quiet; auto|]. destruct (step o (w_db w)) as [r d'] eqn:SO. injection H as <- <-.
    destruct I as [I1 I2 I3 I4 I5]. constructor; cbn [w_db w_writes w_txs].
    + rewrite effects_snoc. exact (replays_snoc _ _ _ _ _ _ I1 SO).
    + rewrite begins_app, I2. cbn. lia.
    + intros m LM. rewrite own_app. cbn [own]. rewrite app_nil_r. exact (I3 m LM).
    + intros m t E. apply tx_ok_write; [exact (no_lock w L m t E)|reflexivity|exact (I4 m t E)].
    + exact I5.
  - (* query in a transaction *) cbn [query] in H. destruct (nth_error (w_txs w) n) as [t|] eqn:E; [|injection H as <- <-; apply inv_quiet; auto].
    assert (LN : n < length (w_txs w)) by (apply nth_error_Some; congruence).
    destruct (t_open t) eqn:T; cbn [negb] in H; [|injection H as <- <-; apply inv_quiet; auto].
    destruct (t_alive t) eqn:A; cbn [negb] in H; [|injection H as <- <-; apply inv_quiet; auto].
    pose proof (snap_ok d0 tr w n t I E T A) as S. destruct (snap t w) as [v d] eqn:SN. destruct S as (V & VD & tr1 & tr2 & EQ & NB & RP & ES). injection H as <- <-. apply inv_tx; auto.
    + intros _. cbn [t_alive t_snap t_dirty]. split; [|discriminate]. intros _. rewrite own_app. cbn [own]. rewrite app_nil_r. split; [apply (proj1 (proj1 (i_tx _ _ _ I n t E T) A))|].
      split; [exact V|]. split; [exact VD|]. eexists tr1, (tr2 ++ [_]). rewrite app_assoc, <- EQ. split; [reflexivity|]. split; [exact NB|]. split; [exact RP|].
      intros X. rewrite effects_snoc. cbn [contrib]. rewrite app_nil_r. exact (ES X).
    + intros L m u Hm Lu. apply (i_lock _ _ _ I m n u t Hm E Lu). unfold holds_lock in *. cbn [t_open t_alive t_dirty andb] in L. rewrite T, A, L. reflexivity.
  - (* query on its own *) injection H as <- <-. apply inv_quiet; auto.
  - (* Commit *) unfold commit in H. destruct (nth_error (w_txs w) n) as [t|] eqn:E; [|injection H as <- <-; apply inv_quiet; auto].
    assert (LN : n < length (w_txs w)) by (apply nth_error_Some; congruence).
    destruct (t_open t) eqn:T; cbn [negb] in H; [|injection H as <- <-; apply inv_quiet; auto].
    destruct (t_alive t) eqn:A; cbn [negb] in H; [|injection H as <- <-; apply closed_inv; auto].
    destruct f; try (injection H as <- <-; apply closed_inv; auto).
    destruct (t_dirty t) eqn:DT.
    + pose proof (snap_ok d0 tr w n t I E T A) as S. destruct (snap t w) as [v d] eqn:SN. destruct S as (V & VD & tr1 & tr2 & EQ & NB & RP & ES). injection H as <- <-. cbn [snd].
      assert (LK : holds_lock t = true) by (unfold holds_lock; rewrite T, A, DT; reflexivity).
      specialize (VD DT). rewrite (ES VD) in RP. assert (LT : (n <? length (w_txs w)) = true) by (apply Nat.ltb_lt; exact LN).
      destruct I as [I1 I2 I3 I4 I5]. constructor; cbn [w_db w_writes w_txs].
      * rewrite effects_snoc. exact RP.
      * rewrite begins_app, len_set_nth, I2. cbn. lia.
      * intros m LM. rewrite len_set_nth in LM. rewrite own_app. cbn [own]. rewrite app_nil_r. exact (I3 m LM).
      * intros m u Hm. rewrite nth_set_nth, LT, Bool.andb_true_r in Hm. destruct (Nat.eqb_spec m n) as [->|NE]; [injection Hm as <-; apply tx_ok_closed; reflexivity|].
        apply tx_ok_write; [|reflexivity|exact (I4 m u Hm)]. destruct (holds_lock u) eqn:LU; [|reflexivity]. exfalso. apply NE. exact (I5 m n u t Hm E LU LK).
      * intros m k u u' Hm Hk Lu Lu'. rewrite nth_set_nth, LT, Bool.andb_true_r in Hm, Hk.
        destruct (Nat.eqb_spec m n) as [->|Nm]; [injection Hm as <-; discriminate|]. destruct (Nat.eqb_spec k n) as [->|Nk]; [injection Hk as <-; discriminate|].
        exact (I5 _ _ _ _ Hm Hk Lu Lu').
    + injection H as <- <-. apply closed_inv; auto. cbn [contrib]. exact (proj1 (proj1 (i_tx _ _ _ I n t E T) A) DT).
  - (* Rollback *) unfold rollback in H. destruct (nth_error (w_txs w) n) as [t|] eqn:E; [|injection H as <- <-; apply inv_quiet; auto].
    assert (LN : n < length (w_txs w)) by (apply nth_error_Some; congruence).
    destruct (t_open t) eqn:T; injection H as <- <-; [apply closed_inv; auto|apply inv_quiet; auto].
  - (* crash *) injection H as <- <-. destruct I as [I1 I2 I3 I4 I5].
    assert (CL : forall m u, nth_error (map (fun _ : txn => Txn false false false (None : option (nat * D))) (w_txs w)) m = Some u -> u = Txn false false false None).
    { intros m u Hm. apply nth_error_In, in_map_iff in Hm. destruct Hm as (? & <- & _). reflexivity. }
    constructor; cbn [w_db w_writes w_txs].
    + rewrite effects_snoc. cbn [contrib]. rewrite app_nil_r. exact I1.
    + rewrite begins_app, map_length, I2. cbn. lia.
    + intros m L. rewrite map_length in L. rewrite own_app. cbn [own]. rewrite app_nil_r. exact (I3 m L).
    + intros m u Hm. rewrite (CL m u Hm). apply tx_ok_closed. reflexivity.
    + intros m k u u' Hm Hk Lu. rewrite (CL m u Hm) in Lu. discriminate.
Qed.

Lemma run_snoc es e d : tx_run step (es ++ [e]) d = let '(out, w') := happen step e (snd (tx_run step es d)) in (fst (tx_run step es d) ++ [(e, out)], w').
Proof. unfold tx_run. rewrite fold_left_app. reflexivity. Qed.
Lemma tx_run_inv d0 : forall es, stops_at_failure (fst (tx_run step es d0)) -> inv d0 (fst (tx_run step es d0)) (snd (tx_run step es d0)).
Proof.
  induction es as [|e es IH] using rev_ind; intros ST.
  - constructor; cbn; auto.
    + intros n t H. destruct n; discriminate.
    + intros n m t u H. destruct n; discriminate.
  - rewrite run_snoc in *. destruct (happen step e (snd (tx_run step es d0))) as [out w'] eqn:H. cbn [fst snd] in *.
    apply (happen_inv d0 _ _ e out w' (IH (stops_prefix _ _ ST)) H ST).
Qed.

Definition closed (n : nat) (w : world D) : Prop := exists t, nth_error (w_txs w) n = Some t /\ t_open t = false.
Lemma closed_tx n m t w : closed n w -> (m = n -> t_open t = false) -> closed n (with_tx m t w).
Proof.
  intros (u & E & C) H. unfold closed, with_tx. cbn [w_txs]. rewrite nth_set_nth. destruct (Nat.eqb_spec n m) as [->|NE]; cbn [andb]; [|exists u; auto].
  destruct (m <? length (w_txs w)); [exists t; auto|exists u; auto].
Qed.
Lemma happen_closed n e w out w' : closed n w -> happen step e w = (out, w') -> closed n w'.
Proof.
  intros C H. assert (NO : forall m t, nth_error (w_txs w) m = Some t -> t_open t = true -> m <> n). { intros m t E T ->. destruct C as (u & E' & F). congruence. }
  destruct e as [|[m|] o f|[m|]|m f|m|]; cbn [happen handle WithTx New q_db] in H.
  - injection H as <- <-. destruct C as (t & E & F). exists t. cbn [w_txs]. split; [|exact F]. rewrite nth_error_app1; [exact E|]. apply nth_error_Some. congruence.
  - cbn [exec] in H. destruct (nth_error (w_txs w) m) as [t|] eqn:E; [|injection H as <- <-; exact C]. destruct (t_open t) eqn:T; cbn [negb] in H; [|injection H as <- <-; exact C].
    specialize (NO m t E T). destruct (t_alive t); cbn [negb] in H.
    + destruct f; [|injection H as <- <-; exact C|injection H as <- <-; apply closed_tx; [exact C|contradiction]].
      destruct (snap t w) as [v d]. destruct (_ || _); [injection H as <- <-; apply closed_tx; [exact C|contradiction]|].
      destruct (step o d). injection H as <- <-. apply closed_tx; [exact C|contradiction].
    + unfold alone in H. destruct f; try (injection H as <- <-; exact C). destruct (existsb _ _); [injection H as <- <-; exact C|]. destruct (step o (w_db w)). injection H as <- <-. exact C.
  - cbn [exec] in H. unfold alone in H. destruct f; try (injection H as <- <-; exact C). destruct (existsb _ _); [injection H as <- <-; exact C|]. destruct (step o (w_db w)). injection H as <- <-. exact C.
  - cbn [query] in H. destruct (nth_error (w_txs w) m) as [t|] eqn:E; [|injection H as <- <-; exact C]. destruct (t_open t) eqn:T; cbn [negb] in H; [|injection H as <- <-; exact C].
    destruct (t_alive t); injection H as <- <-; [apply closed_tx; [exact C|intros ->; destruct (NO n t E T eq_refl)]|exact C].
  - injection H as <- <-. exact C.
  - unfold commit in H. destruct (nth_error (w_txs w) m) as [t|] eqn:E; [|injection H as <- <-; exact C]. destruct (t_open t) eqn:T; cbn [negb] in H; [|injection H as <- <-; exact C].
    destruct (t_alive t); cbn [negb] in H; [destruct f; [destruct (t_dirty t)|..]|]; injection H as <- <-; try (apply closed_tx; [exact C|reflexivity]).
  - unfold rollback in H. destruct (nth_error (w_txs w) m) as [t|] eqn:E; [|injection H as <- <-; exact C]. destruct (t_open t); injection H as <- <-; [apply closed_tx; [exact C|reflexivity]|exact C].
  - injection H as <- <-. destruct C as (t & E & F). exists (Txn false false false None). cbn [w_txs]. split; [|reflexivity]. rewrite nth_error_map, E. reflexivity.
Qed.
Lemma finish_closed n e w out w' : (exists f, e = ECommit n f) \/ e = ERollback n -> n < length (w_txs w) -> happen step e w = (out, w') -> closed n w'.
Proof.
  intros HE L H. destruct (nth_error (w_txs w) n) as [t|] eqn:E; [|apply nth_error_None in E; lia]. assert (LT : (n <? length (w_txs w)) = true) by (apply Nat.ltb_lt; exact L).
  assert (CL : forall u, t_open u = false -> closed n (with_tx n u w)).
  { intros u F. exists u. unfold with_tx. cbn [w_txs]. rewrite nth_set_nth, Nat.eqb_refl, LT. auto. }
  assert (CO : t_open t = false -> closed n w) by (intros F; exists t; auto).
  destruct HE as [(f & ->)| ->]; cbn [happen] in H.
  - unfold commit in H. rewrite E in H. destruct (t_open t) eqn:T; cbn [negb] in H; [|injection H as <- <-; auto].
    destruct (t_alive t); cbn [negb] in H; [destruct f; [destruct (t_dirty t)|..]|]; injection H as <- <-; try (apply CL; reflexivity).
  - unfold rollback in H. rewrite E in H. destruct (t_open t) eqn:T; injection H as <- <-; auto.
Qed.
Lemma run_app es1 es2 s : fold_left (fun (s : list (event O * outcome R) * world D) e => let '(out, w') := happen step e (snd s) in (fst s ++ [(e, out)], w')) (es1 ++ es2) s =
  fold_left (fun s e => let '(out, w') := happen step e (snd s) in (fst s ++ [(e, out)], w')) es2 (fold_left (fun s e => let '(out, w') := happen step e (snd s) in (fst s ++ [(e, out)], w')) es1 s).
Proof. apply fold_left_app. Qed.
Lemma run_closed n d : forall es2 es1, closed n (snd (tx_run step es1 d)) -> closed n (snd (tx_run step (es1 ++ es2) d)).
Proof.
  induction es2 as [|e es2 IH]; intros es1 C; [rewrite app_nil_r; exact C|]. replace (es1 ++ e :: es2) with ((es1 ++ [e]) ++ es2) by (rewrite <- app_assoc; reflexivity). apply IH.
  rewrite run_snoc. destruct (happen step e (snd (tx_run step es1 d))) as [out w'] eqn:H. cbn [snd]. exact (happen_closed n e _ out w' C H).
Qed.
Lemma begins_run d : forall es, begins (fst (tx_run step es d)) = length (w_txs (snd (tx_run step es d))).
Proof.
  induction es as [|e es IH] using rev_ind; [reflexivity|]. rewrite run_snoc. set (w := snd (tx_run step es d)) in *.
  destruct (happen step e w) as [out w'] eqn:H. cbn [fst snd]. rewrite begins_app, IH.
  assert (K : forall o f x y, alone step o f w = (x, y) -> length (w_txs y) = length (w_txs w)).
  { intros o f x y K. unfold alone in K. destruct f; try (injection K as <- <-; reflexivity). destruct (existsb _ _); [injection K as <- <-; reflexivity|]. destruct (step o (w_db w)). injection K as <- <-. reflexivity. }
  assert (W : forall n t, length (w_txs (with_tx n t w)) = length (w_txs w)) by (intros; apply len_set_nth).
  destruct e as [|[m|] o f|[m|]|m f|m|]; cbn [happen handle WithTx New q_db] in H; cbn [begins filter fst length].
  - injection H as <- <-. cbn [w_txs]. rewrite app_length. reflexivity.
  - cbn [exec] in H. enough (X : length (w_txs w') = length (w_txs w)) by (cbn; lia). destruct (nth_error (w_txs w) m) as [t|]; [|injection H as <- <-; reflexivity]. destruct (t_open t); cbn [negb] in H; [|injection H as <- <-; reflexivity].
    destruct (t_alive t); cbn [negb] in H; [|exact (K _ _ _ _ H)]. destruct f; [|injection H as <- <-; reflexivity|injection H as <- <-; apply W].
    destruct (snap t w) as [v x]. destruct (_ || _); [injection H as <- <-; apply W|]. destruct (step o x). injection H as <- <-. apply W.
  - cbn [exec] in H. rewrite (K _ _ _ _ H). cbn. lia.
  - cbn [query] in H. enough (X : length (w_txs w') = length (w_txs w)) by (cbn; lia). destruct (nth_error (w_txs w) m) as [t|]; [|injection H as <- <-; reflexivity]. destruct (t_open t); cbn [negb] in H; [|injection H as <- <-; reflexivity].
    destruct (t_alive t); injection H as <- <-; [apply W|reflexivity].
  - injection H as <- <-. cbn. lia.
  - enough (X : length (w_txs w') = length (w_txs w)) by (cbn; lia). unfold commit in H. destruct (nth_error (w_txs w) m) as [t|]; [|injection H as <- <-; reflexivity]. destruct (t_open t); cbn [negb] in H; [|injection H as <- <-; reflexivity].
    destruct (t_alive t); cbn [negb] in H; [destruct f; [destruct (t_dirty t)|..]|]; injection H as <- <-; try apply W.
  - enough (X : length (w_txs w') = length (w_txs w)) by (cbn; lia). unfold rollback in H. destruct (nth_error (w_txs w) m) as [t|]; [|injection H as <- <-; reflexivity]. destruct (t_open t); injection H as <- <-; [apply W|reflexivity].
  - injection H as <- <-. cbn [w_txs]. rewrite map_length. cbn. lia.
Qed.
End P.
