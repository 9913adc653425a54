(** Concurrent Puts on the BadgerStore are linearisable (C96). *)
From Verif Require Import Base.Bytes Base.BytesFacts Model.GoIO Model.GoStd Model.Nixhash Model.Storepath Model.Derivation Model.DrvParser Model.DrvStore
  Spec.StorePathSpec Spec.DerivationSpec Spec.StoreSpec Proof.DrvEncode Proof.DrvText Proof.DrvHash Proof.StoreMap Proof.StoreBadger.
Ltac Zify.zify_post_hook ::= idtac.

Section Sha.
Variable sha : bytes -> bytes.
Variable H : list drv.
Hypothesis WF : Forall wf_maps H.
Hypothesis NC : one_drv_a_path sha H.

(** The database is what sequential Puts of derivations in [H] leave. *)
Inductive seq_db : db -> list drv -> Prop :=
| seq_nil : seq_db [] []
| seq_snoc b l d p t x : seq_db b l -> In d H -> badger_Put sha b d true = (Ok p, b ++ [entry p t x]) -> seq_db (b ++ [entry p t x]) (l ++ [d]).
Lemma put_ok b d c p b' : badger_Put sha b d c = (Ok p, b') ->
  exists repl t x, b' = b ++ [entry p t x] /\ c = true /\ validateDerivationInStore d (badger_Has b) = Ok tt /\ load_replacements b (mkeys (d_inputs d)) = Ok repl /\
     checkOutputPaths sha d repl = Ok tt /\ DrvPath sha d = Ok p /\ drv_bytes d false [] = Ok t /\ CalculateDrvReplacement sha d repl = Ok x.
Proof.
  intros E. destruct (bput_cases sha b d c) as [(repl & q & t & x & E' & A)|(_ & E')]; [|rewrite E in E'; discriminate].
  rewrite E in E'. injection E' as <- ->. exists repl, t, x. split; [reflexivity|exact A].
Qed.
(** Replacement strings do not change once they are there. *)
Definition keeps (b b' : db) : Prop := forall q v, mget (content b) (repl_key q) = Some v -> mget (content b') (repl_key q) = Some v.
Lemma entry_inj b p t x p' t' x' : b ++ [entry p t x] = b ++ [entry p' t' x'] -> p = p' /\ t = t' /\ x = x'.
Proof.
  intros E. apply app_inv_head in E. assert (E1 : entry p t x = entry p' t' x') by congruence. unfold entry in E1.
  assert (A : drv_key p = drv_key p') by congruence. apply drv_key_inj in A. split; [exact A|]. split; congruence.
Qed.
Lemma load_keeps b b' l repl : keeps b b' -> load_replacements b l = Ok repl -> load_replacements b' l = Ok repl.
Proof. intros K. destruct l as [|p l]; [auto|]. cbn [load_replacements]. destruct (mget (content b) (repl_key p)) as [v|] eqn:E; [|discriminate]. rewrite (K p v E). auto. Qed.
Lemma fixed_or_one b d c p b' : In d H -> badger_Put sha b d c = (Ok p, b') -> is_fixed d \/ length (d_inputs d) <= 1.
Proof.
  intros I E. destruct (le_lt_dec (length (d_inputs d)) 1) as [L|L]; [right; exact L|left]. rewrite Forall_forall in WF. specialize (WF d I).
  destruct (d_outputs d) as [|[n o] [|no l]] eqn:D.
  3: { exfalso. assert (NF : ~ is_fixed d) by (intros (o' & D' & _); rewrite D in D'; discriminate). pose proof (badger_two_inputs sha b d c WF L NF) as X. rewrite E in X. discriminate. }
  1: { exfalso. assert (NF : ~ is_fixed d) by (intros (o' & D' & _); rewrite D in D'; discriminate). pose proof (badger_two_inputs sha b d c WF L NF) as X. rewrite E in X. discriminate. }
  destruct (beq_spec n (bs "out")) as [->|Ne]; [destruct (bytes_eq_dec (o_algo o) []) as [A|A]|].
  - exfalso. assert (NF : ~ is_fixed d). { intros (o' & D' & F). rewrite D in D'. assert (o' = o) by congruence. subst o'. apply F. exact A. }
    pose proof (badger_two_inputs sha b d c WF L NF) as X. rewrite E in X. discriminate.
  - exists o. split; [exact D|exact A].
  - exfalso. assert (NF : ~ is_fixed d). { intros (o' & D' & F). rewrite D in D'. congruence. }
    pose proof (badger_two_inputs sha b d c WF L NF) as X. rewrite E in X. discriminate.
Qed.
Lemma same_one {A B} (m m' : list (A * B)) : Permutation m m' -> length m <= 1 -> m = m'.
Proof.
  intros P L. destruct m as [|x [|y m]]; [apply Permutation_nil in P; congruence|apply Permutation_length_1_inv in P; congruence|cbn [length] in L; lia].
Qed.
Lemma same_small d e repl : wf_maps d -> same_drv d e -> is_fixed d \/ length (d_inputs d) <= 1 -> CalculateDrvReplacement sha d repl = CalculateDrvReplacement sha e repl.
Proof.
  intros W S [F|L].
  - assert (FE : is_fixed e). { destruct F as (o & D & A), S as (_ & P & _). rewrite D in P. apply Permutation_length_1_inv in P. exists o. auto. }
    rewrite (fixed_repl sha d repl [] F), (fixed_repl sha e repl [] FE). apply Repl_same; [exact W|exact S|]. intros p q a b x _ _ X. discriminate X.
  - apply Repl_same; [exact W|exact S|]. intros p q a b x Hp Hq _ _. destruct (d_inputs d) as [|pa [|qb l]]; [contradiction|destruct Hp as [->|[]], Hq as [E|[]]; congruence|cbn [length] in L; lia].
Qed.
Lemma seq_keeps b l : seq_db b l -> forall d p t x, In d H -> badger_Put sha b d true = (Ok p, b ++ [entry p t x]) ->
  (forall y, mget (content b) (repl_key p) = Some y -> y = x) /\
  (forall q v, mget (content b) (repl_key q) = Some v -> exists b0 l0 e t0, seq_db b0 l0 /\ keeps b0 b /\ In e H /\ badger_Put sha b0 e true = (Ok q, b0 ++ [entry q t0 v])).
Proof.
  induction 1 as [|b l e q u z S IH Ie PE]; intros d p t x I E.
  - split; intros; discriminate.
  - destruct (IH e q u z Ie PE) as (SAME & ORI).
    assert (K : keeps b (b ++ [entry q u z])).
    { intros k v G. rewrite get_repl. destruct (beq_spec q k) as [<-|Ne]; [|exact G]. f_equal. symmetry. apply SAME. exact G. }
    assert (ORI' : forall q0 v, mget (content (b ++ [entry q u z])) (repl_key q0) = Some v -> exists b0 l0 e0 t0, seq_db b0 l0 /\ keeps b0 (b ++ [entry q u z]) /\ In e0 H /\ badger_Put sha b0 e0 true = (Ok q0, b0 ++ [entry q0 t0 v])).
    { intros k v G. rewrite get_repl in G. destruct (beq_spec q k) as [<-|Ne].
      - injection G as <-. exists b, l, e, u. auto.
      - destruct (ORI k v G) as (b0 & l0 & e0 & t0 & A1 & A2 & A3 & A4). exists b0, l0, e0, t0. split; [exact A1|]. split; [|auto]. intros k' v' G'. apply K, A2, G'. }
    split; [|exact ORI']. intros y G. destruct (ORI' p y G) as (b0 & l0 & e0 & t0 & S0 & K0 & I0 & E0).
    destruct (put_ok _ _ _ _ _ E0) as (repl0 & t0' & y' & EQ0 & _ & _ & L0 & _ & P0 & _ & C0). destruct (entry_inj _ _ _ _ _ _ _ EQ0) as (_ & _ & <-).
    destruct (put_ok _ _ _ _ _ E) as (repl & t1 & x' & EQ & _ & _ & L1 & _ & P1 & _ & C1). destruct (entry_inj _ _ _ _ _ _ _ EQ) as (_ & _ & <-).
    pose proof (NC e0 d I0 I (eq_trans P0 (eq_sym P1))) as SD.
    assert (SC : forall r, CalculateDrvReplacement sha e0 r = CalculateDrvReplacement sha d r).
    { intros r. apply same_small; [rewrite Forall_forall in WF; exact (WF e0 I0)|exact SD|exact (fixed_or_one _ _ _ _ _ I0 E0)]. }
    destruct (fixed_or_one _ _ _ _ _ I E) as [F|LN].
    + rewrite (fixed_repl sha d repl repl0 F), <- SC in C1. congruence.
    + destruct SD as (_ & _ & _ & SI & _). apply Permutation_sym in SI. pose proof (same_one _ _ SI LN) as EQI. rewrite <- EQI in L0. apply (load_keeps _ _ _ _ K0) in L0. rewrite L0 in L1. injection L1 as <-. rewrite SC in C0. congruence.
Qed.
Lemma seq_keep b l d p t x : seq_db b l -> In d H -> badger_Put sha b d true = (Ok p, b ++ [entry p t x]) -> keeps b (b ++ [entry p t x]).
Proof.
  intros S I E k v G. rewrite get_repl. destruct (beq_spec p k) as [<-|Ne]; [|exact G]. f_equal. symmetry. exact (proj1 (seq_keeps b l S d p t x I E) v G).
Qed.

(** * Calls *)
Definition lin_call (b : db) (c : put_state) : Prop :=
  match c with
  | PChecking d todo => In d H /\ drv_Validate d = Ok tt /\ exists done, mkeys (d_inputs d) = done ++ todo /\ forall q, In q done -> mget (content b) (drv_key q) <> None
  | PLoading d => In d H /\ validateDerivationInStore d (badger_Has b) = Ok tt
  | PCommitting d repl => In d H /\ validateDerivationInStore d (badger_Has b) = Ok tt /\ load_replacements b (mkeys (d_inputs d)) = Ok repl
  | PReturned _ => True
  end.
Lemma has_mono b p t x k : badger_Has b k = Ok true -> badger_Has (b ++ [entry p t x]) k = Ok true.
Proof.
  rewrite !badger_has. intros E. f_equal. assert (E' : mhas (content b) (drv_key k) = true) by congruence. apply mhas_key in E'. apply mhas_key. apply get_mono. exact E'.
Qed.
Lemma valid_mono b p t x d : validateDerivationInStore d (badger_Has b) = Ok tt -> validateDerivationInStore d (badger_Has (b ++ [entry p t x])) = Ok tt.
Proof. intros V. apply validate_in_ok in V. destruct V as (V1 & V2). apply validate_in_ok. split; [exact V1|]. intros q Hq. apply has_mono, V2, Hq. Qed.
Lemma lin_mono b p t x c : keeps b (b ++ [entry p t x]) -> lin_call b c -> lin_call (b ++ [entry p t x]) c.
Proof.
  intros K. destruct c as [d todo|d|d repl|r]; cbn [lin_call]; [| | |auto].
  - intros (I & V & done & E & F). split; [exact I|]. split; [exact V|]. exists done. split; [exact E|]. intros q Hq. apply get_mono, F, Hq.
  - intros (I & V). split; [exact I|apply valid_mono; exact V].
  - intros (I & V & L). split; [exact I|]. split; [apply valid_mono; exact V|exact (load_keeps _ _ _ _ K L)].
Qed.
Definition input_of (c : put_state) : option drv := match c with PChecking d _ | PLoading d | PCommitting d _ => Some d | PReturned _ => None end.
Lemma check_skip (has : bytes -> res bool) done l : (forall q, In q done -> has q = Ok true) -> check_inputs has (done ++ l) = check_inputs has l.
Proof. induction done as [|q done IH]; intros F; [reflexivity|]. cbn [app check_inputs]. rewrite (F q (or_introl eq_refl)). apply IH. intros z Hz. apply F. right. exact Hz. Qed.
Lemma lin_step b commits c c' b' : put_step sha b commits c = (c', b') -> lin_call b c ->
  (b' = b /\ lin_call b c' /\ input_of c' = input_of c) \/
  (exists d r, input_of c = Some d /\ In d H /\ c' = PReturned r /\ badger_Put sha b d commits = (r, b')).
Proof.
  destruct c as [d [|q todo]|d|d repl|r]; cbn [put_step lin_call input_of].
  - intros E (I & V & done & D & F). injection E as <- <-. left. split; [reflexivity|]. split; [|reflexivity]. split; [exact I|]. apply validate_in_ok. split; [exact V|].
    intros q Hq. rewrite D, app_nil_r in Hq. rewrite badger_has. f_equal. apply mhas_key, F, Hq.
  - intros E (I & V & done & D & F). rewrite badger_has in E. destruct (mhas (content b) (drv_key q)) eqn:M.
    + injection E as <- <-. left. split; [reflexivity|]. split; [|reflexivity]. split; [exact I|]. split; [exact V|]. exists (done ++ [q]). split; [rewrite D, <- app_assoc; reflexivity|].
      intros z Hz. apply in_app_or in Hz. destruct Hz as [Hz|[<-|[]]]; [exact (F z Hz)|apply mhas_key; exact M].
    + injection E as <- <-. right. exists d. eexists. split; [reflexivity|]. split; [exact I|]. split; [reflexivity|].
      unfold badger_Put, validateDerivationInStore. rewrite V, D, check_skip; [|intros z Hz; rewrite badger_has; f_equal; apply mhas_key, F, Hz].
      cbn [check_inputs]. rewrite badger_has, M. reflexivity.
  - intros E (I & V). destruct (load_replacements b (mkeys (d_inputs d))) as [repl|e|w] eqn:L; injection E as <- <-.
    + left. cbn [lin_call input_of]. auto.
    + right. exists d. eexists. split; [reflexivity|]. split; [exact I|]. split; [reflexivity|]. unfold badger_Put. rewrite V, L. reflexivity.
    + right. exists d. eexists. split; [reflexivity|]. split; [exact I|]. split; [reflexivity|]. unfold badger_Put. rewrite V, L. reflexivity.
  - intros E (I & V & L). right. exists d. destruct (badger_finish sha b d repl commits) as [r b1] eqn:F. injection E as <- <-. exists r. split; [reflexivity|]. split; [exact I|]. split; [reflexivity|].
    unfold badger_Put. rewrite V, L. exact F.
  - intros E _. injection E as <- <-. left. cbn [lin_call]. auto.
Qed.
Lemma put_any b d c r b' : badger_Put sha b d c = (r, b') -> b' = b \/ exists p t x, r = Ok p /\ b' = b ++ [entry p t x] /\ badger_Put sha b d true = (Ok p, b ++ [entry p t x]).
Proof.
  intros E. destruct (bput_cases sha b d c) as [(repl & p & t & x & E' & -> & _)|(E' & _)].
  - right. rewrite E in E'. injection E' as -> ->. exists p, t, x. auto.
  - left. rewrite E in E'. exact E'.
Qed.

(** * Worlds *)
Definition lin_world (w : world) : Prop := (exists l, seq_db (fst w) l) /\ Forall (lin_call (fst w)) (snd w).
Lemma seq_firstn b l n : seq_db b l -> seq_db (firstn n b) (firstn n l) /\ length b = length l.
Proof.
  induction 1 as [|b l d p t x S IH I E]; [rewrite !firstn_nil; split; [constructor|reflexivity]|]. destruct IH as (IH & L). split; [|rewrite !app_length; cbn [length]; lia].
  rewrite !firstn_app, L. destruct (n - length l) as [|k] eqn:N; cbn [firstn]; [rewrite !app_nil_r; exact IH|]. rewrite !firstn_nil. rewrite !firstn_all2 by lia. econstructor; eassumption.
Qed.
Lemma lin_good w e : Forall (fun d => In d H) (puts [e]) -> lin_world w -> lin_world (world_step sha w e).
Proof.
  destruct w as [b calls]. intros IE ((l & S) & F). cbn [fst snd] in S, F. destruct e as [d|i commits|n]; cbn [world_step].
  - split; cbn [fst snd]; [eauto|]. apply Forall_app. split; [exact F|]. constructor; [|constructor]. unfold put_start. destruct (drv_Validate d) as [[]|e|w] eqn:V; cbn [lin_call]; auto.
    unfold puts in IE. cbn [map concat app] in IE. inversion IE; subst. split; [assumption|]. split; [exact V|]. exists []. split; [reflexivity|]. intros q [].
  - destruct (nth_error calls i) as [c|] eqn:E; [|split; cbn [fst snd]; eauto]. pose proof (Forall_nth_error _ _ _ _ F E) as GC. destruct (put_step sha b commits c) as [c' b'] eqn:ST.
    destruct (lin_step b commits c c' b' ST GC) as [(-> & GC' & _)|(d & r & _ & Id & -> & PUT)].
    + split; cbn [fst snd]; [eauto|]. apply set_nth_forall; assumption.
    + destruct (put_any _ _ _ _ _ PUT) as [->|(p & t & x & -> & -> & P)].
      * split; cbn [fst snd]; [eauto|]. apply set_nth_forall; [exact F|exact I].
      * split; cbn [fst snd]; [exists (l ++ [d]); econstructor; eassumption|]. apply set_nth_forall; [|exact I]. apply Forall_impl with (2 := F). intros a. apply lin_mono. eapply seq_keep; eassumption.
  - split; cbn [fst snd]; [|constructor]. exists (firstn n l). exact (proj1 (seq_firstn b l n S)).
Qed.
Lemma puts_app a b : puts (a ++ b) = puts a ++ puts b.
Proof. unfold puts. rewrite map_app, concat_app. reflexivity. Qed.
Lemma after_snoc es e : after sha (es ++ [e]) = world_step sha (after sha es) e.
Proof. unfold after, world_run. rewrite fold_left_app. reflexivity. Qed.
Lemma after_lin es : Forall (fun d => In d H) (puts es) -> lin_world (after sha es).
Proof.
  induction es as [|e es IH] using rev_ind; intros F.
  - split; [exists []|]; constructor.
  - rewrite puts_app in F. apply Forall_app in F. destruct F as (F1 & F2). rewrite after_snoc. apply lin_good; [exact F2|]. exact (IH F1).
Qed.

(** The sequential history. *)
Lemma seq_run b l : seq_db b l -> b = badger_run sha l /\ Forall (fun d => In d H) l.
Proof.
  induction 1 as [|b l d p t x S (IH & F) I E]; [split; constructor|]. split; [|apply Forall_app; split; [exact F|constructor; [exact I|constructor]]].
  unfold badger_run. rewrite fold_left_app. cbn [fold_left]. fold (badger_run sha l). rewrite <- IH, E. reflexivity.
Qed.
Lemma set_nth_same {A} (l : list A) i x c : nth_error l i = Some c -> nth_error (set_nth l i x) i = Some x.
Proof.
  intros E. unfold set_nth. assert (L : i < length l) by (apply nth_error_Some; congruence). rewrite nth_error_app2; rewrite firstn_length_le by lia; [|lia]. rewrite Nat.sub_diag. reflexivity.
Qed.
Lemma set_nth_other {A} (l : list A) i j x c : nth_error l i = Some c -> i <> j -> nth_error (set_nth l i x) j = nth_error l j.
Proof.
  revert i j. induction l as [|a l IH]; intros [|i] [|j] E N; try discriminate; try lia; [reflexivity|reflexivity|]. unfold set_nth in *. cbn [firstn skipn app nth_error]. apply (IH i j E). lia.
Qed.
(** The call of [d] is still in state for [d], or was linearised. *)
Definition lin_point (es1 es2 : list event) (d : drv) (i : nat) (r : res bytes) : Prop :=
  exists es3 e es4 commits, EPut d :: es2 = es3 ++ e :: es4 /\ (es3 = [] /\ e = EPut d \/ e = EStep i commits) /\
    badger_Put sha (fst (after sha (es1 ++ es3))) d commits = (r, fst (after sha (es1 ++ es3 ++ [e]))).
Lemma linear es1 d es2 : Forall (fun d => In d H) (puts (es1 ++ EPut d :: es2)) -> no_crash es2 ->
  let i := length (snd (after sha es1)) in
  exists c, nth_error (snd (after sha (es1 ++ EPut d :: es2))) i = Some c /\ match c with PReturned r => lin_point es1 es2 d i r | _ => input_of c = Some d end.
Proof.
  intros F NCR i. induction es2 as [|e es2 IH] using rev_ind.
  - rewrite after_snoc. destruct (after sha es1) as [b calls] eqn:A. cbn [world_step snd fst] in *. subst i. exists (put_start d). rewrite nth_error_app2 by lia. rewrite Nat.sub_diag. split; [reflexivity|].
    assert (Z : fst (after sha (es1 ++ [])) = b) by (rewrite app_nil_r, A; reflexivity).
    assert (Z' : fst (after sha (es1 ++ [] ++ [EPut d])) = b) by (cbn [app]; rewrite after_snoc, A; reflexivity).
    unfold put_start. destruct (drv_Validate d) as [[]|e|w] eqn:V; [reflexivity| |]; exists [], (EPut d), [], true; rewrite Z, Z'; (split; [reflexivity|]); (split; [left; auto|]); unfold badger_Put, validateDerivationInStore; rewrite V; reflexivity.
  - assert (NC1 : no_crash es2 /\ no_crash [e]) by (apply Forall_app; exact NCR). destruct NC1 as (NC1 & NC2).
    replace (es1 ++ EPut d :: es2 ++ [e]) with ((es1 ++ EPut d :: es2) ++ [e]) in * by (rewrite <- app_assoc; reflexivity).
    rewrite puts_app in F. apply Forall_app in F. destruct F as (F1 & F2). destruct (IH F1 NC1) as (c & E & C).
    pose proof (after_lin _ F1) as LW. rewrite after_snoc. destruct (after sha (es1 ++ EPut d :: es2)) as [b calls] eqn:A. cbn [snd fst] in E. destruct LW as (_ & LC). cbn [fst snd] in LC.
    assert (OLD : forall c', (match c with PReturned r => lin_point es1 es2 d i r | _ => input_of c = Some d end) -> c' = c -> match c' with PReturned r => lin_point es1 (es2 ++ [e]) d i r | _ => input_of c' = Some d end).
    { intros c' X ->. destruct c as [| | |r]; try exact X. destruct X as (es3 & e3 & es4 & cm & E1 & E2 & E3). exists es3, e3, (es4 ++ [e]), cm. split; [|auto].
      change (EPut d :: es2 ++ [e]) with ((EPut d :: es2) ++ [e]). rewrite E1, <- app_assoc. reflexivity. }
    destruct e as [d'|j commits|n]; cbn [world_step].
    + exists c. cbn [snd]. split; [rewrite nth_error_app1; [exact E|apply nth_error_Some; congruence]|exact (OLD c C eq_refl)].
    + destruct (nth_error calls j) as [cj|] eqn:EJ; [|exists c; split; [exact E|exact (OLD c C eq_refl)]].
      destruct (put_step sha b commits cj) as [c' b'] eqn:ST. cbn [snd].
      destruct (Nat.eq_dec j i) as [->|Ne]; [|exists c; rewrite (set_nth_other _ _ _ _ _ EJ Ne); split; [exact E|exact (OLD c C eq_refl)]].
      rewrite E in EJ. injection EJ as <-. exists c'. split; [apply (set_nth_same _ _ _ _ E)|].
      pose proof (Forall_nth_error _ _ _ _ LC E) as GC. destruct (lin_step b commits c c' b' ST GC) as [(-> & _ & IO)|(d0 & r & IO & _ & -> & PUT)].
      * destruct c as [d1 todo|d1|d1 repl|r1]; [destruct c'; cbn [input_of] in *; congruence..|]. cbn [put_step] in ST. injection ST as <-. exact (OLD (PReturned r1) C eq_refl).
      * assert (d0 = d) by (destruct c; cbn [input_of] in *; congruence). subst d0.
        exists (EPut d :: es2), (EStep i commits), [], commits. split; [reflexivity|]. split; [right; reflexivity|].
        rewrite A. replace (es1 ++ (EPut d :: es2) ++ [EStep i commits]) with ((es1 ++ EPut d :: es2) ++ [EStep i commits]) by (rewrite <- app_assoc; reflexivity).
        rewrite after_snoc, A. cbn [world_step fst]. rewrite E, ST. cbn [fst]. exact PUT.
    + exfalso. inversion NC2; contradiction.
Qed.
End Sha.

(** * Every call returns, whatever the others do *)
Definition left_of (c : put_state) : nat := match c with PChecking _ todo => length todo + 3 | PLoading _ => 2 | PCommitting _ _ => 1 | PReturned _ => 0 end.
Lemma left_step sha b commits c : left_of (fst (put_step sha b commits c)) <= left_of c - 1.
Proof.
  destruct c as [d [|q todo]|d|d repl|r]; cbn [put_step].
  - cbn. lia.
  - rewrite badger_has. destruct (mhas (content b) (drv_key q)); cbn [fst left_of length]; lia.
  - destruct (load_replacements b (mkeys (d_inputs d))); cbn [fst left_of]; lia.
  - destruct (badger_finish sha b d repl commits). cbn [fst left_of]. lia.
  - cbn. lia.
Qed.
Lemma left_run sha es : forall b calls i c, no_crash es -> nth_error calls i = Some c ->
  exists c', nth_error (snd (world_run sha (b, calls) es)) i = Some c' /\ left_of c' <= left_of c - steps_of i es.
Proof.
  induction es as [|e es IH]; intros b calls i c NCR E; [exists c; split; [exact E|unfold steps_of; cbn; lia]|]. inversion NCR as [|? ? N1 N2]; subst.
  change (world_run sha (b, calls) (e :: es)) with (world_run sha (world_step sha (b, calls) e) es).
  destruct e as [d|j commits|n]; [| |contradiction]; cbn [world_step].
  - destruct (IH b (calls ++ [put_start d]) i c N2) as (c' & E' & L); [rewrite nth_error_app1; [exact E|apply nth_error_Some; congruence]|]. exists c'. split; [exact E'|exact L].
  - unfold steps_of. cbn [filter]. destruct (i =? j) eqn:IJ; cbn [length]; fold (steps_of i es).
    + apply Nat.eqb_eq in IJ. subst j. rewrite E. pose proof (left_step sha b commits c) as LS. destruct (put_step sha b commits c) as [c1 b1]. cbn [fst] in LS.
      destruct (IH b1 (set_nth calls i c1) i c1 N2 (set_nth_same _ _ _ _ E)) as (c' & E' & L). exists c'. split; [exact E'|lia].
    + apply Nat.eqb_neq in IJ. destruct (nth_error calls j) as [cj|] eqn:EJ; [|exact (IH b calls i c N2 E)].
      destruct (put_step sha b commits cj) as [c1 b1]. apply (IH b1 (set_nth calls j c1) i c N2). rewrite (set_nth_other _ _ _ _ _ EJ); [exact E|congruence].
Qed.
