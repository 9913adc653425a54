(** The buffer pool is safe (C97). *)
From Coq Require Import Permutation.
From Verif Require Import Base.Bytes Base.BytesFacts Model.GoIO Model.Wire Model.WirePool Spec.WirePoolSpec Proof.WireFacts.
Ltac Zify.zify_post_hook ::= idtac.

Definition reads (op : pool_op) (off : nat) : Prop :=
  op = ORead /\ off = 0 \/ exists len, op = OPad len /\ off = N.to_nat (len mod 8) /\ (len mod 8 <> 0)%N.
Lemma reads_off op off : reads op off -> off < 8.
Proof. intros [(_ & ->)|(len & _ & -> & _)]; [lia|]. pose proof (N.mod_lt len 8 ltac:(lia)). lia. Qed.
(** What a goroutine in the middle of a call has got. *)
Definition midway (h : nat -> bytes) (s1 : src) (w1 : sink) (t : thread) : Prop :=
  match t_pc t, t_ops t with
  | Idle, _ => t_src t = s1 /\ t_sink t = w1
  | WStore l k, OWrite n :: _ => t_src t = s1 /\ t_sink t = w1 /\ k <= 8 /\ length (h l) = 8 /\ firstn k (h l) = firstn k (le64 n)
  | WGive l b, OWrite n :: _ => t_src t = s1 /\ t_sink t = w1 /\ h l = le64 n /\ b = firstn (length b) (le64 n) /\ length b <= 8
  | RFill l off pos, op :: _ => t_sink t = w1 /\ reads op off /\ off + pos <= 8 /\ length (h l) = 8 /\
      exists f, src_size (t_src t) < f /\ src_read_full (N.of_nat (8 - off)) s1 = read_full src_read f (N.of_nat (8 - off - pos)) (firstn pos (skipn off (h l))) (t_src t)
  | RLook l off, op :: _ => t_sink t = w1 /\ reads op off /\ length (h l) = 8 /\ src_read_full (N.of_nat (8 - off)) s1 = (Ok (skipn off (h l)), t_src t)
  | Leave l r, op :: _ => run_op op s1 w1 = (r, t_src t, t_sink t)
  | _, _ => False
  end.
Definition local (h : nat -> bytes) (g : list pool_op * src * sink) (t : thread) : Prop :=
  let '(ops, s, w) := g in
  exists fin rs s1 w1, ops = fin ++ t_ops t /\ run_ops fin s w = (rs, s1, w1) /\ t_done t = rs /\ midway h s1 w1 t.
Lemma midway_ext h h' s1 w1 t : (forall x, In x (holds t) -> h x = h' x) -> midway h s1 w1 t -> midway h' s1 w1 t.
Proof.
  unfold midway, holds. destruct t as [ops p s w d]. cbn [t_pc t_ops t_src t_sink]. intros E.
  destruct p as [|l k|l b|l off pos|l off|l r]; try (destruct ops; auto; fail); rewrite <- (E l) by (left; reflexivity); auto.
Qed.
Lemma local_ext h h' g t : (forall x, In x (holds t) -> h x = h' x) -> local h g t -> local h' g t.
Proof. destruct g as [[ops s] w]. intros E (fin & rs & s1 & w1 & A & B & C & D). exists fin, rs, s1, w1. split; [exact A|]. split; [exact B|]. split; [exact C|]. exact (midway_ext h h' s1 w1 t E D). Qed.
Lemma run_ops_snoc ops : forall s w op, run_ops (ops ++ [op]) s w =
  let '(rs, s1, w1) := run_ops ops s w in let '(r, s2, w2) := run_op op s1 w1 in (rs ++ [r], s2, w2).
Proof.
  induction ops as [|o ops IH]; intros s w op; cbn [app run_ops].
  - destruct (run_op op s w) as [[r s2] w2]. reflexivity.
  - destruct (run_op o s w) as [[r s1] w1]. rewrite IH. destruct (run_ops ops s1 w1) as [[rs s2] w2]. destruct (run_op op s2 w2) as [[r' s3] w3]. reflexivity.
Qed.
Lemma store_same h l b : store h l b l = b.
Proof. unfold store. rewrite Nat.eqb_refl. reflexivity. Qed.
Lemma store_other h l b x : x <> l -> store h l b x = h x.
Proof. unfold store. intros H. destruct (Nat.eqb_spec x l); [contradiction|reflexivity]. Qed.
Lemma firstn_put b k x : k < length b -> length (put_byte b k x) = length b /\ firstn (S k) (put_byte b k x) = firstn k b ++ [x].
Proof.
  intros L. unfold put_byte. split.
  - rewrite !app_length, firstn_length_le, skipn_length by lia. cbn [length]. lia.
  - rewrite app_assoc. rewrite firstn_app. rewrite firstn_all2; rewrite app_length, firstn_length_le by lia; cbn [length]; [|lia].
    replace (S k - (k + 1)) with 0 by lia. cbn [firstn]. apply app_nil_r.
Qed.
Lemma firstn_S_nth (l : bytes) : forall k, k < length l -> firstn (S k) l = firstn k l ++ [nth k l x00].
Proof. induction l as [|a l IH]; intros k H; cbn [length] in H; [lia|]. destruct k as [|k]; [reflexivity|]. change (firstn (S (S k)) (a :: l)) with (a :: firstn (S k) l). rewrite IH by lia. reflexivity. Qed.
(** Buffers of the pool are whole and not in use. *)
Lemma obtain_facts m l m' : obtain m l m' ->
  (m_next m' = m_next m /\ Permutation (l :: m_pool m') (m_pool m) /\ m_buf m' = m_buf m) \/
  (l = m_next m /\ m_next m' = S (m_next m) /\ m_pool m' = m_pool m /\ m_buf m' = store (m_buf m) (m_next m) (repeat x00 8)).
Proof. intros [h a x b n|h p n]; cbn [m_next m_pool m_buf]; [left|right; auto]. split; [reflexivity|]. split; [apply Permutation_middle|reflexivity]. Qed.
Definition whole (m : mem) (t : thread) : Prop := (forall x, In x (m_pool m) -> length (m_buf m x) = 8 /\ x < m_next m) /\ forall x, In x (holds t) -> x < m_next m.
Lemma obtain_len m l m' : obtain m l m' -> (forall x, In x (m_pool m) -> length (m_buf m x) = 8 /\ x < m_next m) -> length (m_buf m' l) = 8.
Proof.
  intros O F. destruct (obtain_facts m l m' O) as [(_ & P & ->)|(-> & _ & _ & ->)]; [|rewrite store_same; apply repeat_length].
  apply F. eapply Permutation_in; [exact P|left; reflexivity].
Qed.
(** The accesses of a step. *)
Lemma tstep_frame m t m' t' : tstep m t m' t' ->
  (forall x, x < m_next m -> ~ In x (holds t) -> m_buf m' x = m_buf m x) /\
  ((m_next m' = m_next m /\ Permutation (holds t' ++ m_pool m') (holds t ++ m_pool m)) \/
   (m_next m' = S (m_next m) /\ Permutation (holds t' ++ m_pool m') (m_next m :: holds t ++ m_pool m))).
Proof.
  intros H. inversion H; subst; clear H; unfold holds; cbn [t_pc m_buf m_pool m_next app].
  all: try (match goal with O : obtain _ _ _ |- _ => destruct (obtain_facts _ _ _ O) as [(E1 & E2 & E3)|(E0 & E1 & E2 & E3)] end;
    [rewrite E3; split; [auto|left; auto]|subst; rewrite E3, E2; split; [intros x L _; apply store_other; lia|right; auto]]; fail).
  all: split; [first [reflexivity|intros x _ N; apply store_other; intros ->; apply N; left; reflexivity]|left; split; [reflexivity|apply Permutation_refl]].
Qed.
Lemma read_full_0 f acc s : src_size s < f -> read_full src_read f 0 acc s = (Ok acc, s).
Proof. intros L. destruct f as [|f]; [lia|]. reflexivity. Qed.
Lemma full_short er (acc : bytes) : full_error er (length acc) = match er with EEOF => match acc with [] => EEOF | _ => EUnexpectedEOF end | _ => er end.
Proof. unfold full_error. destruct er; try reflexivity. destruct acc; reflexivity. Qed.
Lemma run_fail op off s1 w e s' : reads op off -> src_read_full (N.of_nat (8 - off)) s1 = (Err e, s') -> run_op op s1 w = (failed op e, s', w).
Proof.
  intros [(-> & ->)|(len & -> & -> & N)] E.
  - cbn [run_op failed]. unfold ReadUint64. change 8%N with (N.of_nat (8 - 0)). rewrite E. reflexivity.
  - cbn [run_op failed]. unfold readPadding. cbn zeta. rewrite (proj2 (N.eqb_neq _ _) N). pose proof (N.mod_lt len 8 ltac:(lia)).
    replace (8 - len mod 8)%N with (N.of_nat (8 - N.to_nat (len mod 8))) by lia. rewrite E. reflexivity.
Qed.
(** The bytes that are in after a read. *)
Lemma buf_fill (b0 : bytes) off pos b rest : off + pos <= length b0 -> firstn (pos + length b) (skipn off (firstn (off + pos) b0 ++ b ++ rest)) = firstn pos (skipn off b0) ++ b.
Proof.
  intros L. rewrite skipn_app, firstn_length_le by lia. replace (off - (off + pos)) with 0 by lia. cbn [skipn].
  assert (E : skipn off (firstn (off + pos) b0) = firstn pos (skipn off b0)). { rewrite skipn_firstn_comm. f_equal. lia. }
  rewrite E, app_assoc. rewrite firstn_app. rewrite firstn_all2; rewrite app_length, firstn_length_le by (rewrite skipn_length; lia); [|lia].
  replace (pos + length b - (pos + length b)) with 0 by lia. cbn [firstn]. apply app_nil_r.
Qed.
Lemma tstep_midway m t m' t' s1 w1 : tstep m t m' t' -> (forall x, In x (m_pool m) -> length (m_buf m x) = 8 /\ x < m_next m) -> midway (m_buf m) s1 w1 t ->
  (t_ops t' = t_ops t /\ t_done t' = t_done t /\ midway (m_buf m') s1 w1 t') \/
  (exists op r, t_ops t = op :: t_ops t' /\ t_done t' = t_done t ++ [r] /\ t_pc t' = Idle /\ run_op op s1 w1 = (r, t_src t', t_sink t')).
Proof.
  intros H W M. inversion H; subst; clear H; cbn [t_ops t_pc t_src t_sink t_done midway m_buf m_pool m_next] in *; unfold midway in M; cbn [t_ops t_pc t_src t_sink] in M.
  - left. split; [reflexivity|]. split; [reflexivity|]. unfold midway. cbn [t_ops t_pc t_src t_sink]. destruct M as (-> & ->). split; [reflexivity|]. split; [reflexivity|]. split; [lia|].
    split; [eapply obtain_len; eassumption|reflexivity].
  - destruct M as (-> & -> & K & L & E). left. split; [reflexivity|]. split; [reflexivity|]. unfold midway. cbn [t_ops t_pc t_src t_sink]. rewrite store_same.
    destruct (firstn_put (h l) k (nth k (le64 n) x00)) as (P1 & P2); [lia|]. split; [reflexivity|]. split; [reflexivity|]. split; [lia|]. split; [lia|].
    rewrite P2, E. symmetry. apply firstn_S_nth. rewrite le64_length. lia.
  - destruct M as (-> & -> & _ & L & E). left. split; [reflexivity|]. split; [reflexivity|]. unfold midway. cbn [t_ops t_pc t_src t_sink length firstn].
    split; [reflexivity|]. split; [reflexivity|]. split; [|split; [reflexivity|lia]]. rewrite !firstn_all2 in E by (rewrite ?le64_length; lia). exact E.
  - destruct M as (-> & -> & E & B & L). left. split; [reflexivity|]. split; [reflexivity|]. unfold midway. cbn [t_ops t_pc t_src t_sink]. rewrite app_length. cbn [length].
    split; [reflexivity|]. split; [reflexivity|]. split; [exact E|]. split; [|lia]. rewrite Nat.add_1_r, firstn_S_nth by (rewrite le64_length; lia). rewrite <- B, E. reflexivity.
  - destruct M as (-> & -> & E & B & L). left. split; [reflexivity|]. split; [reflexivity|]. unfold midway. cbn [t_ops t_pc t_src t_sink run_op]. unfold WriteUint64.
    match goal with X : length b = 8, Y : wwrite_ b _ = _ |- _ => rewrite B, X, firstn_all2 in Y by (rewrite le64_length; lia); rewrite Y end. reflexivity.
  - destruct M as (-> & ->). left. split; [reflexivity|]. split; [reflexivity|]. unfold midway. cbn [t_ops t_pc t_src t_sink]. split; [reflexivity|]. split; [left; auto|]. split; [lia|]. split; [eapply obtain_len; eassumption|].
    exists (S (src_size s1)). split; [lia|reflexivity].
  - destruct M as (-> & ->). right. exists (OPad len), (RP None). split; [reflexivity|]. split; [reflexivity|]. split; [reflexivity|]. cbn [run_op]. unfold readPadding. cbn zeta.
    match goal with X : (len mod 8 = 0)%N |- _ => rewrite X end. reflexivity.
  - destruct M as (-> & ->). left. split; [reflexivity|]. split; [reflexivity|]. unfold midway. cbn [t_ops t_pc t_src t_sink]. pose proof (N.mod_lt len 8 ltac:(lia)).
    split; [reflexivity|]. split; [right; exists len; auto|]. split; [lia|]. split; [eapply obtain_len; eassumption|].
    exists (S (src_size s1)). split; [lia|]. rewrite Nat.sub_0_r. reflexivity.
  - destruct M as (-> & R & _ & L & f & F & E). left. split; [reflexivity|]. split; [reflexivity|]. unfold midway. cbn [t_ops t_pc t_src t_sink]. split; [reflexivity|]. split; [exact R|]. split; [exact L|].
    rewrite E. replace (8 - off - pos) with 0 by lia. rewrite read_full_0 by exact F. rewrite firstn_all2 by (rewrite skipn_length; lia). reflexivity.
  - destruct M as (-> & R & _ & L & f & F & E). left. split; [reflexivity|]. split; [reflexivity|]. unfold midway. cbn [t_ops t_pc t_src t_sink]. rewrite store_same.
    match goal with X : src_read _ s = _ |- _ => pose proof (src_read_spec _ _ _ _ _ X) as SP; rename X into RD end. destruct SP as (_ & LB & _ & EM & SZ & _ & _ & SZ').
    assert (CN : chunks s <> []) by (intros X; destruct (EM X) as (X' & _); discriminate). assert (SL : src_size s' < src_size s) by (apply SZ; [lia|exact CN]).
    split; [reflexivity|]. split; [exact R|]. split; [lia|]. split; [rewrite !app_length, firstn_length_le by lia; lia|].
    destruct f as [|f]; [lia|]. exists f. split; [lia|]. rewrite E. cbn [read_full]. destruct (N.eqb_spec (N.of_nat (8 - off - pos)) 0) as [Z|Z]; [lia|]. rewrite RD, buf_fill by lia.
    f_equal. unfold lenN. lia.
  - destruct M as (-> & R & _ & L & f & F & E). left. split; [reflexivity|]. split; [reflexivity|]. unfold midway. cbn [t_ops t_pc t_src t_sink]. rewrite store_same.
    match goal with X : src_read _ s = _ |- _ => rename X into RD end.
    split; [reflexivity|]. split; [exact R|]. split; [rewrite !app_length, firstn_length_le by lia; lia|].
    destruct f as [|f]; [lia|]. rewrite E. cbn [read_full]. destruct (N.eqb_spec (N.of_nat (8 - off - pos)) 0) as [Z|Z]; [lia|]. rewrite RD.
    destruct (N.eqb_spec (N.of_nat (8 - off - pos) - lenN b) 0) as [Y|Y]; [|unfold lenN in Y; lia]. f_equal. f_equal.
    pose proof (buf_fill (h l) off pos b [] ltac:(lia)) as BF. rewrite app_nil_r in BF. rewrite <- BF. apply firstn_all2. rewrite skipn_length, app_length, firstn_length_le by lia. lia.
  - destruct M as (-> & R & _ & L & f & F & E). left. split; [reflexivity|]. split; [reflexivity|]. unfold midway. cbn [t_ops t_pc t_src t_sink].
    match goal with X : src_read _ s = _ |- _ => rename X into RD end. pose proof (reads_off _ _ R).
    apply (run_fail op off); [exact R|]. destruct f as [|f]; [lia|]. rewrite E. cbn [read_full]. destruct (N.eqb_spec (N.of_nat (8 - off - pos)) 0) as [Z|Z]; [lia|]. rewrite RD.
    destruct (N.eqb_spec (N.of_nat (8 - off - pos) - lenN b) 0) as [Y|Y]; [unfold lenN in Y; lia|].
    replace (pos + length b) with (length (firstn pos (skipn off (h l)) ++ b)) by (rewrite app_length, firstn_length_le by (rewrite skipn_length; lia); reflexivity). rewrite full_short. destruct er; reflexivity.
  - destruct M as (-> & R & L & E). left. split; [reflexivity|]. split; [reflexivity|]. unfold midway. cbn [t_ops t_pc t_src t_sink run_op]. unfold ReadUint64. change 8%N with (N.of_nat (8 - 0)). rewrite E. reflexivity.
  - destruct M as (-> & R & L & E). left. split; [reflexivity|]. split; [reflexivity|]. unfold midway. cbn [t_ops t_pc t_src t_sink run_op]. destruct R as [(X & _)|(len' & X & -> & N)]; [discriminate|]. injection X as <-.
    unfold readPadding. cbn zeta. rewrite (proj2 (N.eqb_neq _ _) N). pose proof (N.mod_lt len 8 ltac:(lia)).
    replace (8 - len mod 8)%N with (N.of_nat (8 - N.to_nat (len mod 8))) by lia. rewrite E. reflexivity.
  - right. exists op, r. auto.
Qed.
Lemma tstep_local m t m' t' g : tstep m t m' t' -> (forall x, In x (m_pool m) -> length (m_buf m x) = 8 /\ x < m_next m) -> local (m_buf m) g t -> local (m_buf m') g t'.
Proof.
  destruct g as [[ops s] w]. intros H W (fin & rs & s1 & w1 & A & B & C & D). destruct (tstep_midway _ _ _ _ _ _ H W D) as [(E1 & E2 & E3)|(op & r & E1 & E2 & E3 & E4)].
  - exists fin, rs, s1, w1. rewrite E1, E2. auto.
  - exists (fin ++ [op]), (rs ++ [r]), (t_src t'), (t_sink t'). split; [rewrite <- app_assoc; cbn [app]; congruence|]. split; [rewrite run_ops_snoc, B, E4; reflexivity|]. split; [congruence|].
    unfold midway. rewrite E3. auto.
Qed.
(** Lengths of the buffers in use. *)
Lemma leave_len m t m' t' : tstep m t m' t' -> (forall x, In x (m_pool m) -> length (m_buf m x) = 8 /\ x < m_next m) -> (forall x, In x (holds t) -> length (m_buf m x) = 8) ->
  forall x, In x (holds t') -> length (m_buf m' x) = 8.
Proof.
  intros H W L x I. inversion H; subst; clear H; unfold holds in *; cbn [t_pc m_buf m_pool] in *; try (destruct I; fail); destruct I as [<-|I]; try (destruct I; fail); try (eapply obtain_len; eassumption); try (apply L; left; reflexivity).
  - rewrite store_same. rewrite (proj1 (firstn_put (h l) k (nth k (le64 n) x00) ltac:(rewrite (L l) by (left; reflexivity); assumption))). apply L. left. reflexivity.
  - rewrite store_same, !app_length, firstn_length_le by (rewrite (L l); [lia|left; reflexivity]). lia.
  - rewrite store_same, !app_length, firstn_length_le by (rewrite (L l); [lia|left; reflexivity]). lia.
  - rewrite store_same, !app_length, firstn_length_le by (rewrite (L l); [lia|left; reflexivity]). lia.
Qed.

(** * All the goroutines *)
Definition inuse (ts : list thread) : list nat := concat (map holds ts).
Definition safe (gs : list (list pool_op * src * sink)) (w : pworld) : Prop :=
  NoDup (inuse (snd w) ++ m_pool (fst w)) /\
  (forall x, In x (inuse (snd w) ++ m_pool (fst w)) -> length (m_buf (fst w) x) = 8 /\ x < m_next (fst w)) /\
  Forall2 (local (m_buf (fst w))) gs (snd w).
Lemma start_safe gs : safe gs (pstart gs).
Proof.
  unfold pstart, safe. cbn [fst snd m_pool m_buf m_next]. assert (E : inuse (map starts gs) = []). { unfold inuse. rewrite map_map. induction gs as [|[[ops s] w] gs IH]; [reflexivity|]. exact IH. }
  rewrite E. split; [constructor|]. split; [intros x []|]. clear E. induction gs as [|[[ops s] w] gs IH]; cbn [map]; [constructor|]. constructor; [|exact IH].
  exists [], [], s, w. cbn. auto.
Qed.
Lemma inuse_app a t b : inuse (a ++ t :: b) = inuse a ++ holds t ++ inuse b.
Proof. unfold inuse. rewrite map_app, concat_app. reflexivity. Qed.
Lemma step_safe gs w w' : pstep w w' -> safe gs w -> safe gs w'.
Proof.
  intros [m m' a t t' b S|h x l y n ts] (N & F & L); cbn [fst snd] in *.
  - assert (W : forall x, In x (m_pool m) -> length (m_buf m x) = 8 /\ x < m_next m) by (intros x I; apply F; apply in_or_app; right; exact I).
    assert (LH : forall x, In x (holds t) -> length (m_buf m x) = 8) by (intros x I; apply F; apply in_or_app; left; rewrite inuse_app; apply in_or_app; right; apply in_or_app; left; exact I).
    destruct (tstep_frame _ _ _ _ S) as (FR & OW).
    (* what the step does to the ownership *)
    assert (P0 : forall q, Permutation (inuse (a ++ q :: b)) (holds q ++ inuse a ++ inuse b)). { intros q. rewrite inuse_app. rewrite !app_assoc. apply Permutation_app_tail. apply Permutation_app_comm. }
    assert (P1 : forall q p, Permutation (inuse (a ++ q :: b) ++ p) ((inuse a ++ inuse b) ++ holds q ++ p)).
    { intros q p. rewrite P0. rewrite <- app_assoc. rewrite (app_assoc (inuse a ++ inuse b)). rewrite (app_assoc (holds q)). apply Permutation_app_tail. apply Permutation_app_comm. }
    assert (DIS : NoDup ((inuse a ++ inuse b) ++ holds t ++ m_pool m)) by (eapply Permutation_NoDup; [apply P1|exact N]).
    assert (OTH : forall x, In x (inuse a ++ inuse b) -> x < m_next m /\ ~ In x (holds t) /\ m_buf m' x = m_buf m x).
    { intros x I. assert (I' : x < m_next m) by (apply F; eapply Permutation_in; [symmetry; apply P1|apply in_or_app; left; exact I]). split; [exact I'|].
      assert (NH : ~ In x (holds t)). { intros J. apply in_split in I. destruct I as (u & v & E). rewrite E in DIS. rewrite <- app_assoc in DIS. cbn [app] in DIS. apply NoDup_remove_2 in DIS. apply DIS. apply in_or_app. right. apply in_or_app. right. apply in_or_app. left. exact J. }
      split; [exact NH|exact (FR x I' NH)]. }
    unfold safe. cbn [fst snd]. split; [|split].
    + eapply Permutation_NoDup; [symmetry; apply P1|]. destruct OW as [(_ & P)|(_ & P)]; [eapply Permutation_NoDup; [apply Permutation_app_head; symmetry; exact P|exact DIS]|].
      eapply Permutation_NoDup; [apply Permutation_app_head; symmetry; exact P|]. eapply Permutation_NoDup; [apply Permutation_middle|]. constructor; [|exact DIS].
      intros I. assert (I' : In (m_next m) (inuse (a ++ t :: b) ++ m_pool m)) by (eapply Permutation_in; [symmetry; apply P1|exact I]). apply F in I'. lia.
    + intros x I. assert (I' : In x ((inuse a ++ inuse b) ++ holds t' ++ m_pool m')) by (eapply Permutation_in; [apply P1|exact I]). apply in_app_or in I'. destruct I' as [I'|I'].
      * destruct (OTH x I') as (A1 & A2 & A3). rewrite A3. split; [apply F; eapply Permutation_in; [symmetry; apply P1|apply in_or_app; left; exact I']|destruct OW as [(-> & _)|(-> & _)]; lia].
      * assert (B : x < m_next m'). { destruct OW as [(-> & P)|(-> & P)]; (eapply Permutation_in in I'; [|exact P]); [|destruct I' as [<-|I']; [lia|apply Nat.lt_lt_succ_r]]; apply F; (eapply Permutation_in; [symmetry; apply P1|apply in_or_app; right; exact I']). }
        split; [|exact B]. apply in_app_or in I'. destruct I' as [I'|I']; [exact (leave_len _ _ _ _ S W LH x I')|].
        inversion S; subst; cbn [m_pool m_buf] in *; try (apply W; exact I');
          try (match goal with O : obtain _ _ _ |- _ => destruct (obtain_facts _ _ _ O) as [(E1 & E2 & E3)|(E0 & E1 & E2 & E3)] end;
            [rewrite E3; apply W; eapply Permutation_in; [exact E2|right; exact I']|rewrite E3; rewrite E2 in I'; rewrite store_other; [apply W; exact I'|destruct (W x I') as (_ & Z); lia]]; fail).
        1: { destruct (Nat.eq_dec x l) as [->|Ne]; [|rewrite store_other by exact Ne; apply W; exact I']. exfalso. apply NoDup_remove_2 with (l := inuse a ++ inuse b) (a := l) (l' := p); [exact DIS|apply in_or_app; right; exact I']. }
        1: { destruct (Nat.eq_dec x l) as [->|Ne]; [|rewrite store_other by exact Ne; apply W; exact I']. exfalso. apply NoDup_remove_2 with (l := inuse a ++ inuse b) (a := l) (l' := p); [exact DIS|apply in_or_app; right; exact I']. }
        1: { destruct (Nat.eq_dec x l) as [->|Ne]; [|rewrite store_other by exact Ne; apply W; exact I']. exfalso. apply NoDup_remove_2 with (l := inuse a ++ inuse b) (a := l) (l' := p); [exact DIS|apply in_or_app; right; exact I']. }
        1: { destruct (Nat.eq_dec x l) as [->|Ne]; [|rewrite store_other by exact Ne; apply W; exact I']. exfalso. apply NoDup_remove_2 with (l := inuse a ++ inuse b) (a := l) (l' := p); [exact DIS|apply in_or_app; right; exact I']. }
        destruct I' as [<-|I']; [apply LH; left; reflexivity|apply W; exact I'].
    + apply Forall2_app_inv_r in L. destruct L as (g1 & g2 & L1 & L2 & ->). inversion L2 as [|g ? g3 ? LT L3]; subst. apply Forall2_app; [|constructor; [exact (tstep_local _ _ _ _ _ S W LT)|]].
      * assert (O1 : forall q, In q a -> forall x, In x (holds q) -> m_buf m x = m_buf m' x).
        { intros q Hq x Hx. symmetry. apply OTH. apply in_or_app. left. unfold inuse. apply in_concat. exists (holds q). split; [apply in_map; exact Hq|exact Hx]. }
        revert O1. clear - L1. induction L1 as [|g q g1 a LQ LA IH]; intros O1; constructor; [eapply local_ext; [apply O1; left; reflexivity|exact LQ]|]. apply IH. intros z Hz. apply O1. right. exact Hz.
      * assert (O1 : forall q, In q b -> forall x, In x (holds q) -> m_buf m x = m_buf m' x).
        { intros q Hq x Hx. symmetry. apply OTH. apply in_or_app. right. unfold inuse. apply in_concat. exists (holds q). split; [apply in_map; exact Hq|exact Hx]. }
        revert O1. clear - L3. induction L3 as [|g q g1 a LQ LA IH]; intros O1; constructor; [eapply local_ext; [apply O1; left; reflexivity|exact LQ]|]. apply IH. intros z Hz. apply O1. right. exact Hz.
  - unfold safe. cbn [fst snd m_pool m_buf m_next] in *. split; [|split; [|exact L]].
    + rewrite app_assoc in *. apply NoDup_remove_1 in N. exact N.
    + intros z I. apply F. apply in_app_or in I. destruct I as [I|I]; apply in_or_app; [left; exact I|right]. apply in_app_or in I. apply in_or_app. destruct I as [I|I]; [left; exact I|right; right; exact I].
Qed.
Lemma runs_safe gs w : pruns (pstart gs) w -> safe gs w.
Proof.
  intros H. remember (pstart gs) as u eqn:E. induction H as [w|u v w R IH S]; [subst; apply start_safe|]. exact (step_safe gs _ _ S (IH E)).
Qed.
Lemma local_alone h g t : local h g t -> as_alone g t.
Proof.
  destruct g as [[ops s] w]. intros (fin & rs & s1 & w1 & A & B & C & D). exists fin. split; [exact A|]. rewrite B. cbn [fst snd]. split; [exact C|]. intros I. unfold midway in D. rewrite I in D. exact D.
Qed.

(** * Nothing blocks, nothing runs for ever *)
Definition weight (t : thread) : nat :=
  src_size (t_src t) +
  match t_pc t with
  | Idle => 24 * length (t_ops t)
  | WStore _ k => 24 * length (tl (t_ops t)) + (8 - k) + 12
  | WGive _ b => 24 * length (tl (t_ops t)) + (8 - length b) + 3
  | RFill _ _ _ => 24 * length (tl (t_ops t)) + 4
  | RLook _ _ => 24 * length (tl (t_ops t)) + 3
  | Leave _ _ => 24 * length (tl (t_ops t)) + 1
  end.
Lemma weight_step m t m' t' : tstep m t m' t' -> weight t' < weight t.
Proof.
  intros H. inversion H; subst; clear H; unfold weight; cbn [t_pc t_ops t_src tl length]; rewrite ?app_length; cbn [length]; try lia.
  all: match goal with X : src_read _ ?s = _ |- _ => pose proof (src_read_spec _ _ _ _ _ X) as (_ & _ & _ & EM & SZ & _ & _ & SZ') end; try lia.
  assert (CN : chunks s <> []) by (intros X; destruct (EM X) as (X' & _); discriminate). assert (src_size s' < src_size s) by (apply SZ; [lia|exact CN]). lia.
Qed.
Lemma obtain_new' m : exists l m', obtain m l m'.
Proof. destruct m as [h p n]. exists n, (Mem (store h n (repeat x00 8)) p (S n)). constructor. Qed.
Lemma progress m g t : local (m_buf m) g t -> ~ finished t -> exists m' t', tstep m t m' t'.
Proof.
  destruct g as [[ops0 s0] w0]. intros (fin & rs & s1 & w1 & _ & _ & _ & M) NF. destruct t as [ops p s w d]. destruct m as [h pl nx]. cbn [m_buf] in M. unfold midway in M. cbn [t_pc t_ops t_src t_sink] in M.
  destruct ops as [|op ops]. { destruct p; try contradiction. exfalso. apply NF. split; reflexivity. }
  destruct p as [|l k|l b|l off pos|l off|l r].
  - destruct (obtain_new' (Mem h pl nx)) as (l & m' & O). destruct op as [n| |len]; [| |destruct (N.eq_dec (len mod 8) 0)]; do 2 eexists; econstructor; eassumption.
  - destruct op as [n| |len]; try contradiction. destruct M as (_ & _ & K & _). destruct (Nat.eq_dec k 8) as [->|]; do 2 eexists; [apply s_stored|apply s_store; lia].
  - destruct op as [n| |len]; try contradiction. destruct M as (_ & _ & _ & _ & L). destruct (Nat.eq_dec (length b) 8) as [E|E]; [|do 2 eexists; apply s_take; lia].
    destruct (wwrite_ b w) as [e w'] eqn:X. do 2 eexists. eapply s_written; eassumption.
  - destruct M as (_ & R & K & L & _). destruct (Nat.eq_dec (off + pos) 8) as [E|E]; [do 2 eexists; apply s_full; exact E|].
    destruct (src_read (N.of_nat (8 - off - pos)) s) as [[b er] s'] eqn:X. pose proof (src_read_spec _ _ _ _ _ X) as (_ & LB & _). unfold lenN in LB.
    destruct er as [er|].
    + destruct (Nat.eq_dec (off + pos + length b) 8) as [E'|E']; [do 2 eexists; eapply s_read_last; try eassumption; lia|].
      do 2 eexists. eapply s_read_err with (scratch := repeat x00 (8 - off - pos - length b)); try eassumption; rewrite ?repeat_length; lia.
    + do 2 eexists. eapply s_read with (scratch := repeat x00 (8 - off - pos - length b)); try eassumption; rewrite ?repeat_length; lia.
  - destruct M as (_ & [(-> & ->)|(len & -> & -> & _)] & _); do 2 eexists; [apply s_value|apply s_padding].
  - do 2 eexists. apply s_leave.
Qed.
