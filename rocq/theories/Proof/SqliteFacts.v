(** Lemmas for C75-C81. *)
From Coq Require Import Lia Permutation.
From Verif Require Import Base.Bytes Base.BytesFacts Model.GoIO Model.Sqlite Spec.SqliteSpec.
Ltac Zify.zify_post_hook ::= idtac.

(** * Since *)
Lemma since_snoc {E} (S T : E -> Prop) h e : since S T (h ++ [e]) <-> S e \/ (since S T h /\ T e).
Proof.
  split.
  - intros (h1 & x & h2 & H & HS & HT). destruct h2 as [|y h2 _] using rev_ind.
    + apply app_inj_tail in H. destruct H as [-> ->]. left. exact HS.
    + replace (h1 ++ x :: h2 ++ [y]) with ((h1 ++ x :: h2) ++ [y]) in H by (rewrite <- app_assoc; reflexivity).
      apply app_inj_tail in H. destruct H as [-> ->]. apply Forall_app in HT. destruct HT as [HT HT'].
      right. split; [exists h1, x, h2; auto|inversion HT'; auto].
  - intros [H|[(h1 & x & h2 & -> & HS & HT) H]].
    + exists h, e, []. auto.
    + exists h1, x, (h2 ++ [e]). split; [rewrite <- app_assoc; reflexivity|]. split; [exact HS|].
      apply Forall_app. auto.
Qed.
Lemma since_nil {E} (S T : E -> Prop) : ~ since S T [].
Proof. intros (h1 & x & h2 & H & _). destruct h1; discriminate. Qed.

(** * Tables *)
Lemma filter_filter {A} (p q : A -> bool) l : filter p (filter q l) = filter (fun x => q x && p x) l.
Proof. induction l as [|a l IH]; [reflexivity|]. cbn [filter]. destruct (q a); cbn [filter andb]; rewrite IH; reflexivity. Qed.
Lemma filter_nil {A} (p : A -> bool) l : (forall x, In x l -> p x = false) -> filter p l = [].
Proof. induction l as [|a l IH]; intros H; [reflexivity|]. cbn [filter]. rewrite (H a (or_introl eq_refl)). apply IH. intros x I. apply H. right. exact I. Qed.
(** The rows with a key, after an insert or replace. *)
Lemma cell_replace {A} (conflict : A -> A -> bool) (P : A -> bool) r t :
  (P r = true -> forall x, P x = true -> conflict r x = true) ->
  (P r = false -> forall x, P x = true -> conflict r x = false) ->
  filter P (replace_into conflict r t) = if P r then [r] else filter P t.
Proof.
  intros H1 H2. unfold replace_into. cbn [filter]. rewrite filter_filter. destruct (P r) eqn:E.
  - f_equal. apply filter_nil. intros x _. destruct (P x) eqn:Px; [rewrite (H1 eq_refl x Px)|]; destruct (conflict r x); reflexivity.
  - apply filter_ext. intros x. destruct (P x) eqn:Px; [rewrite (H2 eq_refl x Px); reflexivity|].
    destruct (negb (conflict r x)); reflexivity.
Qed.
Lemma rows_one {A} (a : A) l : rows_of [a] l -> l = [a].
Proof. intros H. apply Permutation_length_1_inv. exact H. Qed.
Lemma rows_nil {A} (l : list A) : rows_of [] l -> l = [].
Proof. apply Permutation_nil. Qed.

(** The rows with one key, over a history: a call either makes a new row the only
    one or removes some. *)
Lemma cell_since_ev {X Ev Row} (ev : list X -> list Ev) (cell : list X -> list Row) (stores keeps : Ev -> Row -> Prop) :
  ev [] = [] -> cell [] = [] ->
  (forall h x, exists e, ev (h ++ [x]) = ev h ++ [e] /\
     ((exists r, cell (h ++ [x]) = [r] /\ (forall r', stores e r' <-> r' = r) /\ forall r', In r' (cell h) -> ~ keeps e r') \/
     ((forall r, ~ stores e r) /\ exists q, cell (h ++ [x]) = filter q (cell h) /\ forall r, In r (cell h) -> (q r = true <-> keeps e r)))) ->
  forall h, length (cell h) <= 1 /\ forall r, In r (cell h) <-> since (fun e => stores e r) (fun e => keeps e r) (ev h).
Proof.
  intros E0 H0 Hs h. induction h as [|x h [IL IH]] using rev_ind.
  - rewrite H0, E0. split; [cbn; lia|]. intros r. split; [intros []|]. intros H. destruct (since_nil _ _ H).
  - destruct (Hs h x) as (e & -> & [(r & -> & S & K)|(S & q & -> & K)]).
    + split; [cbn; lia|]. intros r'. rewrite since_snoc. split.
      * intros [<-|[]]. left. apply S. reflexivity.
      * intros [H|[H1 H2]]; [left; symmetry; apply S; exact H|]. exfalso. apply IH in H1. exact (K _ H1 H2).
    + split.
      * clear - IL. induction (cell h) as [|a l IHl]; [auto|]. cbn in *. destruct (q a); cbn; [|specialize (IHl ltac:(lia)); lia].
        destruct l; [cbn; lia|cbn in IL; lia].
      * intros r. rewrite since_snoc, filter_In. split.
        -- intros [H1 H2]. right. split; [apply IH; exact H1|apply K; auto].
        -- intros [H|[H1 H2]]; [destruct (S _ H)|]. apply IH in H1. split; [exact H1|apply K; auto].
Qed.
Lemma cell_since {Ev Row} (cell : list Ev -> list Row) (stores keeps : Ev -> Row -> Prop) :
  cell [] = [] ->
  (forall h e,
     (exists r, cell (h ++ [e]) = [r] /\ (forall r', stores e r' <-> r' = r) /\ forall r', In r' (cell h) -> ~ keeps e r') \/
     ((forall r, ~ stores e r) /\ exists q, cell (h ++ [e]) = filter q (cell h) /\ forall r, In r (cell h) -> (q r = true <-> keeps e r))) ->
  forall h, length (cell h) <= 1 /\ forall r, In r (cell h) <-> since (fun e => stores e r) (fun e => keeps e r) h.
Proof.
  intros H0 Hs h. apply (cell_since_ev (fun h => h) cell stores keeps); auto. intros h' x. exists x. split; [reflexivity|apply Hs].
Qed.
Lemma filter_true {A} (l : list A) : filter (fun _ => true) l = l.
Proof. induction l as [|a l IH]; [reflexivity|]. cbn. rewrite IH. reflexivity. Qed.
Lemma filter_len {A} (q : A -> bool) l : length (filter q l) <= length l.
Proof. induction l as [|a l IH]; [auto|]. cbn. destruct (q a); cbn; lia. Qed.
(** A query for one key. *)
Lemma rows_of_cell {A B} (cell : list A) (q : A -> bool) (f : A -> B) res : length cell <= 1 ->
  rows_of (map f (filter q cell)) res -> length res <= 1 /\ forall b, In b res <-> exists a, In a cell /\ q a = true /\ b = f a.
Proof.
  intros L H. split.
  - apply Permutation_length in H. rewrite <- H, map_length. pose proof (filter_len q cell) as G. lia.
  - intros b. split.
    + intros I. apply (Permutation_in b (Permutation_sym H)) in I. apply in_map_iff in I. destruct I as (a & <- & I).
      apply filter_In in I. exists a. tauto.
    + intros (a & I & Q & ->). apply (Permutation_in _ H). apply in_map. apply filter_In. auto.
Qed.
Lemma one_of_cell {A B} (cell : list A) (f : A -> B) res : length cell <= 1 ->
  one_of (map f cell) res -> (cell = [] /\ res = Err ErrNoRows) \/ exists a, cell = [a] /\ res = Ok (f a).
Proof.
  destruct cell as [|a [|b l]]; cbn; intros L H; [auto| |lia]. right. exists a. destruct H as (x & [<-|[]] & ->). auto.
Qed.

(** * fetcher_cache_v2 *)
Definition fc_is (d k : bytes) (r : fc_row) : bool := beq (fc_domain r) d && beq (fc_key r) k.
Lemma fc_is_iff d k r : fc_is d k r = true <-> fc_domain r = d /\ fc_key r = k.
Proof. unfold fc_is. rewrite andb_true_iff, !beq_eq. tauto. Qed.
Lemma fc_cell d k h : 
  length (filter (fc_is d k) (fc_run h)) <= 1 /\
  forall r, In r (filter (fc_is d k) (fc_run h)) <-> since (fun e => e = (r, true) /\ fc_is d k r = true) (fun e => ~ fc_writes d k e) h.
Proof.
  apply (cell_since (fun h => filter (fc_is d k) (fc_run h)) (fun e r => e = (r, true) /\ fc_is d k r = true) (fun e _ => ~ fc_writes d k e)).
  - reflexivity.
  - clear h. intros h [r0 ok]. unfold fc_run. rewrite fold_left_app. cbn [fold_left fst snd]. fold (fc_run h). destruct ok.
    + unfold fc_UpsertCache. rewrite cell_replace.
      * destruct (fc_is d k r0) eqn:K.
        { left. exists r0. split; [reflexivity|]. split.
          - intros r'. split; [intros [[= ->] _]; reflexivity|intros ->; auto].
          - intros r' _ N. apply N. unfold fc_writes. apply fc_is_iff in K. cbn. tauto. }
        { right. split; [intros r [[= ->] W]; congruence|]. exists (fun _ => true). rewrite filter_true. split; [reflexivity|].
          intros r _. split; [|auto]. intros _ [_ W]. apply fc_is_iff in W. cbn in W. congruence. }
      * intros K x X. apply fc_is_iff in K, X. destruct K as [<- <-], X as [X1 X2]. unfold fc_same. rewrite X1, X2, !beq_refl. reflexivity.
      * intros K x X. unfold fc_same. destruct (beq (fc_domain r0) (fc_domain x) && beq (fc_key r0) (fc_key x)) eqn:S; [|reflexivity].
        apply andb_true_iff in S. destruct S as [S1 S2]. apply beq_eq in S1, S2. unfold fc_is in *. rewrite S1, S2 in K. congruence.
    + right. split; [intros r [W _]; discriminate|]. exists (fun _ => true). rewrite filter_true. split; [reflexivity|].
      intros r _. split; [|auto]. intros _ [W _]. discriminate.
Qed.

(** * eval_cache_v5 *)
Definition ec_is (p : Z) (n : bytes) (r : ec_row) : bool := (ec_parent r =? p)%Z && match ec_name r, Some n with Some x, Some y => beq x y | _, _ => false end.
Lemma ec_is_iff p n r : ec_is p n r = true <-> ec_parent r = p /\ ec_name r = Some n.
Proof.
  unfold ec_is. rewrite andb_true_iff, Z.eqb_eq. destruct (ec_name r); [rewrite beq_eq|]; split; intros [? ?]; split; congruence.
Qed.
Definition ec_row_of (o : ec_op) : ec_row :=
  match o with EInsert p n ty v => EC p n ty v None | EInsertC p n ty v c => EC p n ty v c end.
Lemma ec_run_snoc h e : ec_run (h ++ [e]) = if snd e then replace_into ec_same (ec_row_of (fst e)) (ec_run h) else ec_run h.
Proof.
  unfold ec_run. rewrite fold_left_app. cbn [fold_left]. destruct (snd e); [|reflexivity]. destruct (fst e); reflexivity.
Qed.
Lemma ec_conf_in p n r x : ec_is p n r = true -> ec_is p n x = true -> ec_same r x = true.
Proof.
  intros H1 H2. apply ec_is_iff in H1, H2. destruct H1 as [A B], H2 as [C D]. unfold ec_same. rewrite A, B, C, D, Z.eqb_refl, beq_refl. reflexivity.
Qed.
Lemma ec_conf_out p n r x : ec_is p n r = false -> ec_is p n x = true -> ec_same r x = false.
Proof.
  intros H1 H2. destruct (ec_same r x) eqn:S; [|reflexivity]. apply ec_is_iff in H2. destruct H2 as [C D].
  unfold ec_same in S. rewrite C, D in S. apply andb_true_iff in S. destruct S as [S1 S2]. apply Z.eqb_eq in S1.
  destruct (ec_name r) eqn:N; [|discriminate]. apply beq_eq in S2. subst.
  assert (ec_is (ec_parent r) n r = true) by (apply ec_is_iff; auto). congruence.
Qed.
Lemma ec_cell p n h :
  length (filter (ec_is p n) (ec_run h)) <= 1 /\
  forall r, In r (filter (ec_is p n) (ec_run h)) <->
    since (fun e => snd e = true /\ ec_row_of (fst e) = r /\ ec_is p n r = true) (fun e => ~ ec_writes p (Some n) e) h.
Proof.
  apply (cell_since (fun h => filter (ec_is p n) (ec_run h)) (fun e r => snd e = true /\ ec_row_of (fst e) = r /\ ec_is p n r = true) (fun e _ => ~ ec_writes p (Some n) e)).
  - reflexivity.
  - clear h. intros h [o ok]. rewrite ec_run_snoc. cbn [fst snd].
    assert (W : ec_writes p (Some n) (o, ok) <-> ok = true /\ ec_is p n (ec_row_of o) = true).
    { unfold ec_writes. cbn [fst snd]. destruct o; rewrite ec_is_iff; cbn [ec_row_of ec_parent ec_name]; tauto. }
    destruct ok.
    + rewrite cell_replace; [|intros K x; apply ec_conf_in; exact K|intros K x; apply ec_conf_out; exact K].
      destruct (ec_is p n (ec_row_of o)) eqn:K.
      * left. exists (ec_row_of o). split; [reflexivity|]. split.
        -- intros r'. split; [intros (_ & <- & _); reflexivity|intros ->; auto].
        -- intros r' _ N. apply N. apply W. auto.
      * right. split; [intros r (_ & <- & H); congruence|]. exists (fun _ => true). rewrite filter_true. split; [reflexivity|].
        intros r _. split; [|auto]. intros _ H. apply W in H. destruct H. congruence.
    + right. split; [intros r (H & _); discriminate|]. exists (fun _ => true). rewrite filter_true. split; [reflexivity|].
      intros r _. split; [|auto]. intros _ H. apply W in H. destruct H. congruence.
Qed.

(** * binary_cache_v6 *)
Lemma bc_run_snoc fk h x : bc_run fk (h ++ [x]) =
  let '(r, d') := if snd x then bc_step fk (fst x) (snd (bc_run fk h)) else (Err ErrEnv, snd (bc_run fk h)) in
  (fst (bc_run fk h) ++ [(fst x, r)], d').
Proof. unfold bc_run. rewrite fold_left_app. reflexivity. Qed.

Definition bn_is (c : Z) (hs : bytes) (r : bc_nar) : bool := (bn_cache r =? c)%Z && beq (bn_hash r) hs.
Lemma bn_is_iff c hs r : bn_is c hs r = true <-> bn_cache r = c /\ bn_hash r = hs.
Proof. unfold bn_is. rewrite andb_true_iff, Z.eqb_eq, beq_eq. tauto. Qed.
Lemma bn_conf_in c hs r x : bn_is c hs r = true -> bn_is c hs x = true -> bn_same r x = true.
Proof. intros H1 H2. apply bn_is_iff in H1, H2. destruct H1 as [A B], H2 as [C D]. unfold bn_same. rewrite A, B, C, D, Z.eqb_refl, beq_refl. reflexivity. Qed.
Lemma bn_conf_out c hs r x : bn_is c hs r = false -> bn_is c hs x = true -> bn_same r x = false.
Proof.
  intros H1 H2. destruct (bn_same r x) eqn:S; [|reflexivity]. apply bn_is_iff in H2. destruct H2 as [C D].
  unfold bn_same in S. apply andb_true_iff in S. destruct S as [S1 S2]. apply Z.eqb_eq in S1. apply beq_eq in S2.
  assert (bn_is c hs r = true) by (apply bn_is_iff; split; congruence). congruence.
Qed.
Definition br_is (c : Z) (o : bytes) (r : bc_real) : bool := (br_cache r =? c)%Z && beq (br_output r) o.
Lemma br_is_iff c hs r : br_is c hs r = true <-> br_cache r = c /\ br_output r = hs.
Proof. unfold br_is. rewrite andb_true_iff, Z.eqb_eq, beq_eq. tauto. Qed.
Lemma br_conf_in c hs r x : br_is c hs r = true -> br_is c hs x = true -> br_same r x = true.
Proof. intros H1 H2. apply br_is_iff in H1, H2. destruct H1 as [A B], H2 as [C D]. unfold br_same. rewrite A, B, C, D, Z.eqb_refl, beq_refl. reflexivity. Qed.
Lemma br_conf_out c hs r x : br_is c hs r = false -> br_is c hs x = true -> br_same r x = false.
Proof.
  intros H1 H2. destruct (br_same r x) eqn:S; [|reflexivity]. apply br_is_iff in H2. destruct H2 as [C D].
  unfold br_same in S. apply andb_true_iff in S. destruct S as [S1 S2]. apply Z.eqb_eq in S1. apply beq_eq in S2.
  assert (br_is c hs r = true) by (apply br_is_iff; split; congruence). congruence.
Qed.
Definition stored_row (e : bc_op * res Z) (r : bc_nar) : Prop :=
  nar_stored e (bn_cache r) (bn_hash r) (bn_present r) (bn_info r) (bn_ts r).
(** What a step does to the rows of a key. *)
Lemma bc_nars_step fk o d r d' : bc_step fk o d = (r, d') ->
  (b_nars d' = b_nars d /\ (forall x, ~ stored_row (o, r) x) /\ (forall t0 t1 n, (o, r) <> (BPurge t0 t1, Ok n))) \/
  (exists x, b_nars d' = replace_into bn_same x (b_nars d) /\ (forall y, stored_row (o, r) y <-> y = x) /\ (forall t0 t1 n, (o, r) <> (BPurge t0 t1, Ok n))) \/
  (exists t0 t1, o = BPurge t0 t1 /\ r = Ok 0%Z /\ b_nars d' =
    filter (fun r => negb (((bn_present r =? 0) && (bn_ts r <? t0)) || ((bn_present r =? 1) && (bn_ts r <? t1)))%Z) (b_nars d)).
Proof.
  destruct o as [u ts dir m p gap|c hs i ts|c hs ts|c oo ct ts|c oo ts|v|t0 t1]; cbn [bc_step]; intros H.
  - left. split; [|split; [intros x [_ [[E _]|[E _]]]; discriminate E|intros; discriminate]].
    unfold bc_InsertCache in H. destruct (find _ _); [injection H as <- <-; reflexivity|].
    destruct (next_id (b_seq d) gap); injection H as <- <-; reflexivity.
  - unfold bc_InsertNar, put_nar in H. destruct (fk && _).
    + left. injection H as <- <-. split; [reflexivity|]. split; [intros x [[n E] _]; discriminate E|intros; discriminate].
    + right. left. injection H as <- <-. cbn [b_nars fst snd]. eexists. split; [reflexivity|]. split; [|intros; discriminate].
      intros y. unfold stored_row, nar_stored. cbn [fst snd]. split.
      * intros [_ [[E P]|[E _]]]; [|discriminate]. destruct y; cbn in *. injection E. intros. subst. reflexivity.
      * intros ->. cbn. split; [eauto|auto].
  - unfold bc_InsertMissingNAR, put_nar in H. destruct (fk && _).
    + left. injection H as <- <-. split; [reflexivity|]. split; [intros x [[n E] _]; discriminate E|intros; discriminate].
    + right. left. injection H as <- <-. cbn [b_nars fst snd]. eexists. split; [reflexivity|]. split; [|intros; discriminate].
      intros y. unfold stored_row, nar_stored. cbn [fst snd]. split.
      * intros [_ [[E _]|[E [P I]]]]; [discriminate|]. destruct y; cbn in *. injection E. intros. subst. reflexivity.
      * intros ->. cbn. split; [eauto|auto].
  - left. unfold bc_InsertRealisation, put_real in H. split; [destruct (fk && _); injection H as <- <-; reflexivity|].
    split; [intros x [_ [[E _]|[E _]]]; discriminate E|intros; discriminate].
  - left. unfold bc_InsertMissingRealisation, put_real in H. split; [destruct (fk && _); injection H as <- <-; reflexivity|].
    split; [intros x [_ [[E _]|[E _]]]; discriminate E|intros; discriminate].
  - left. injection H as <- <-. split; [reflexivity|]. split; [intros x [_ [[E _]|[E _]]]; discriminate E|intros; discriminate].
  - right. right. injection H as <- <-. exists t0, t1. auto.
Qed.
Lemma present_flag fk h r : In r (b_nars (snd (bc_run fk h))) -> bn_present r = 0%Z \/ bn_present r = 1%Z.
Proof.
  revert r. induction h as [|x h IH] using rev_ind; intros r; [intros []|]. rewrite bc_run_snoc.
  destruct x as [o [|]]; cbn [fst snd]; [|exact (IH r)].
  destruct (bc_step fk o (snd (bc_run fk h))) as [res d'] eqn:S. cbn [snd]. apply bc_nars_step in S.
  destruct S as [(-> & _)|[(y & -> & T & _)|(t0 & t1 & _ & _ & ->)]]; [apply IH| |].
  - unfold replace_into. intros [<-|I].
    + destruct (proj2 (T y) eq_refl) as [_ [[_ P]|[_ [P _]]]]; auto.
    + apply filter_In in I. apply IH. tauto.
  - intros I. apply filter_In in I. apply IH. tauto.
Qed.
Lemma bc_nar_cell fk c hs h :
  let cell := filter (bn_is c hs) (b_nars (snd (bc_run fk h))) in
  length cell <= 1 /\
  forall r, In r cell <->
    since (fun e => stored_row e r /\ bn_is c hs r = true) (nar_kept c hs (bn_present r) (bn_ts r)) (fst (bc_run fk h)).
Proof.
  cbn zeta.
  apply (cell_since_ev (fun h => fst (bc_run fk h)) (fun h => filter (bn_is c hs) (b_nars (snd (bc_run fk h))))
    (fun e r => stored_row e r /\ bn_is c hs r = true) (fun e r => nar_kept c hs (bn_present r) (bn_ts r) e)); [reflexivity|reflexivity|].
  clear h. intros h x. rewrite bc_run_snoc. destruct x as [o ok]. cbn [fst snd].
  assert (KS : forall o r, (exists p i t, nar_stored (o, r) c hs p i t) <-> exists y, stored_row (o, r) y /\ bn_is c hs y = true).
  { intros o' r'. split.
    - intros (p & i & t & N). exists (BN c hs i t p). split; [exact N|]. apply bn_is_iff. auto.
    - intros (y & N & K). apply bn_is_iff in K. destruct K as [<- <-]. do 3 eexists. exact N. }
  destruct ok.
  - destruct (bc_step fk o (snd (bc_run fk h))) as [res d'] eqn:S. cbn [fst snd]. eexists. split; [reflexivity|].
    apply bc_nars_step in S. destruct S as [(-> & T & P)|[(y & -> & T & P)|(t0 & t1 & -> & -> & ->)]].
    + right. split; [intros r [N _]; exact (T _ N)|]. exists (fun _ => true). rewrite filter_true. split; [reflexivity|].
      intros r _. split; [|auto]. intros _. split; [|intros t0 t1 n E; destruct (P _ _ _ E)].
      intros p i t N. destruct (proj1 (KS o res)) as (z & Z1 & _); [eauto|exact (T _ Z1)].
    + rewrite cell_replace; [|intros K z; apply bn_conf_in; exact K|intros K z; apply bn_conf_out; exact K].
      destruct (bn_is c hs y) eqn:K.
      * left. exists y. split; [reflexivity|]. split.
        -- intros r'. rewrite T. split; [intros [E _]; exact E|intros ->; auto].
        -- intros r' _ [N _]. destruct (proj2 (KS o res)) as (p & i & t & Q); [exists y; split; [apply T; reflexivity|exact K]|exact (N _ _ _ Q)].
      * right. split; [intros r [N E]; apply T in N; congruence|]. exists (fun _ => true). rewrite filter_true. split; [reflexivity|].
        intros r _. split; [|auto]. intros _. split; [|intros t0 t1 n E; destruct (P _ _ _ E)].
        intros p i t N. destruct (proj1 (KS o res)) as (z & Z1 & Z2); [eauto|]. apply T in Z1. congruence.
    + right. split; [intros r [[_ [[E _]|[E _]]] _]; discriminate E|].
      eexists. split; [rewrite filter_filter|].
      * rewrite (filter_ext _ (fun x => bn_is c hs x && negb (((bn_present x =? 0) && (bn_ts x <? t0)) || ((bn_present x =? 1) && (bn_ts x <? t1)))%Z))
          by (intros; apply andb_comm). rewrite <- filter_filter. reflexivity.
      * intros r I. apply filter_In in I. destruct I as [I K]. pose proof (present_flag _ _ _ I) as F.
        unfold nar_kept. split.
        -- intros Q. split; [intros p i t [_ [[E _]|[E _]]]; discriminate E|]. intros a b n E. injection E as <- <- <-.
           destruct F as [F|F]; rewrite F in *; cbn in *; destruct (bn_ts r <? t0)%Z eqn:L0, (bn_ts r <? t1)%Z eqn:L1; cbn in Q; try discriminate;
             rewrite ?Z.ltb_ge in *; lia.
        -- intros [_ Q]. specialize (Q t0 t1 0%Z eq_refl).
           destruct F as [F|F]; rewrite F in *; cbn in *; destruct (bn_ts r <? t0)%Z eqn:L0, (bn_ts r <? t1)%Z eqn:L1; cbn; try reflexivity;
             rewrite ?Z.ltb_lt in *; lia.
  - eexists. split; [reflexivity|]. right. split; [intros r [[[n E] _] _]; discriminate E|].
    exists (fun _ => true). rewrite filter_true. split; [reflexivity|]. intros r _. split; [|auto]. intros _.
    split; [intros p i t [[n E] _]; discriminate E|intros t0 t1 n E; discriminate E].
Qed.

Definition stored_real (e : bc_op * res Z) (r : bc_real) : Prop :=
  real_stored e (br_cache r) (br_output r) (br_content r) (br_ts r).
Lemma bc_reals_step fk o d r d' : bc_step fk o d = (r, d') ->
  (b_reals d' = b_reals d /\ (forall x, ~ stored_real (o, r) x)) \/
  (exists x, b_reals d' = replace_into br_same x (b_reals d) /\ (forall y, stored_real (o, r) y <-> y = x)).
Proof.
  destruct o as [u ts dir m p gap|c hs i ts|c hs ts|c oo ct ts|c oo ts|v|t0 t1]; cbn [bc_step]; intros H.
  - left. split; [|intros x [_ [E|[E _]]]; discriminate E].
    unfold bc_InsertCache in H. destruct (find _ _); [injection H as <- <-; reflexivity|].
    destruct (next_id (b_seq d) gap); injection H as <- <-; reflexivity.
  - left. unfold bc_InsertNar, put_nar in H. split; [destruct (fk && _); injection H as <- <-; reflexivity|]. intros x [_ [E|[E _]]]; discriminate E.
  - left. unfold bc_InsertMissingNAR, put_nar in H. split; [destruct (fk && _); injection H as <- <-; reflexivity|]. intros x [_ [E|[E _]]]; discriminate E.
  - unfold bc_InsertRealisation, put_real in H. destruct (fk && _).
    + left. injection H as <- <-. split; [reflexivity|]. intros x [[n E] _]; discriminate E.
    + right. injection H as <- <-. cbn [b_reals fst snd]. eexists. split; [reflexivity|].
      intros y. unfold stored_real, real_stored. cbn [fst snd]. split.
      * intros [_ [E|[E _]]]; [|discriminate]. destruct y; cbn in *. injection E. intros. subst. reflexivity.
      * intros ->. cbn. split; [eauto|auto].
  - unfold bc_InsertMissingRealisation, put_real in H. destruct (fk && _).
    + left. injection H as <- <-. split; [reflexivity|]. intros x [[n E] _]; discriminate E.
    + right. injection H as <- <-. cbn [b_reals fst snd]. eexists. split; [reflexivity|].
      intros y. unfold stored_real, real_stored. cbn [fst snd]. split.
      * intros [_ [E|[E I]]]; [discriminate|]. destruct y; cbn in *. injection E. intros. subst. reflexivity.
      * intros ->. cbn. split; [eauto|auto].
  - left. injection H as <- <-. split; [reflexivity|]. intros x [_ [E|[E _]]]; discriminate E.
  - left. injection H as <- <-. split; [reflexivity|]. intros x [_ [E|[E _]]]; discriminate E.
Qed.
Lemma bc_real_cell fk c o h :
  let cell := filter (br_is c o) (b_reals (snd (bc_run fk h))) in
  length cell <= 1 /\
  forall r, In r cell <-> since (fun e => stored_real e r /\ br_is c o r = true) (real_kept c o) (fst (bc_run fk h)).
Proof.
  cbn zeta.
  apply (cell_since_ev (fun h => fst (bc_run fk h)) (fun h => filter (br_is c o) (b_reals (snd (bc_run fk h))))
    (fun e r => stored_real e r /\ br_is c o r = true) (fun e _ => real_kept c o e)); [reflexivity|reflexivity|].
  clear h. intros h x. rewrite bc_run_snoc. destruct x as [op ok]. cbn [fst snd].
  assert (KS : forall op r, (exists ct t, real_stored (op, r) c o ct t) <-> exists y, stored_real (op, r) y /\ br_is c o y = true).
  { intros o' r'. split.
    - intros (i & t & N). exists (BR c o i t). split; [exact N|]. apply br_is_iff. auto.
    - intros (y & N & K). apply br_is_iff in K. destruct K as [<- <-]. do 2 eexists. exact N. }
  destruct ok.
  - destruct (bc_step fk op (snd (bc_run fk h))) as [res d'] eqn:S. cbn [fst snd]. eexists. split; [reflexivity|].
    apply bc_reals_step in S. destruct S as [(-> & T)|(y & -> & T)].
    + right. split; [intros r [N _]; exact (T _ N)|]. exists (fun _ => true). rewrite filter_true. split; [reflexivity|].
      intros r _. split; [|auto]. intros _. 
      intros i t N. destruct (proj1 (KS op res)) as (z & Z1 & _); [eauto|exact (T _ Z1)].
    + rewrite cell_replace; [|intros K z; apply br_conf_in; exact K|intros K z; apply br_conf_out; exact K].
      destruct (br_is c o y) eqn:K.
      * left. exists y. split; [reflexivity|]. split.
        -- intros r'. rewrite T. split; [intros [E _]; exact E|intros ->; auto].
        -- intros r' _ N. destruct (proj2 (KS op res)) as (i & t & Q); [exists y; split; [apply T; reflexivity|exact K]|exact (N _ _ Q)].
      * right. split; [intros r [N E]; apply T in N; congruence|]. exists (fun _ => true). rewrite filter_true. split; [reflexivity|].
        intros r _. split; [|auto]. intros _. 
        intros i t N. destruct (proj1 (KS op res)) as (z & Z1 & Z2); [eauto|]. apply T in Z1. congruence.
  - eexists. split; [reflexivity|]. right. split; [intros r [[[n E] _] _]; discriminate E|].
    exists (fun _ => true). rewrite filter_true. split; [reflexivity|]. intros r _. split; [|auto]. intros _ i t [[n E] _]; discriminate E.
Qed.

(** The caches: urls and ids are unique, ids are at most the sequence number. *)
Definition caches_ok (ev : list (bc_op * res Z)) (d : bcdb) : Prop :=
  NoDup (map bc_url (b_caches d)) /\ NoDup (map bc_id (b_caches d)) /\
  Forall (fun x => (bc_id x <= b_seq d)%Z) (b_caches d) /\
  (forall x, In x (b_caches d) <->
     since (cache_stored (bc_url x) (bc_id x) (bc_ts x) (bc_storeDir x) (bc_mass x) (bc_prio x)) (cache_kept (bc_url x)) ev) /\
  (forall u i ts dir m p, Exists (cache_stored u i ts dir m p) ev -> exists x, In x (b_caches d) /\ bc_url x = u /\ bc_id x = i).
Lemma find_none_in {A} (f : A -> bool) l : find f l = None -> forall x, In x l -> f x = false.
Proof. exact (find_none f l). Qed.
Lemma nodup_find {A} (f : A -> bytes) (l : list A) u x : NoDup (map f l) -> find (fun y => beq (f y) u) l = Some x ->
  In x l /\ f x = u /\ forall y, In y l -> f y = u -> y = x.
Proof.
  intros N H. apply find_some in H. destruct H as [I E]. apply beq_eq in E. repeat split; auto.
  intros y Iy Ey. clear - N I E Iy Ey. induction l as [|a l IH]; [destruct I|]. cbn in N. inversion N; subst.
  destruct I as [->|I], Iy as [->|Iy]; auto.
  - exfalso. apply H1. rewrite <- Ey. apply in_map. exact Iy.
  - exfalso. apply H1. rewrite Ey. apply in_map. exact I.
Qed.
Lemma caches_same fk o d r d' : bc_step fk o d = (r, d') -> (forall u ts dir m p gap, o <> BInsertCache u ts dir m p gap) ->
  b_caches d' = b_caches d /\ b_seq d' = b_seq d.
Proof.
  destruct o as [u ts dir m p gap|c hs i ts|c hs ts|c oo ct ts|c oo ts|v|t0 t1]; cbn [bc_step]; intros H N;
   [destruct (N u ts dir m p gap eq_refl)| | | | | |];
   unfold bc_InsertNar, bc_InsertMissingNAR, bc_InsertRealisation, bc_InsertMissingRealisation, put_nar, put_real in H;
   try destruct (fk && _); injection H as <- <-; auto.
Qed.
Lemma caches_run fk h : caches_ok (fst (bc_run fk h)) (snd (bc_run fk h)).
Proof.
  induction h as [|x h IH] using rev_ind.
  - split; [constructor|]. split; [constructor|]. split; [constructor|]. split.
    + intros x. split; [intros []|]. intros H. destruct (since_nil _ _ H).
    + intros u i ts dir m p H. inversion H.
  - rewrite bc_run_snoc. set (ev := fst (bc_run fk h)) in *. set (d := snd (bc_run fk h)) in *.
    destruct IH as (I1 & I2 & I3 & I4 & I5).
    assert (Skip : forall o r d', b_caches d' = b_caches d -> b_seq d' = b_seq d ->
      (forall u i ts dir m p, ~ cache_stored u i ts dir m p (o, r)) -> caches_ok (ev ++ [(o, r)]) d').
    { intros o r d' E1 E2 N. unfold caches_ok. rewrite E1, E2. do 3 (split; [assumption|]). split.
      - intros y. rewrite since_snoc, I4. split; [intros H; right; split; [exact H|]; intros i ts dir m p; apply N|].
        intros [H|[H _]]; [destruct (N _ _ _ _ _ _ H)|exact H].
      - intros u i ts dir m p H. apply Exists_app in H. destruct H as [H|H]; [eauto|]. inversion H as [? ? H'|? ? H']; [destruct (N _ _ _ _ _ _ H')|inversion H']. }
    destruct x as [o ok]. cbn [fst snd]. destruct ok; [|apply Skip; auto; intros u i ts dir m p [g E]; discriminate E].
    destruct (bc_step fk o d) as [r d'] eqn:S. cbn [fst snd].
    destruct o as [u ts dir m p gap|c hs i ts|c hs ts|c oo ct ts|c oo ts|v|t0 t1];
      try (apply caches_same in S; [|intros; discriminate]; destruct S as [S1 S2]; apply Skip; auto; intros u0 i0 ts0 dir0 m0 p0 [g E]; discriminate E).
    cbn [bc_step] in S. unfold bc_InsertCache in S.
    destruct (find (fun x => beq (bc_url x) u) (b_caches d)) as [w|] eqn:F.
    + injection S as <- <-. destruct (nodup_find _ _ _ _ I1 F) as (W1 & W2 & W3). unfold caches_ok. cbn [b_caches b_seq].
      assert (U : map bc_url (map (fun y => if beq (bc_url y) u then BC (bc_id y) u ts dir m p else y) (b_caches d)) = map bc_url (b_caches d)).
      { rewrite map_map. apply map_ext. intros y. destruct (beq (bc_url y) u) eqn:B; [apply beq_eq in B; cbn; congruence|reflexivity]. }
      assert (V : map bc_id (map (fun y => if beq (bc_url y) u then BC (bc_id y) u ts dir m p else y) (b_caches d)) = map bc_id (b_caches d)).
      { rewrite map_map. apply map_ext. intros y. destruct (beq (bc_url y) u); reflexivity. }
      rewrite U, V. do 2 (split; [assumption|]). split.
      { apply Forall_forall. intros y I. apply in_map_iff in I. destruct I as (z & <- & I). rewrite Forall_forall in I3.
        destruct (beq (bc_url z) u); apply (I3 z I). }
      split.
      * intros y. rewrite since_snoc, in_map_iff. split.
        -- intros (z & <- & I). destruct (beq (bc_url z) u) eqn:B.
           ++ left. apply beq_eq in B. rewrite (W3 z I B). cbn. exists gap. reflexivity.
           ++ right. rewrite <- I4. split; [exact I|]. intros i0 ts0 dir0 m0 p0 [g E]. assert (beq (bc_url z) u = true) by (apply beq_eq; congruence). congruence.
        -- intros [[g E]|[H K]].
           ++ exists w. split; [|exact W1]. rewrite W2, beq_refl. destruct y; cbn in *. injection E. intros. subst. reflexivity.
           ++ rewrite <- I4 in H. exists y. split; [|exact H]. destruct (beq (bc_url y) u) eqn:B; [|reflexivity].
              exfalso. apply beq_eq in B. apply (K (bc_id w) ts dir m p). exists gap. rewrite B. reflexivity.
      * intros u0 i0 ts0 dir0 m0 p0 H. apply Exists_app in H. destruct H as [H|H].
        -- destruct (I5 _ _ _ _ _ _ H) as (z & Z1 & Z2 & Z3).
           exists (if beq (bc_url z) u then BC (bc_id z) u ts dir m p else z). split; [apply in_map_iff; exists z; auto|].
           destruct (beq (bc_url z) u) eqn:B; [apply beq_eq in B; cbn; split; congruence|auto].
        -- inversion H as [? ? [g E]|? ? H']; [|inversion H']. injection E. intros. subst u0 i0.
           exists (BC (bc_id w) u ts dir m p). split; [|auto]. apply in_map_iff. exists w. rewrite W2, beq_refl. auto.
    + assert (NU : ~ In u (map bc_url (b_caches d))).
      { intros I. apply in_map_iff in I. destruct I as (z & E & I). apply (find_none_in _ _ F) in I. rewrite E, beq_refl in I. discriminate. }
      unfold next_id in S. destruct (2 ^ 63 - 1 <? b_seq d + 1 + Z.of_N gap)%Z.
      * injection S as <- <-. apply Skip; auto. intros u0 i0 ts0 dir0 m0 p0 [g E]; discriminate E.
      * injection S as <- <-. unfold caches_ok. cbn [b_caches b_seq map bc_url bc_id]. set (n := (b_seq d + 1 + Z.of_N gap)%Z).
        assert (L : (b_seq d < n)%Z) by (unfold n; lia). rewrite Forall_forall in I3.
        split; [constructor; assumption|]. split.
        { constructor; [|assumption]. intros I. apply in_map_iff in I. destruct I as (z & E & I). specialize (I3 _ I). lia. }
        split. { constructor; [cbn; lia|]. apply Forall_forall. intros z I. specialize (I3 _ I). lia. }
        split.
        -- intros y. rewrite since_snoc. cbn [In]. split.
           ++ intros [<-|I]; [left; exists gap; reflexivity|]. right. rewrite <- I4. split; [exact I|].
              intros i0 ts0 dir0 m0 p0 [g E]. injection E. intros. subst. apply NU. apply in_map. exact I.
           ++ intros [[g E]|[H K]]; [left; destruct y; cbn in *; injection E; intros; subst; reflexivity|]. right. apply I4. exact H.
        -- intros u0 i0 ts0 dir0 m0 p0 H. apply Exists_app in H. destruct H as [H|H].
           ++ destruct (I5 _ _ _ _ _ _ H) as (z & Z1 & Z2). exists z. split; [right; exact Z1|exact Z2].
           ++ inversion H as [? ? [g E]|? ? H']; [|inversion H']. injection E. intros. subst. eexists. split; [left; reflexivity|auto].
Qed.
Lemma purge_run fk h : b_purge (snd (bc_run fk h)) = [] \/ exists v, b_purge (snd (bc_run fk h)) = [([], v)].
Proof.
  induction h as [|x h IH] using rev_ind; [left; reflexivity|]. rewrite bc_run_snoc. destruct x as [o [|]]; cbn [fst snd]; [|exact IH].
  destruct o; cbn [bc_step snd]; auto;
    unfold bc_InsertCache, bc_InsertNar, bc_InsertMissingNAR, bc_InsertRealisation, bc_InsertMissingRealisation, put_nar, put_real;
    try (destruct (fk && _); exact IH).
  - destruct (find _ _); [exact IH|]. destruct (next_id _ _); exact IH.
  - right. exists v. unfold bc_UpdateLastPurge, replace_into. cbn [b_purge]. f_equal.
    destruct IH as [->|[v' ->]]; reflexivity.
Qed.
Definition purge_stored (v : option Z) (e : bc_op * res Z) : Prop := e = (BUpdatePurge v, Ok 0%Z).
Lemma purge_since fk h v : In ([], v) (b_purge (snd (bc_run fk h))) <->
  since (fun e => e = (BUpdatePurge v, Ok 0%Z)) (fun e => forall v', e <> (BUpdatePurge v', Ok 0%Z)) (fst (bc_run fk h)).
Proof.
  induction h as [|x h IH] using rev_ind.
  - split; [intros []|]. intros H. destruct (since_nil _ _ H).
  - rewrite bc_run_snoc. set (ev := fst (bc_run fk h)) in *. set (d := snd (bc_run fk h)) in *.
    assert (Skip : forall o r d', b_purge d' = b_purge d -> (forall v', (o, r) <> (BUpdatePurge v', Ok 0%Z)) ->
      (In ([], v) (b_purge d') <-> since (fun e => e = (BUpdatePurge v, Ok 0%Z)) (fun e => forall v', e <> (BUpdatePurge v', Ok 0%Z)) (ev ++ [(o, r)]))).
    { intros o r d' E N. rewrite E, since_snoc, IH. split; [intros H; right; auto|]. intros [H|[H _]]; [destruct (N _ H)|exact H]. }
    destruct x as [o [|]]; cbn [fst snd]; [|apply Skip; [reflexivity|intros v' E; discriminate E]].
    destruct (bc_step fk o d) as [r d'] eqn:S. cbn [fst snd].
    destruct o as [u ts dir m p gap|c hs i ts|c hs ts|c oo ct ts|c oo ts|v0|t0 t1]; cbn [bc_step] in S;
      unfold bc_InsertCache, bc_InsertNar, bc_InsertMissingNAR, bc_InsertRealisation, bc_InsertMissingRealisation, put_nar, put_real in S.
    + apply Skip; [|intros v' E; discriminate E]. destruct (find _ _); [|destruct (next_id _ _)]; injection S as <- <-; reflexivity.
    + apply Skip; [|intros v' E; discriminate E]. destruct (fk && _); injection S as <- <-; reflexivity.
    + apply Skip; [|intros v' E; discriminate E]. destruct (fk && _); injection S as <- <-; reflexivity.
    + apply Skip; [|intros v' E; discriminate E]. destruct (fk && _); injection S as <- <-; reflexivity.
    + apply Skip; [|intros v' E; discriminate E]. destruct (fk && _); injection S as <- <-; reflexivity.
    + injection S as <- <-. rewrite since_snoc. unfold bc_UpdateLastPurge, replace_into. cbn [b_purge In]. split.
      * intros [E|I]; [left; congruence|]. exfalso. apply filter_In in I. destruct I as [_ I]. cbn in I. discriminate.
      * intros [E|[_ N]]; [left; congruence|]. exfalso. exact (N v0 eq_refl).
    + apply Skip; [|intros v' E; discriminate E]. injection S as <- <-. reflexivity.
Qed.

(** * nix_v10 *)
Lemma nx_run_snoc fk h x : nx_run fk (h ++ [x]) =
  let '(r, d') := if snd x then nx_step fk (fst x) (snd (nx_run fk h)) else (Err ErrEnv, snd (nx_run fk h)) in
  (fst (nx_run fk h) ++ [(fst x, r)], d').
Proof. unfold nx_run. rewrite fold_left_app. reflexivity. Qed.
Definition at_path (p : bytes) (v : vpath) : bool := beq (vp_path v) p.
Definition look (p : bytes) (d : nxdb) : option vpath := find (at_path p) (n_paths d).
Lemma look_some p d v : look p d = Some v -> In v (n_paths d) /\ vp_path v = p.
Proof. intros H. apply find_some in H. destruct H as [I E]. apply beq_eq in E. auto. Qed.
Lemma look_none p d : look p d = None -> forall v, In v (n_paths d) -> vp_path v <> p.
Proof. intros H v I E. apply (find_none _ _ H) in I. unfold at_path in I. rewrite E, beq_refl in I. discriminate. Qed.
Lemma nodup_key {A K} (f : A -> K) (l : list A) x y : NoDup (map f l) -> In x l -> In y l -> f x = f y -> x = y.
Proof.
  induction l as [|a l IH]; [intros _ []|]. cbn. intros N I J E. inversion N; subst.
  destruct I as [->|I], J as [->|J]; auto.
  - exfalso. apply H1. rewrite E. apply in_map. exact J.
  - exfalso. apply H1. rewrite <- E. apply in_map. exact I.
Qed.
Lemma look_in p d v : NoDup (map vp_path (n_paths d)) -> In v (n_paths d) -> vp_path v = p -> look p d = Some v.
Proof.
  intros N I E. destruct (look p d) as [w|] eqn:L.
  - apply look_some in L. destruct L as [J F]. f_equal. apply (nodup_key vp_path (n_paths d)); auto. congruence.
  - destruct (look_none _ _ L v I E).
Qed.
Lemma nodup_map_filter {A K} (f : A -> K) (q : A -> bool) l : NoDup (map f l) -> NoDup (map f (filter q l)).
Proof.
  induction l as [|a l IH]; [auto|]. cbn. intros N. inversion N; subst. destruct (q a); auto. cbn. constructor; auto.
  intros I. apply H1. apply in_map_iff in I. destruct I as (x & E & I). apply filter_In in I. apply in_map_iff. exists x. tauto.
Qed.
Lemma filter_look p d : NoDup (map vp_path (n_paths d)) ->
  filter (fun v => beq (vp_path v) p) (n_paths d) = match look p d with Some v => [v] | None => [] end.
Proof.
  unfold look. induction (n_paths d) as [|a l IH]; [reflexivity|]. cbn [map filter find]. intros N. inversion N; subst.
  unfold at_path at 1. destruct (beq (vp_path a) p) eqn:B.
  - f_equal. apply filter_nil. intros x I. destruct (beq (vp_path x) p) eqn:C; [|reflexivity]. apply beq_eq in B, C.
    exfalso. apply H1. rewrite B, <- C. apply in_map. exact I.
  - apply IH. assumption.
Qed.
Lemma info_look p d r : NoDup (map vp_path (n_paths d)) -> (nx_QueryPathInfo p d r <->
  r = match look p d with Some v => Ok (vp_id v, vp_info v) | None => Err ErrNoRows end).
Proof.
  intros N. unfold nx_QueryPathInfo. rewrite (filter_look _ _ N). destruct (look p d) as [v|]; cbn.
  - split; [intros (a & [<-|[]] & ->); reflexivity|]. intros ->. eauto.
  - tauto.
Qed.
Lemma valid_look p i d : NoDup (map vp_path (n_paths d)) -> (valid_as p i d <-> exists v, look p d = Some v /\ vp_id v = i).
Proof.
  intros N. unfold valid_as. split.
  - intros (info & H). apply info_look in H; [|exact N]. destruct (look p d) as [v|]; [|discriminate].
    exists v. split; [reflexivity|]. congruence.
  - intros (v & L & E). exists (vp_info v). apply info_look; [exact N|]. rewrite L. congruence.
Qed.
Lemma valid_in p i d : NoDup (map vp_path (n_paths d)) -> (valid_as p i d <-> exists v, In v (n_paths d) /\ vp_path v = p /\ vp_id v = i).
Proof.
  intros N. rewrite (valid_look _ _ _ N). split.
  - intros (v & L & E). apply look_some in L. exists v. tauto.
  - intros (v & I & E & F). exists v. split; [apply look_in; auto|exact F].
Qed.

(** What a step does to the paths. *)
Definition expect1 (p : bytes) (cur : option path_info) (e : nx_op * res unit) : option path_info :=
  match e with
  | (NRegister q i _, Ok _) => if beq q p then Some i else cur
  | (NUpdate n hs u s c q, Ok _) =>
      if beq q p then option_map (fun i => PI hs (pi_time i) (pi_deriver i) n u s c) cur else cur
  | (NInvalidate q, Ok _) => if beq q p then None else cur
  | _ => cur
  end.
Lemma expect_snoc p ev e : nx_expect p (ev ++ [e]) = expect1 p (nx_expect p ev) e.
Proof. unfold nx_expect. rewrite fold_left_app. reflexivity. Qed.
Inductive path_step (o : nx_op) (r : res unit) (d d' : nxdb) : Prop :=
| PsSame : n_paths d' = n_paths d -> n_seq d' = n_seq d -> (forall q, o <> NInvalidate q \/ forall u, r <> Ok u) ->
    (forall p cur, expect1 p cur (o, r) = cur) -> path_step o r d d'
| PsGone q : o = NInvalidate q -> r = Ok tt -> look q d = None -> d' = d -> path_step o r d d'
| PsReg q i gap n : o = NRegister q i gap -> r = Ok tt -> look q d = None -> (n_seq d < n)%Z ->
    n_paths d' = VP n q i :: n_paths d -> n_seq d' = n -> n_refs d' = n_refs d -> n_outs d' = n_outs d -> path_step o r d d'
| PsUpd ns hs u s c q : o = NUpdate ns hs u s c q -> r = Ok tt -> d' = nx_UpdatePathInfo ns hs u s c q d -> path_step o r d d'
| PsInv q v : o = NInvalidate q -> r = Ok tt -> look q d = Some v -> n_seq d' = n_seq d ->
    n_paths d' = filter (fun v => negb (beq (vp_path v) q)) (n_paths d) ->
    (forall x, In x (n_refs d') -> In x (n_refs d)) -> (forall x, In x (n_refs d) -> In x (n_refs d') \/ nr_referrer x = vp_id v) ->
    (forall x, In x (n_outs d') -> In x (n_outs d)) -> (forall x, In x (n_outs d) -> In x (n_outs d') \/ no_drv x = vp_id v) ->
    path_step o r d d'.
Lemma next_id_ok s g n : next_id s g = Ok n -> (s < n)%Z.
Proof. unfold next_id. destruct (_ <? _)%Z; [discriminate|]. intros [= <-]. lia. Qed.
Lemma find_ext' {A} (f g : A -> bool) l : (forall x, f x = g x) -> find f l = find g l.
Proof. intros H. induction l as [|a l IH]; [reflexivity|]. cbn. rewrite H, IH. reflexivity. Qed.
Lemma nx_paths_step fk o d r d' : nx_step fk o d = (r, d') -> path_step o r d d'.
Proof.
  destruct o as [p i gap|ns hs u s c p|a b|i o p|p]; cbn [nx_step]; intros H.
  - unfold nx_RegisterValidPath in H. destruct (existsb _ _) eqn:X.
    + injection H as <- <-. apply PsSame; auto. left. discriminate.
    + destruct (next_id (n_seq d) gap) as [n|e|m] eqn:N; injection H as <- <-.
      * apply next_id_ok in N. eapply PsReg; try reflexivity; [|exact N].
        destruct (look p d) as [v|] eqn:L; [|reflexivity]. exfalso. apply look_some in L. destruct L as [I E].
        assert (existsb (fun v => beq (vp_path v) p) (n_paths d) = true).
        { apply existsb_exists. exists v. split; [exact I|]. apply beq_eq. exact E. } congruence.
      * apply PsSame; auto. left. discriminate.
      * apply PsSame; auto. left. discriminate.
  - injection H as <- <-. eapply PsUpd; reflexivity.
  - unfold nx_AddReference in H. destruct (fk && _); injection H as <- <-; apply PsSame; auto; left; discriminate.
  - unfold nx_AddDerivationOutput in H. destruct (fk && _); injection H as <- <-; apply PsSame; auto; left; discriminate.
  - unfold nx_InvalidatePath in H. fold (at_path p) in H. fold (look p d) in H. destruct (look p d) as [v|] eqn:L.
    + destruct fk.
      * destruct (existsb _ _).
        { injection H as <- <-. apply PsSame; auto. right. discriminate. }
        injection H as <- <-. eapply PsInv; try reflexivity; [exact L|..]; cbn [n_refs n_outs].
        -- intros x I. apply filter_In in I. destruct I as [I _]. apply filter_In in I. tauto.
        -- intros x I. destruct (Z.eq_dec (nr_referrer x) (vp_id v)) as [E|E]; [auto|]. left.
           apply filter_In. split; [apply filter_In; split; [exact I|]|]; apply Z.eqb_neq in E; rewrite E; reflexivity.
        -- intros x I. apply filter_In in I. tauto.
        -- intros x I. destruct (Z.eq_dec (no_drv x) (vp_id v)) as [E|E]; [auto|]. left.
           apply filter_In. split; [exact I|]; apply Z.eqb_neq in E; rewrite E; reflexivity.
      * injection H as <- <-. eapply PsInv; try reflexivity; [exact L|..]; cbn [n_refs n_outs]; auto.
        -- intros x I. apply filter_In in I. tauto.
        -- intros x I. destruct (Z.eq_dec (nr_referrer x) (vp_id v)) as [E|E]; [auto|]. left.
           apply filter_In. split; [exact I|]; apply Z.eqb_neq in E; rewrite E; reflexivity.
    + injection H as <- <-. eapply PsGone; eauto.
Qed.

Definition paths_ok (ev : list (nx_op * res unit)) (d : nxdb) : Prop :=
  NoDup (map vp_path (n_paths d)) /\ NoDup (map vp_id (n_paths d)) /\
  Forall (fun v => (vp_id v <= n_seq d)%Z) (n_paths d) /\
  (forall p, option_map vp_info (look p d) = nx_expect p ev).
Lemma find_map_upd (g : vpath -> vpath) p l : (forall v, vp_path (g v) = vp_path v) ->
  find (at_path p) (map g l) = option_map g (find (at_path p) l).
Proof.
  intros G. induction l as [|a l IH]; [reflexivity|]. cbn. unfold at_path at 1 3. rewrite G. destruct (beq (vp_path a) p); [reflexivity|exact IH].
Qed.
Lemma find_filter_ne q p l : find (at_path p) (filter (fun v => negb (beq (vp_path v) q)) l) = if beq q p then None else find (at_path p) l.
Proof.
  induction l as [|a l IH]; [destruct (beq q p); reflexivity|]. cbn [filter find].
  destruct (beq (vp_path a) q) eqn:A; cbn [negb].
  - rewrite IH. destruct (beq q p) eqn:B; [reflexivity|]. unfold at_path at 2. apply beq_eq in A. rewrite A, B. reflexivity.
  - cbn [find]. rewrite IH. unfold at_path at 1 3. destruct (beq (vp_path a) p) eqn:C; [|reflexivity].
    destruct (beq q p) eqn:B; [|reflexivity]. apply beq_eq in B, C. subst. rewrite beq_refl in A. discriminate.
Qed.
Lemma upd_ids ns hs u s c q d : map vp_id (n_paths (nx_UpdatePathInfo ns hs u s c q d)) = map vp_id (n_paths d) /\
  map vp_path (n_paths (nx_UpdatePathInfo ns hs u s c q d)) = map vp_path (n_paths d).
Proof.
  unfold nx_UpdatePathInfo. cbn [n_paths]. rewrite !map_map. split; apply map_ext; intros v; destruct (beq (vp_path v) q); reflexivity.
Qed.
Lemma paths_step ev d o r d' : paths_ok ev d -> path_step o r d d' -> paths_ok (ev ++ [(o, r)]) d'.
Proof.
  intros (I1 & I2 & I3 & I4) S. destruct S as [P Q _ X|q -> -> L ->|q i gap n -> -> L N P Q _ _|ns hs u s c q -> -> ->|q v -> -> L Q P _ _ _ _].
  - unfold paths_ok, look. rewrite P, Q. do 3 (split; [assumption|]). intros p. rewrite expect_snoc, X. apply I4.
  - do 3 (split; [assumption|]). intros p. rewrite expect_snoc, <- I4. unfold expect1. destruct (beq q p) eqn:B; [|reflexivity].
    apply beq_eq in B. subst. rewrite L. reflexivity.
  - unfold paths_ok, look. rewrite P, Q. cbn [map vp_path vp_id find]. rewrite Forall_forall in I3. split.
    { constructor; [|assumption]. intros I. apply in_map_iff in I. destruct I as (v & E & I). exact (look_none _ _ L v I E). }
    split. { constructor; [|assumption]. intros I. apply in_map_iff in I. destruct I as (v & E & I). specialize (I3 _ I). lia. }
    split. { constructor; [cbn; lia|]. apply Forall_forall. intros v I. specialize (I3 _ I). lia. }
    intros p. rewrite expect_snoc, <- I4. unfold expect1, at_path at 1. cbn [vp_path]. destruct (beq q p); reflexivity.
  - destruct (upd_ids ns hs u s c q d) as [U V]. unfold paths_ok. rewrite U, V. do 2 (split; [assumption|]). split.
    { apply Forall_forall. intros v I. apply (in_map vp_id) in I. rewrite U in I. apply in_map_iff in I. destruct I as (w & E & I).
      rewrite Forall_forall in I3. rewrite <- E. apply (I3 w I). }
    intros p. rewrite expect_snoc, <- I4. unfold look, nx_UpdatePathInfo. cbn [n_paths]. rewrite find_map_upd
      by (intros v; destruct (beq (vp_path v) q); reflexivity).
    unfold expect1. destruct (find (at_path p) (n_paths d)) as [v|] eqn:F; [|cbn; destruct (beq q p); reflexivity].
    apply find_some in F. destruct F as [_ F]. apply beq_eq in F. cbn [option_map]. rewrite F.
    destruct (beq p q) eqn:B, (beq q p) eqn:C; try reflexivity; exfalso.
    + apply beq_eq in B. subst q. rewrite beq_refl in C. discriminate.
    + apply beq_eq in C. subst q. rewrite beq_refl in B. discriminate.
  - unfold paths_ok, look. rewrite P, Q. do 2 (split; [apply nodup_map_filter; assumption|]). split.
    { apply Forall_forall. intros w I. apply filter_In in I. rewrite Forall_forall in I3. apply I3. tauto. }
    intros p. rewrite expect_snoc, <- I4, find_filter_ne. unfold expect1, look. destruct (beq q p); reflexivity.
Qed.
Lemma paths_run fk h : paths_ok (fst (nx_run fk h)) (snd (nx_run fk h)).
Proof.
  induction h as [|x h IH] using rev_ind.
  - do 2 (split; [constructor|]). split; [constructor|]. reflexivity.
  - rewrite nx_run_snoc. destruct x as [o [|]]; cbn [fst snd].
    + destruct (nx_step fk o (snd (nx_run fk h))) as [r d'] eqn:S. cbn [fst snd]. apply (paths_step _ _ _ _ _ IH). apply (nx_paths_step fk). exact S.
    + apply (paths_step _ _ _ _ _ IH). apply PsSame; auto.
      * right. discriminate.
      * intros p cur. destruct o; reflexivity.
Qed.

Definition ids (d : nxdb) : list Z := map vp_id (n_paths d).
Lemma ids_step o r ev d d' : paths_ok ev d -> path_step o r d d' ->
  (n_seq d <= n_seq d')%Z /\
  (forall i, In i (ids d') -> In i (ids d) \/ (n_seq d < i)%Z) /\
  (forall i, In i (ids d) -> In i (ids d') \/ exists q v, o = NInvalidate q /\ r = Ok tt /\ look q d = Some v /\ vp_id v = i).
Proof.
  intros (N0 & N & F & _) S. rewrite Forall_forall in F. unfold ids in *. destruct S as [P Q _ X|q -> -> L ->|q i gap n -> -> L M P Q _ _|ns hs u s c q -> -> ->|q v -> -> L Q P _ _ _ _].
  - rewrite P, Q. split; [lia|auto].
  - split; [lia|auto].
  - rewrite P, Q. cbn [map vp_id In]. split; [lia|]. split; [|auto]. intros j [<-|I]; auto.
  - destruct (upd_ids ns hs u s c q d) as [-> _]. cbn [nx_UpdatePathInfo n_seq]. split; [lia|auto].
  - rewrite P, Q. split; [lia|]. split.
    + intros i I. left. apply in_map_iff in I. destruct I as (w & <- & I). apply filter_In in I. apply in_map. tauto.
    + intros i I. apply in_map_iff in I. destruct I as (w & <- & I). destruct (beq (vp_path w) q) eqn:B.
      * right. exists q, v. do 3 (split; auto). apply look_some in L. destruct L as [J E].
        apply beq_eq in B. f_equal. apply (nodup_key vp_path (n_paths d)); auto. congruence.
      * left. apply in_map. apply filter_In. rewrite B. auto.
Qed.
Lemma inv_gone q v ev d d' : paths_ok ev d -> look q d = Some v -> n_paths d' = filter (fun v => negb (beq (vp_path v) q)) (n_paths d) -> ~ In (vp_id v) (ids d').
Proof.
  intros (N0 & N & F & _) L P I. unfold ids in I. rewrite P in I. apply in_map_iff in I. destruct I as (w & E & I). apply filter_In in I.
  destruct I as [I B]. apply look_some in L. destruct L as [J K]. assert (w = v) by (apply (nodup_key vp_id (n_paths d)); auto). subst w.
  rewrite K, beq_refl in B. discriminate.
Qed.
Lemma valid_id p i d : valid_as p i d -> In i (ids d).
Proof.
  intros (info & H). unfold nx_QueryPathInfo, one_of in H. destruct (map _ _) eqn:M; [discriminate|]. destruct H as (a & I & E).
  rewrite <- M in I. apply in_map_iff in I. destruct I as (v & <- & I). apply filter_In in I. unfold ids.
  replace i with (vp_id v) by congruence. apply in_map. tauto.
Qed.
Lemma id_le ev d i : paths_ok ev d -> In i (ids d) -> (i <= n_seq d)%Z.
Proof. intros (_ & _ & F & _) I. apply in_map_iff in I. destruct I as (v & <- & I). rewrite Forall_forall in F. auto. Qed.
Lemma id_path ev d i : paths_ok ev d -> In i (ids d) -> exists p, valid_as p i d.
Proof. intros (N & _) I. apply in_map_iff in I. destruct I as (v & <- & I). exists (vp_path v). apply valid_in; [exact N|]. eauto. Qed.
Lemma id_unique ev d p q i : paths_ok ev d -> valid_as p i d -> valid_as q i d -> p = q.
Proof.
  intros (N & N2 & _) H1 H2. apply valid_in in H1, H2; auto. destruct H1 as (v & I & <- & E), H2 as (w & J & <- & F).
  f_equal. apply (nodup_key vp_id (n_paths d)); auto. congruence.
Qed.
Lemma path_unique ev d p i j : paths_ok ev d -> valid_as p i d -> valid_as p j d -> i = j.
Proof.
  intros (N & _) H1 H2. apply valid_look in H1, H2; auto. destruct H1 as (v & I & <-), H2 as (w & J & <-). congruence.
Qed.
(** How long an id lives. *)
Lemma id_life fk h1 h2 p i : valid_as p i (snd (nx_run fk h1)) -> exists ev2, fst (nx_run fk (h1 ++ h2)) = fst (nx_run fk h1) ++ ev2 /\
  (i <= n_seq (snd (nx_run fk (h1 ++ h2))))%Z /\
  ((~ In (NInvalidate p, Ok tt) ev2 /\ valid_as p i (snd (nx_run fk (h1 ++ h2)))) \/
   (In (NInvalidate p, Ok tt) ev2 /\ ~ In i (ids (snd (nx_run fk (h1 ++ h2)))))).
Proof.
  intros V. induction h2 as [|x h2 IH] using rev_ind.
  - exists []. rewrite !app_nil_r. split; [reflexivity|]. split; [|left; split; [intros []|exact V]].
    apply (id_le _ _ _ (paths_run fk h1)). exact (valid_id _ _ _ V).
  - destruct IH as (ev2 & E & L & C). rewrite app_assoc, nx_run_snoc.
    pose proof (paths_run fk (h1 ++ h2)) as OK. set (d := snd (nx_run fk (h1 ++ h2))) in *.
    assert (G : forall o r d', path_step o r d d' -> exists ev2', (fst (nx_run fk (h1 ++ h2)) ++ [(o, r)] = fst (nx_run fk h1) ++ ev2') /\
       (i <= n_seq d')%Z /\ (~ In (NInvalidate p, Ok tt) ev2' /\ valid_as p i d' \/ In (NInvalidate p, Ok tt) ev2' /\ ~ In i (ids d'))).
    { intros o r d' S. exists (ev2 ++ [(o, r)]). split; [rewrite E, <- app_assoc; reflexivity|].
      destruct (ids_step _ _ _ _ _ OK S) as (S1 & S2 & S3). split; [lia|].
      destruct C as [[NI C]|[NI C]].
      2:{ right. split; [apply in_or_app; auto|]. intros I. apply S2 in I. destruct I as [I|I]; [auto|lia]. }
      pose proof (valid_id _ _ _ C) as I. pose proof (paths_step _ _ _ _ _ OK S) as OK'.
      destruct S as [P Q W X|q -> -> LL ->|q j gap n -> -> LL M P Q _ _|ns hs u s c q -> -> ->|q v -> -> LL Q P _ _ _ _].
      - left. split.
        + intros J. apply in_app_or in J. destruct J as [J|[J|[]]]; [auto|]. injection J as -> ->. destruct (W p) as [W'|W']; congruence.
        + apply valid_in; [apply OK'|]. rewrite P. apply valid_in; [apply OK|exact C].
      - left. split; [|exact C]. intros J. apply in_app_or in J. destruct J as [J|[[= ->]|[]]]; [auto|].
        apply valid_look in C; [|apply OK]. destruct C as (v & C & _). congruence.
      - left. split; [intros J; apply in_app_or in J; destruct J as [J|[J|[]]]; [auto|discriminate]|].
        apply valid_in; [apply OK'|]. apply valid_in in C; [|apply OK]. destruct C as (v & C1 & C2). exists v. rewrite P. split; [right; exact C1|exact C2].
      - left. split; [intros J; apply in_app_or in J; destruct J as [J|[J|[]]]; [auto|discriminate]|].
        apply valid_in; [apply OK'|]. apply valid_in in C; [|apply OK]. destruct C as (v & C1 & C2 & C3).
        eexists. split; [cbn [nx_UpdatePathInfo n_paths]; apply in_map; exact C1|]. destruct (beq (vp_path v) q); auto.
      - apply valid_in in C; [|apply OK]. destruct C as (w & C1 & C2 & C3). destruct (beq p q) eqn:B.
        + right. apply beq_eq in B. subst q. split; [apply in_or_app; right; left; reflexivity|].
          assert (w = v). { apply look_some in LL. destruct LL as [L1 L2]. apply (nodup_key vp_path (n_paths d)); auto; [apply OK|congruence]. }
          subst w. rewrite <- C3. exact (inv_gone _ _ _ _ _ OK LL P).
        + left. split; [intros J; apply in_app_or in J; destruct J as [J|[J|[]]]; [auto|]|].
          * injection J as ->. rewrite beq_refl in B. discriminate.
          * apply valid_in; [apply OK'|]. exists w. rewrite P. split; [|auto]. apply filter_In. rewrite C2, B. auto. }
    destruct x as [o [|]]; cbn [fst snd].
    + destruct (nx_step fk o d) as [r d'] eqn:S. cbn [fst snd]. apply G. apply (nx_paths_step fk). exact S.
    + apply G. apply PsSame; auto; [right; discriminate|]. intros q cur. destruct o; reflexivity.
Qed.

(** The references. *)
Definition refs_ok (fk : bool) (ev : list (nx_op * res unit)) (d : nxdb) : Prop :=
  NoDup (n_refs d) /\
  (forall a b, In (NR a b) (n_refs d) -> In (NAddRef a b, Ok tt) ev) /\
  (forall a b, In (NAddRef a b, Ok tt) ev -> In (NR a b) (n_refs d) \/ ((a <= n_seq d)%Z /\ ~ In a (ids d))) /\
  (fk = true -> forall a b, In (NR a b) (n_refs d) -> In a (ids d) /\ In b (ids d)).
Lemma nodup_filter {A} (q : A -> bool) l : NoDup l -> NoDup (filter q l).
Proof. apply NoDup_filter. Qed.
Lemma known_id_in i d : known_id i d = true <-> In i (ids d).
Proof.
  unfold known_id, ids. rewrite existsb_exists, in_map_iff. split.
  - intros (v & I & E). apply Z.eqb_eq in E. eauto.
  - intros (v & E & I). exists v. rewrite E, Z.eqb_refl. auto.
Qed.
Lemma nr_same_eq x y : nr_same x y = true <-> x = y.
Proof. destruct x, y. unfold nr_same. cbn. rewrite andb_true_iff, !Z.eqb_eq. split; [intros [-> ->]; reflexivity|intros [= -> ->]; auto]. Qed.
Lemma refs_run fk h : refs_ok fk (fst (nx_run fk h)) (snd (nx_run fk h)).
Proof.
  induction h as [|x h IH] using rev_ind.
  - split; [constructor|]. split; [intros a b []|]. split; [intros a b []|]. intros _ a b [].
  - rewrite nx_run_snoc. pose proof (paths_run fk h) as OK. set (ev := fst (nx_run fk h)) in *. set (d := snd (nx_run fk h)) in *.
    destruct IH as (R0 & R1 & R2 & R3).
    assert (Same : forall o r d', path_step o r d d' -> n_refs d' = n_refs d -> (forall a b, (o, r) <> (NAddRef a b, Ok tt)) ->
       (forall q v, o = NInvalidate q -> r = Ok tt -> look q d = Some v -> False) -> refs_ok fk (ev ++ [(o, r)]) d').
    { intros o r d' S E NA NI. destruct (ids_step _ _ _ _ _ OK S) as (S1 & S2 & S3). unfold refs_ok. rewrite E. split; [exact R0|]. split.
      { intros a b I. apply in_or_app. auto. }
      assert (S3' : forall i, In i (ids d) -> In i (ids d')).
      { intros i I. destruct (S3 i I) as [J|(q & v & J1 & J2 & J3 & _)]; [exact J|]. destruct (NI q v J1 J2 J3). }
      split.
      - intros a b I. apply in_app_or in I. destruct I as [I|[I|[]]]; [|destruct (NA _ _ I)].
        destruct (R2 _ _ I) as [J|[J1 J2]]; [auto|]. right. split; [lia|]. intros K. apply S2 in K. destruct K as [K|K]; [auto|lia].
      - intros F a b I. destruct (R3 F a b I). auto. }
    destruct x as [o [|]]; cbn [fst snd].
    2:{ apply Same; auto; [|discriminate|discriminate]. apply PsSame; auto; [right; discriminate|]. intros q cur. destruct o; reflexivity. }
    destruct (nx_step fk o d) as [r d'] eqn:S. cbn [fst snd]. pose proof (nx_paths_step _ _ _ _ _ S) as PS.
    destruct o as [p i gap|ns hs u s c p|a b|i o p|p].
    + apply Same; auto; try discriminate. cbn [nx_step] in S. unfold nx_RegisterValidPath in S.
      destruct (existsb _ _); [|destruct (next_id _ _)]; injection S as <- <-; reflexivity.
    + apply Same; auto; try discriminate. injection S as <- <-. reflexivity.
    + cbn [nx_step] in S. unfold nx_AddReference in S. destruct (fk && _) eqn:C; injection S as <- <-.
      * apply Same; auto; discriminate.
      * unfold refs_ok, ids. cbn [n_refs n_seq n_paths]. unfold replace_into. split.
        { constructor; [|apply NoDup_filter; exact R0]. intros I. apply filter_In in I. destruct I as [_ I].
          rewrite (proj2 (nr_same_eq _ _) eq_refl) in I. discriminate. }
        assert (IN : forall y, In y (NR a b :: filter (fun x => negb (nr_same (NR a b) x)) (n_refs d)) <-> y = NR a b \/ In y (n_refs d)).
        { intros y. cbn [In]. rewrite filter_In. split; [intros [->|[I _]]; auto|]. intros [->|I]; [auto|].
          destruct (nr_same (NR a b) y) eqn:B; [left; apply nr_same_eq; exact B|auto]. }
        split. { intros a' b' I. apply IN in I. apply in_or_app. destruct I as [E|I]; [right; left; injection E as -> ->; reflexivity|left; auto]. }
        split. { intros a' b' I. apply in_app_or in I. destruct I as [I|[E|[]]].
          - destruct (R2 _ _ I) as [J|J]; [left; apply IN; auto|right; exact J].
          - left. apply IN. left. congruence. }
        { intros F a' b' I. apply IN in I. destruct I as [E|I]; [|exact (R3 F _ _ I)]. injection E as -> ->. rewrite F in C. cbn [andb] in C.
          apply negb_false_iff, andb_true_iff in C. destruct C as [C1 C2]. split; apply known_id_in; assumption. }
    + apply Same; auto; try discriminate. cbn [nx_step] in S. unfold nx_AddDerivationOutput in S. destruct (fk && _); injection S as <- <-; reflexivity.
    + pose proof (ids_step _ _ _ _ _ OK PS) as (S1 & S2 & S3). pose proof S as S'. cbn [nx_step] in S. unfold nx_InvalidatePath in S.
      fold (at_path p) in S. fold (look p d) in S. destruct (look p d) as [v|] eqn:L.
      2:{ apply Same; auto; [injection S as <- <-; reflexivity|discriminate|intros q w E _; injection E as <-; congruence]. }
      destruct r as [[]|e|m].
      2,3: apply Same; auto; try discriminate; destruct fk; [destruct (existsb _ _)|]; injection S; intros; subst; try discriminate; reflexivity.
      destruct PS as [P Q W X|q E _ LL ->|q i gap n E _ _ _ _ _ _ _|ns hs u s c q E _ _|q w E _ LL Q P A1 A2 _ _]; try discriminate.
      * destruct (W p) as [W'|W']; [congruence|destruct (W' tt eq_refl)].
      * congruence.
      * injection E as <-. assert (w = v) by congruence. subst w.
        assert (GONE : ~ In (vp_id v) (ids d')) by exact (inv_gone _ _ _ _ _ OK L P).
        assert (VI : In (vp_id v) (ids d)). { apply look_some in L. unfold ids. apply in_map. apply L. }
        split.
        { destruct fk; [destruct (existsb _ _); [discriminate|]|]; injection S as <-; cbn [n_refs]; repeat apply NoDup_filter; exact R0. }
        split. { intros a b I. apply in_or_app. left. auto. }
        split.
        { intros a b I. apply in_app_or in I. destruct I as [I|[I|[]]]; [|discriminate]. destruct (R2 _ _ I) as [J|[J1 J2]].
          - destruct (A2 _ J) as [K|K]; [auto|]. right. cbn in K. subst a. split; [|exact GONE]. apply (id_le _ _ _ OK) in VI. lia.
          - right. split; [lia|]. intros K. apply S2 in K. destruct K as [K|K]; [auto|lia]. }
        intros -> a b I. destruct (existsb _ _) eqn:EX; [discriminate|]. injection S as <-. cbn [n_refs] in I.
        apply filter_In in I. destruct I as [I I']. cbn [nr_referrer] in I'. pose proof I as I0. apply filter_In in I0. destruct I0 as [I0 _].
        destruct (R3 eq_refl _ _ I0) as [Ka Kb].
        assert (a <> vp_id v). { intros ->. rewrite Z.eqb_refl in I'. discriminate. }
        assert (b <> vp_id v).
        { intros ->. assert (existsb (fun r => (nr_reference r =? vp_id v)%Z) (filter (fun r => negb ((nr_referrer r =? vp_id v) && (nr_reference r =? vp_id v))%Z) (n_refs d)) = true).
          { apply existsb_exists. eexists. split; [exact I|]. cbn. apply Z.eqb_refl. } congruence. }
        split; [destruct (S3 _ Ka) as [K|(q & w & [= <-] & _ & LW & K)]|destruct (S3 _ Kb) as [K|(q & w & [= <-] & _ & LW & K)]]; auto; congruence.
Qed.

(** The outputs. *)
Definition out_live (i : Z) (o p : bytes) : list (nx_op * res unit) -> Prop :=
  since (out_stored i o p) (fun e => forall p', ~ out_stored i o p' e).
Definition outs_ok (fk : bool) (ev : list (nx_op * res unit)) (d : nxdb) : Prop :=
  NoDup (map (fun x => (no_drv x, no_id x)) (n_outs d)) /\
  (forall i o p, In (NO i o p) (n_outs d) -> out_live i o p ev) /\
  (forall i o p, out_live i o p ev -> In (NO i o p) (n_outs d) \/ ((i <= n_seq d)%Z /\ ~ In i (ids d))) /\
  (fk = true -> forall i o p, In (NO i o p) (n_outs d) -> In i (ids d)).
Lemma no_same_eq x y : no_same x y = true <-> (no_drv x, no_id x) = (no_drv y, no_id y).
Proof. unfold no_same. rewrite andb_true_iff, Z.eqb_eq, beq_eq. split; [intros [-> ->]; reflexivity|intros [= -> ->]; auto]. Qed.
Lemma outs_run fk h : outs_ok fk (fst (nx_run fk h)) (snd (nx_run fk h)).
Proof.
  induction h as [|x h IH] using rev_ind.
  - split; [constructor|]. split; [intros i o p []|]. split; [intros i o p H; destruct (since_nil _ _ H)|]. intros _ i o p [].
  - rewrite nx_run_snoc. pose proof (paths_run fk h) as OK. set (ev := fst (nx_run fk h)) in *. set (d := snd (nx_run fk h)) in *.
    destruct IH as (R0 & R1 & R2 & R3).
    assert (NS : forall e, (forall i o p, ~ out_stored i o p e) -> forall i o p, out_live i o p (ev ++ [e]) <-> out_live i o p ev).
    { intros e N i o p. unfold out_live. rewrite since_snoc. split; [intros [H|[H _]]; [destruct (N _ _ _ H)|exact H]|].
      intros H. right. split; [exact H|]. intros p'. apply N. }
    assert (Same : forall o r d', path_step o r d d' -> n_outs d' = n_outs d -> (forall i o' p, ~ out_stored i o' p (o, r)) ->
       (forall q v, o = NInvalidate q -> r = Ok tt -> look q d = Some v -> False) -> outs_ok fk (ev ++ [(o, r)]) d').
    { intros o r d' S E NA NI. destruct (ids_step _ _ _ _ _ OK S) as (S1 & S2 & S3). unfold outs_ok. rewrite E. split; [exact R0|].
      assert (S3' : forall i, In i (ids d) -> In i (ids d')).
      { intros i I. destruct (S3 i I) as [J|(q & v & J1 & J2 & J3 & _)]; [exact J|]. destruct (NI q v J1 J2 J3). }
      split. { intros i o' p I. apply NS; [exact NA|]. auto. }
      split.
      - intros i o' p I. apply NS in I; [|exact NA].
        destruct (R2 _ _ _ I) as [J|[J1 J2]]; [auto|]. right. split; [lia|]. intros K. apply S2 in K. destruct K as [K|K]; [auto|lia].
      - intros F a b p I. pose proof (R3 F a b p I). auto. }
    destruct x as [o [|]]; cbn [fst snd].
    2:{ apply Same; auto; [|intros i o' p E; discriminate E|discriminate]. apply PsSame; auto; [right; discriminate|]. intros q cur. destruct o; reflexivity. }
    destruct (nx_step fk o d) as [r d'] eqn:S. cbn [fst snd]. pose proof (nx_paths_step _ _ _ _ _ S) as PS.
    destruct o as [p i gap|ns hs u s c p|a b|i o p|p].
    + apply Same; auto; try discriminate. cbn [nx_step] in S. unfold nx_RegisterValidPath in S.
      destruct (existsb _ _); [|destruct (next_id _ _)]; injection S as <- <-; reflexivity.
    + apply Same; auto; try discriminate. injection S as <- <-. reflexivity.
    + apply Same; auto; try discriminate. cbn [nx_step] in S. unfold nx_AddReference in S. destruct (fk && _); injection S as <- <-; reflexivity.
    + cbn [nx_step] in S. unfold nx_AddDerivationOutput in S. destruct (fk && _) eqn:C; injection S as <- <-.
      * apply Same; auto; [intros ? ? ? E; discriminate E|discriminate].
      * unfold outs_ok, ids. cbn [n_outs n_seq n_paths]. unfold replace_into. split.
        { cbn [map no_drv no_id]. constructor; [|apply nodup_map_filter; exact R0]. intros I. apply in_map_iff in I. destruct I as (y & E & I).
          apply filter_In in I. destruct I as [_ I]. assert (X : no_same (NO i o p) y = true) by (apply no_same_eq; cbn; congruence). rewrite X in I. discriminate. }
        assert (IN : forall y, In y (NO i o p :: filter (fun x => negb (no_same (NO i o p) x)) (n_outs d)) <->
           y = NO i o p \/ (In y (n_outs d) /\ (no_drv y, no_id y) <> (i, o))).
        { intros y. cbn [In]. rewrite filter_In. destruct (no_same (NO i o p) y) eqn:B; cbn [negb].
          - apply no_same_eq in B. cbn in B. split; [intros [->|[_ I]]; [auto|discriminate]|]. intros [->|[_ I]]; [auto|congruence].
          - assert ((no_drv y, no_id y) <> (i, o)).
            { intros E. assert (X : no_same (NO i o p) y = true) by (apply no_same_eq; cbn; congruence). congruence. }
            split; [intros [->|[I _]]; auto|]. intros [->|[I _]]; auto. }
        assert (LV : forall i' o' p', out_live i' o' p' (ev ++ [(NAddOut i o p, Ok tt)]) <->
            (i', o', p') = (i, o, p) \/ (out_live i' o' p' ev /\ (i', o') <> (i, o))).
        { intros i' o' p'. unfold out_live. rewrite since_snoc. unfold out_stored at 1 3. split.
          - intros [E|[H N]]; [left; congruence|]. right. split; [exact H|]. intros E. apply (N p). congruence.
          - intros [E|[H N]]; [left; congruence|]. right. split; [exact H|]. intros p'' E. apply N. congruence. }
        split. { intros i' o' p' I. apply IN in I. apply LV. destruct I as [E|[I J]]; [left; congruence|right]. split; [auto|exact J]. }
        split. { intros i' o' p' I. apply LV in I. destruct I as [E|[I J]].
          - left. apply IN. left. congruence.
          - destruct (R2 _ _ _ I) as [K|K]; [left; apply IN; right; split; [exact K|exact J]|right; exact K]. }
        { intros F i' o' p' I. apply IN in I. destruct I as [E|[I _]]; [|exact (R3 F _ _ _ I)]. injection E as -> -> ->. rewrite F in C. cbn [andb] in C.
          apply negb_false_iff in C. apply known_id_in in C. exact C. }
    + pose proof (ids_step _ _ _ _ _ OK PS) as (S1 & S2 & S3). pose proof S as S'. cbn [nx_step] in S. unfold nx_InvalidatePath in S.
      fold (at_path p) in S. fold (look p d) in S. destruct (look p d) as [v|] eqn:L.
      2:{ apply Same; auto; [injection S as <- <-; reflexivity|intros ? ? ? E; discriminate E|intros q w E _; injection E as <-; congruence]. }
      destruct r as [[]|e|m].
      2,3: apply Same; auto; try discriminate; destruct fk; [destruct (existsb _ _)|]; injection S; intros; subst; try discriminate; reflexivity.
      destruct PS as [P Q W X|q E _ LL ->|q i gap n E _ _ _ _ _ _ _|ns hs u s c q E _ _|q w E _ LL Q P _ _ A1 A2]; try discriminate.
      * destruct (W p) as [W'|W']; [congruence|destruct (W' tt eq_refl)].
      * congruence.
      * injection E as <-. assert (w = v) by congruence. subst w.
        assert (GONE : ~ In (vp_id v) (ids d')) by exact (inv_gone _ _ _ _ _ OK L P).
        assert (VI : In (vp_id v) (ids d)). { apply look_some in L. unfold ids. apply in_map. apply L. }
        assert (NA : forall i o q, ~ out_stored i o q (NInvalidate p, Ok tt)) by (intros ? ? ? E; discriminate E).
        split.
        { destruct fk; [destruct (existsb _ _); [discriminate|]|]; injection S as <-; cbn [n_outs]; [apply nodup_map_filter|]; exact R0. }
        split. { intros i o q I. apply NS; [exact NA|]. auto. }
        split.
        { intros i o q I. apply NS in I; [|exact NA]. destruct (R2 _ _ _ I) as [J|[J1 J2]].
          - destruct (A2 _ J) as [K|K]; [auto|]. right. cbn in K. subst i. split; [|exact GONE]. apply (id_le _ _ _ OK) in VI. lia.
          - right. split; [lia|]. intros K. apply S2 in K. destruct K as [K|K]; [auto|lia]. }
        intros -> i o q I. destruct (existsb _ _) eqn:EX; [discriminate|]. injection S as <-. cbn [n_outs] in I.
        apply filter_In in I. destruct I as [I I']. cbn [no_drv] in I'. pose proof (R3 eq_refl _ _ _ I) as Ki.
        assert (i <> vp_id v). { intros ->. rewrite Z.eqb_refl in I'. discriminate. }
        destruct (S3 _ Ki) as [K|(q' & w & [= <-] & _ & LW & K)]; auto. congruence.
Qed.
