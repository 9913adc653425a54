(** What ParseLS can do over all the orders in which Go may walk the maps (C94). *)
From Coq Require Import Permutation.
From Verif Require Import Base.Bytes Base.BytesFacts Model.Nar Model.NarLs Spec.NarLsSpec Proof.NarLsProps.
Ltac Zify.zify_post_hook ::= idtac.

Fixpoint vloop (n : lnode) (es : list (bytes * option lnode)) : res unit :=
  match es with
  | [] => Ok tt
  | (k, v) :: es' =>
      if negb (IsValidNodeName k) then Err (EMsg "invalid entry name")
      else if (beq (ltype n) TypeRegular || beq (ltype n) TypeDirectory) && negb (beq (ltarget n) [])
      then Err (EMsg "LinkTarget is not empty")
      else if (beq (ltype n) TypeDirectory || beq (ltype n) TypeSymlink) && negb (Z.eqb (lsize n) 0)
      then Err (EMsg "Size is not 0")
      else if (beq (ltype n) TypeDirectory || beq (ltype n) TypeSymlink) && (lexec n)
      then Err (EMsg "Executable is true")
      else if beq (ltype n) TypeSymlink && beq (ltarget n) [] then Err (EMsg "LinkTarget is empty")
      else match v with
           | None => Panic "nil pointer dereference"
           | Some v => let* _ := validateNode v in vloop n es'
           end
  end.
Lemma validate_vloop n : validateNode n = vloop n (lentries n).
Proof. rewrite validate_eq. generalize (lentries n). induction l as [|[k v] l IH]; [reflexivity|]. cbn [vloop]. rewrite <- IH. reflexivity. Qed.
Lemma vloop_bad n k v es : IsValidNodeName k = false \/ fits n = false -> exists e, vloop n ((k, v) :: es) = Err e.
Proof.
  intros H. cbn [vloop]. destruct (IsValidNodeName k); cbn [negb]; [|eauto]. destruct H as [H|H]; [discriminate|]. unfold fits in H.
  destruct ((beq (ltype n) TypeRegular || beq (ltype n) TypeDirectory) && negb (beq (ltarget n) [])); [eauto|].
  destruct ((beq (ltype n) TypeDirectory || beq (ltype n) TypeSymlink) && negb (Z.eqb (lsize n) 0)); [eauto|].
  destruct ((beq (ltype n) TypeDirectory || beq (ltype n) TypeSymlink) && lexec n); [eauto|].
  destruct (beq (ltype n) TypeSymlink && beq (ltarget n) []); [eauto|discriminate].
Qed.
Lemma vloop_good n k v es : IsValidNodeName k = true -> fits n = true -> vloop n ((k, v) :: es) =
  match v with None => Panic "nil pointer dereference" | Some v => let* _ := validateNode v in vloop n es end.
Proof.
  intros H F. cbn [vloop]. rewrite H. cbn [negb]. unfold fits in F. apply andb_prop in F. destruct F as [F F4]. apply andb_prop in F. destruct F as [F F3].
  apply andb_prop in F. destruct F as [F1 F2]. apply negb_true_iff in F1, F2, F3, F4. rewrite F1, F2, F3, F4. reflexivity.
Qed.
Definition same_shape (n m : lnode) : Prop := ltype n = ltype m /\ ltarget n = ltarget m /\ lsize n = lsize m /\ lexec n = lexec m.
Lemma fits_shape n m : same_shape n m -> fits n = fits m.
Proof. intros (A & B & C & D). unfold fits. rewrite A, B, C, D. reflexivity. Qed.

Lemma panic_null n : forall w, validateNode n = Panic w -> meets_null n.
Proof.
  induction n as [ty es size target exec off IH] using lnode_ind2. set (n := LNode ty es size target exec off). intros w. rewrite validate_vloop.
  change (lentries n) with es.
  assert (G : forall l, incl l es -> vloop n l = Panic w -> meets_null n).
  { induction l as [|[k v] l IHl]; intros I H; [discriminate H|].
    destruct (IsValidNodeName k) eqn:Ek; [|destruct (vloop_bad n k v l (or_introl Ek)) as (e & X); congruence].
    destruct (fits n) eqn:F; [|destruct (vloop_bad n k v l (or_intror F)) as (e & X); congruence].
    rewrite vloop_good in H by assumption. apply name_iff in Ek. apply fits_iff in F.
    assert (J : In (k, v) (lentries n)) by (apply I; left; reflexivity).
    destruct v as [v|]; [|eapply null_here; eassumption].
    destruct (validateNode v) as [[]|e|w'] eqn:V; cbn [rbind] in H; [|discriminate H|].
    - apply IHl; [intros x X; apply I; right; exact X|exact H].
    - rewrite Forall_forall in IH. pose proof (IH _ J) as Y. cbn [optP snd] in Y. eapply null_below; try eassumption. eapply Y. exact V. }
  apply G. intros x X. exact X.
Qed.
Lemma err_fault n : forall e, validateNode n = Err e -> meets_fault n.
Proof.
  induction n as [ty es size target exec off IH] using lnode_ind2. set (n := LNode ty es size target exec off). intros w. rewrite validate_vloop.
  change (lentries n) with es.
  assert (G : forall l, incl l es -> vloop n l = Err w -> meets_fault n).
  { induction l as [|[k v] l IHl]; intros I H; [discriminate H|].
    assert (J : In (k, v) (lentries n)) by (apply I; left; reflexivity).
    destruct (IsValidNodeName k) eqn:Ek; [|eapply fault_name; [exact J|]; intros X; apply name_iff in X; congruence].
    destruct (fits n) eqn:F; [|apply fault_fields; [intros X; rewrite X in J; destruct J|intros X; apply fits_iff in X; congruence]].
    rewrite vloop_good in H by assumption.
    destruct v as [v|]; [|discriminate H].
    destruct (validateNode v) as [[]|e|w'] eqn:V; cbn [rbind] in H; [| |discriminate H].
    - apply IHl; [intros x X; apply I; right; exact X|exact H].
    - rewrite Forall_forall in IH. pose proof (IH _ J) as Y. cbn [optP snd] in Y. eapply fault_below; [exact J|]. eapply Y. exact V. }
  apply G. intros x X. exact X.
Qed.

Lemma ro_same n m : reordered (Some n) (Some m) -> same_shape n m /\
  forall k c, In (k, c) (lentries m) -> exists c', In (k, c') (lentries n) /\ reordered c' c.
Proof.
  intros H. inversion H as [|ty es es1 es2 size target exec off P F]; subst. split; [repeat split|]. cbn [lentries].
  intros k c I. assert (X : exists c', In (k, c') es1 /\ reordered c' c).
  { clear -F I. induction F as [|[a b] [a' b'] l l' [E R] F IH]; [destruct I|]. cbn [fst snd] in *. destruct I as [I|I].
    - injection I as -> ->. subst a. exists b. split; [left; reflexivity|exact R].
    - destruct (IH I) as (c' & A & B). exists c'. split; [right; exact A|exact B]. }
  destruct X as (c' & A & B). exists c'. split; [|exact B]. eapply Permutation_in; [symmetry; exact P|exact A].
Qed.
Lemma fit_shape n m : same_shape n m -> fields_fit m -> fields_fit n.
Proof. intros S F. apply fits_iff. rewrite (fits_shape _ _ S). apply fits_iff. exact F. Qed.
Lemma shape_sym n m : same_shape n m -> same_shape m n.
Proof. unfold same_shape. intuition congruence. Qed.
Lemma null_back m : meets_null m -> forall n, reordered (Some n) (Some m) -> meets_null n.
Proof.
  induction 1 as [m k F C I|m k m' F C I H IH]; intros n R; destruct (ro_same _ _ R) as (S & E); destruct (E _ _ I) as (c' & I' & R');
    pose proof (fit_shape _ _ S F) as F'.
  - inversion R'; subst. eapply null_here; eassumption.
  - destruct c' as [c'|]; [|inversion R']. eapply null_below; try eassumption. apply IH. exact R'.
Qed.
Lemma fault_back m : meets_fault m -> forall n, reordered (Some n) (Some m) -> meets_fault n.
Proof.
  induction 1 as [m N F|m k c I C|m k m' I H IH]; intros n R; destruct (ro_same _ _ R) as (S & E).
  - apply fault_fields; [|intros X; apply F; eapply fit_shape; [apply shape_sym; exact S|exact X]].
    destruct (lentries m) as [|[k c] l] eqn:L; [congruence|]. destruct (E k c (or_introl eq_refl)) as (c' & I' & _). intros X. rewrite X in I'. destruct I'.
  - destruct (E _ _ I) as (c' & I' & R'). eapply fault_name; eassumption.
  - destruct (E _ _ I) as (c' & I' & R'). destruct c' as [c'|]; [|inversion R']. eapply fault_below; [exact I'|]. apply IH. exact R'.
Qed.
Lemma ro_refl n : reordered (Some n) (Some n).
Proof.
  induction n as [ty es size target exec off IH] using lnode_ind2. econstructor; [apply Permutation_refl|].
  induction IH as [|[k c] l H _ IHl]; constructor; [|exact IHl]. split; [reflexivity|]. cbn [snd]. destruct c as [c|]; [exact H|constructor].
Qed.
Lemma ro_refl_list l : Forall2 (fun a b : bytes * option lnode => fst a = fst b /\ reordered (snd a) (snd b)) l l.
Proof. induction l as [|[k c] l IH]; constructor; [|exact IH]. split; [reflexivity|]. cbn [snd]. destruct c as [c|]; [apply ro_refl|constructor]. Qed.
Lemma to_front n k c c' : In (k, c) (lentries n) -> reordered c c' ->
  exists n' l, reordered (Some n) (Some n') /\ lentries n' = (k, c') :: l /\ same_shape n n'.
Proof.
  intros I R. apply in_split in I. destruct I as (l1 & l2 & E). destruct n as [ty es size target exec off]. cbn [lentries] in E. subst es.
  exists (LNode ty ((k, c') :: l1 ++ l2) size target exec off), (l1 ++ l2). split; [|split; [reflexivity|repeat split]].
  econstructor; [symmetry; apply Permutation_middle|]. constructor; [split; [reflexivity|exact R]|apply ro_refl_list].
Qed.
Lemma null_some n : meets_null n -> exists n' w, reordered (Some n) (Some n') /\ validateNode n' = Panic w.
Proof.
  induction 1 as [n k F C I|n k m F C I H (m' & w & R & P)].
  - destruct (to_front n k None None I ro_nil) as (n' & l & A & B & S). exists n', "nil pointer dereference"%string. split; [exact A|].
    rewrite validate_vloop, B, vloop_good; [reflexivity|apply name_iff; exact C|rewrite <- (fits_shape _ _ S); apply fits_iff; exact F].
  - destruct (to_front n k (Some m) (Some m') I R) as (n' & l & A & B & S). exists n', w. split; [exact A|].
    rewrite validate_vloop, B, vloop_good; [rewrite P; reflexivity|apply name_iff; exact C|rewrite <- (fits_shape _ _ S); apply fits_iff; exact F].
Qed.
Lemma fault_some n : meets_fault n -> exists n' e, reordered (Some n) (Some n') /\ validateNode n' = Err e.
Proof.
  induction 1 as [n N F|n k c I C|n k m I H (m' & w & R & P)].
  - exists n. destruct (lentries n) as [|[k c] l] eqn:L; [congruence|].
    destruct (vloop_bad n k c l) as (e & E); [right; apply not_true_iff_false; intros X; apply F, fits_iff, X|]. exists e. split; [apply ro_refl|]. rewrite validate_vloop, L. exact E.
  - assert (RC : reordered c c) by (destruct c; [apply ro_refl|constructor]).
    destruct (to_front n k c c I RC) as (n' & l & A & B & S). destruct (vloop_bad n' k c l) as (e & E); [left; apply not_true_iff_false; intros X; apply C, name_iff, X|].
    exists n', e. split; [exact A|]. rewrite validate_vloop, B. exact E.
  - destruct (to_front n k (Some m) (Some m') I R) as (n' & l & A & B & S).
    destruct (IsValidNodeName k) eqn:Ek; [destruct (fits n') eqn:F|].
    + exists n', w. split; [exact A|]. rewrite validate_vloop, B, vloop_good by assumption. rewrite P. reflexivity.
    + destruct (vloop_bad n' k (Some m') l (or_intror F)) as (e & E). exists n', e. split; [exact A|]. rewrite validate_vloop, B. exact E.
    + destruct (vloop_bad n' k (Some m') l (or_introl Ek)) as (e & E). exists n', e. split; [exact A|]. rewrite validate_vloop, B. exact E.
Qed.
