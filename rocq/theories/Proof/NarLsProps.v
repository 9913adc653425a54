From Coq Require Import Permutation.
From Verif Require Import Base.Bytes Base.BytesFacts Model.Nar Model.NarLs Spec.NarLsSpec.
Ltac Zify.zify_post_hook ::= idtac.

Definition optP (P : lnode -> Prop) (e : bytes * option lnode) : Prop :=
  match snd e with Some c => P c | None => True end.
Section Ind.
Variable P : lnode -> Prop.
Variable H : forall ty es size target exec off, Forall (optP P) es -> P (LNode ty es size target exec off).
Fixpoint lnode_ind2 (n : lnode) : P n :=
  match n with
  | LNode ty es size target exec off =>
      H ty es size target exec off
        ((fix go (es : list (bytes * option lnode)) : Forall (optP P) es :=
            match es with
            | [] => Forall_nil _
            | e :: es' =>
                @Forall_cons _ (optP P) e es'
                  (match e as e0 return optP P e0 with
                   | (k, Some c) => lnode_ind2 c
                   | (k, None) => I end) (go es')
            end) es)
  end.
End Ind.

Inductive checked : option lnode -> Prop :=
| checked_intro n :
    (lentries n <> [] -> fields_fit n) -> Forall (fun e => clean_name (fst e)) (lentries n) ->
    Forall (fun e => checked (snd e)) (lentries n) -> checked (Some n).

Lemma name_iff k : IsValidNodeName k = true <-> clean_name k.
Proof.
  unfold IsValidNodeName, clean_name. rewrite andb_true_iff, !negb_true_iff, !contains_byte_false. tauto.
Qed.

Definition fits (n : lnode) : bool :=
  negb ((beq (ltype n) TypeRegular || beq (ltype n) TypeDirectory) && negb (beq (ltarget n) [])) &&
  negb ((beq (ltype n) TypeDirectory || beq (ltype n) TypeSymlink) && negb (Z.eqb (lsize n) 0)) &&
  negb ((beq (ltype n) TypeDirectory || beq (ltype n) TypeSymlink) && lexec n) &&
  negb (beq (ltype n) TypeSymlink && beq (ltarget n) []).
Lemma fits_iff n : fits n = true <-> fields_fit n.
Proof.
  unfold fits, fields_fit. change TypeRegular with (bs "regular"). change TypeDirectory with (bs "directory").
  change TypeSymlink with (bs "symlink").
  assert (D1 : bs "regular" <> bs "directory") by discriminate.
  assert (D2 : bs "regular" <> bs "symlink") by discriminate.
  assert (D3 : bs "directory" <> bs "symlink") by discriminate.
  revert D1 D2 D3. generalize (bs "regular") (bs "directory") (bs "symlink"). intros X Y Z D1 D2 D3.
  destruct (beq_spec (ltype n) X), (beq_spec (ltype n) Y), (beq_spec (ltype n) Z), (beq_spec (ltarget n) []),
    (Z.eqb_spec (lsize n) 0), (lexec n); cbn [negb andb orb]; try congruence; split; intros H; try discriminate H;
    try reflexivity; try (repeat split; intros; congruence); destruct H as (A & B & C); exfalso; intuition congruence.
Qed.

Lemma validate_eq n : validateNode n =
  (fix loop (es : list (bytes * option lnode)) : res unit :=
     match es with
     | [] => Ok tt
     | (k, v) :: es' =>
         if negb (IsValidNodeName k) then Err (EMsg "invalid entry name")
         else if (beq (ltype n) TypeRegular || beq (ltype n) TypeDirectory) && negb (beq (ltarget n) [])
         then Err (EMsg "LinkTarget is not empty")
         else if (beq (ltype n) TypeDirectory || beq (ltype n) TypeSymlink) && negb (Z.eqb (lsize n) 0)
         then Err (EMsg "Size is not 0")
         else if (beq (ltype n) TypeDirectory || beq (ltype n) TypeSymlink) && (lexec n)
         then Err (EMsg "Executable is true")
         else if beq (ltype n) TypeSymlink && beq (ltarget n) [] then Err (EMsg "LinkTarget is empty")
         else match v with
              | None => Panic "nil pointer dereference"
              | Some v => let* _ := validateNode v in loop es'
              end
     end) (lentries n).
Proof. destruct n. reflexivity. Qed.

Lemma validate_iff n : validateNode n = Ok tt <-> checked (Some n).
Proof.
  induction n as [ty es size target exec off IH] using lnode_ind2.
  set (n := LNode ty es size target exec off).
  assert (HC : checked (Some n) <-> (es <> [] -> fits n = true) /\ Forall (fun e => clean_name (fst e) /\ checked (snd e)) es).
  { split.
    - intros H; inversion H as [? H1 H2 H3]; subst. split; [intros E; apply fits_iff; auto|].
      change (lentries n) with es in *. clear -H2 H3. induction es; [constructor|]. inversion H2; inversion H3; subst. constructor; auto.
    - intros [H1 H2]. constructor.
      + intros E. apply fits_iff. auto.
      + change (lentries n) with es. eapply Forall_impl; [|exact H2]. intros a [A _]. exact A.
      + change (lentries n) with es. eapply Forall_impl; [|exact H2]. intros a [_ A]. exact A. }
  rewrite HC, validate_eq. change (lentries n) with es. clear HC.
  assert (G : forall m, (es <> [] -> fits m = true) /\ Forall (fun e => clean_name (fst e) /\ checked (snd e)) es <->
    (es <> [] -> fits m = true) /\ Forall (fun e => clean_name (fst e) /\ checked (snd e)) es) by tauto. clear G.
  generalize n. clear n. intros n. induction es as [|[k v] es IHes].
  - split; [|reflexivity]. intros _. split; [congruence|constructor].
  - inversion IH as [|? ? Hv Hr]; subst. specialize (IHes Hr). unfold optP in Hv. cbn [snd] in Hv.
    destruct (IsValidNodeName k) eqn:Ek; cbn [negb].
    2:{ split; [discriminate|]. intros [_ H]. inversion H as [|? ? [A _] _]; subst. apply name_iff in A. cbn [fst] in A. congruence. }
    apply name_iff in Ek.
    assert (F : fits n = true ->
       (match v with None => Panic "nil pointer dereference" | Some v => let* _ := validateNode v in
        (fix loop (es : list (bytes * option lnode)) : res unit :=
     match es with
     | [] => Ok tt
     | (k, v) :: es' =>
         if negb (IsValidNodeName k) then Err (EMsg "invalid entry name")
         else if (beq (ltype n) TypeRegular || beq (ltype n) TypeDirectory) && negb (beq (ltarget n) [])
         then Err (EMsg "LinkTarget is not empty")
         else if (beq (ltype n) TypeDirectory || beq (ltype n) TypeSymlink) && negb (Z.eqb (lsize n) 0)
         then Err (EMsg "Size is not 0")
         else if (beq (ltype n) TypeDirectory || beq (ltype n) TypeSymlink) && (lexec n)
         then Err (EMsg "Executable is true")
         else if beq (ltype n) TypeSymlink && beq (ltarget n) [] then Err (EMsg "LinkTarget is empty")
         else match v with
              | None => Panic "nil pointer dereference"
              | Some v => let* _ := validateNode v in loop es'
              end
     end) es end = Ok tt <-> ((k, v) :: es <> [] -> fits n = true) /\ Forall (fun e => clean_name (fst e) /\ checked (snd e)) ((k, v) :: es))).
    { intros HF. destruct v as [v|].
      - destruct (validateNode v) as [[]|e|w] eqn:Ev; cbn [rbind].
        + rewrite IHes. assert (checked (Some v)) by (apply Hv; reflexivity).
          split; [intros [A B]; split; auto; constructor; auto|]. intros [A B]. split; [auto|]. inversion B; auto.
        + split; [discriminate|]. intros [_ B]. inversion B as [|? ? [_ B1] _]; subst. apply Hv in B1. congruence.
        + split; [discriminate|]. intros [_ B]. inversion B as [|? ? [_ B1] _]; subst. apply Hv in B1. congruence.
      - split; [discriminate|]. intros [_ B]. inversion B as [|? ? [_ B1] _]; subst. inversion B1. }
    unfold fits in F |- *. 
    destruct ((beq (ltype n) TypeRegular || beq (ltype n) TypeDirectory) && negb (beq (ltarget n) [])); cbn [negb andb] in *;
      [split; [discriminate|]; intros [A _]; discriminate A; discriminate|].
    destruct ((beq (ltype n) TypeDirectory || beq (ltype n) TypeSymlink) && negb (lsize n =? 0)%Z); cbn [negb andb] in *;
      [split; [discriminate|]; intros [A _]; discriminate A; discriminate|].
    destruct ((beq (ltype n) TypeDirectory || beq (ltype n) TypeSymlink) && lexec n); cbn [negb andb] in *;
      [split; [discriminate|]; intros [A _]; discriminate A; discriminate|].
    destruct (beq (ltype n) TypeSymlink && beq (ltarget n) []); cbn [negb andb] in *;
      [split; [discriminate|]; intros [A _]; discriminate A; discriminate|].
    apply F. reflexivity.
Qed.

Lemma checked_below n : checked (Some n) <->
  forall m, below n m -> exists k, m = Some k /\ (lentries k <> [] -> fields_fit k) /\ Forall (fun e => clean_name (fst e)) (lentries k).
Proof.
  split.
  - intros H m B. assert (G : checked m).
    { induction B as [|m k c B IHB Hin]; [exact H|]. inversion IHB; subst. rewrite Forall_forall in *. apply (H3 _ Hin). }
    inversion G; subst. eauto.
  - intros H. assert (G : forall m, below n (Some m) -> checked (Some m)).
    { intros m. induction m as [ty es size target exec off IH] using lnode_ind2. intros B.
      destruct (H _ B) as (k & E & H1 & H2). injection E as <-. constructor; [exact H1|exact H2|].
      change (lentries (LNode ty es size target exec off)) with es in *. rewrite Forall_forall in *. intros [k v] Hin. cbn [snd].
      assert (B' : below n v) by (eapply below_child; [exact B|exact Hin]).
      destruct v as [v|]; [|destruct (H _ B') as (? & E & _); discriminate]. exact (IH _ Hin B'). }
    apply G. constructor.
Qed.

Lemma reordered_checked a b : reordered a b -> checked a -> checked b.
Proof.
  destruct a as [a|]; [|intros _ H; inversion H]. revert b.
  induction a as [ty es size target exec off IH] using lnode_ind2. intros b R C.
  inversion R as [|? ? es1 es2 ? ? ? ? HP HF]; subst. inversion C as [? C1 C2 C3]; subst.
  change (lentries (LNode ty es size target exec off)) with es in *.
  assert (C2' : Forall (fun e => clean_name (fst e)) es1) by (eapply Permutation_Forall; eauto).
  assert (C3' : Forall (fun e => checked (snd e)) es1) by (eapply Permutation_Forall; eauto).
  assert (IH' : Forall (optP (fun c => forall b, reordered (Some c) b -> checked (Some c) -> checked b)) es1)
    by (eapply Permutation_Forall; eauto).
  assert (E : es2 <> [] -> es <> []).
  { intros E -> . apply Permutation_nil in HP. subst. inversion HF. congruence. }
  constructor.
  - intros E2. specialize (C1 (E E2)). exact C1.
  - change (lentries (LNode ty es2 size target exec off)) with es2. clear -HF C2'.
    induction HF as [|x y l l' [A B] HF IHF]; [constructor|]. inversion C2'; subst. constructor; [rewrite <- A; assumption|auto].
  - change (lentries (LNode ty es2 size target exec off)) with es2. clear -HF C3' IH'.
    induction HF as [|x y l l' [A B] HF IHF]; [constructor|]. inversion C3'; inversion IH'; subst. constructor; [|auto].
    unfold optP in *; destruct (snd x); [eauto|]. inversion H1.
Qed.
