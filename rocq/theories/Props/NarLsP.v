(** Property C40 of /repo/pkg/nar/ls. *)
From Coq Require Import Permutation.
From Verif Require Import Base.Bytes Base.BytesFacts Model.Nar Model.NarLs Spec.NarLsSpec Proof.NarLsProps Proof.NarLsOrder.
Ltac Zify.zify_post_hook ::= idtac.

(** C40, as an exact description of what is accepted: version 1, no missing
    node, clean names everywhere, and fitting fields in every node *that has
    entries*; the accepted value is returned unchanged. *)
Theorem C40_listing_validated_partial : forall d root,
  ParseLS d = Ok root <->
  d = Ok root /\ lversion root = 1%Z /\
  forall m, below (lroot_node root) m ->
    exists n, m = Some n /\ Forall (fun e => clean_name (fst e)) (lentries n) /\ (lentries n <> [] -> fields_fit n).
Proof.
  intros d root. unfold ParseLS. destruct d as [r|e|w]; cbn [rbind]; [|split; [discriminate|intros [H _]; discriminate]..].
  destruct (Z.eqb (lversion r) 1) eqn:Ev; cbn [negb]; [apply Z.eqb_eq in Ev|apply Z.eqb_neq in Ev].
  2:{ split; [discriminate|]. intros (H1 & H2 & _). congruence. }
  pose proof (validate_iff (lroot_node r)) as V. rewrite checked_below in V.
  assert (G : validateNode (lroot_node r) = Ok tt <-> forall m, below (lroot_node r) m ->
    exists n, m = Some n /\ Forall (fun e => clean_name (fst e)) (lentries n) /\ (lentries n <> [] -> fields_fit n)).
  { rewrite V. split; intros H m B; destruct (H m B) as (n & A1 & A2 & A3); eauto. }
  destruct (validateNode (lroot_node r)) as [[]|e|w]; cbn [rbind].
  - split; [intros H; inversion H; subst; split; [reflexivity|]; split; [exact Ev|]; apply G; reflexivity|].
    intros (H1 & _). exact H1.
  - split; [discriminate|]. intros (H1 & _ & H3). inversion H1; subst r. apply G in H3. discriminate.
  - split; [discriminate|]. intros (H1 & _ & H3). inversion H1; subst r. apply G in H3. discriminate.
Qed.
Print Assumptions C40_listing_validated_partial.
(** Acceptance does not depend on the iteration order of any of the maps. *)
Theorem C40_order_irrelevant : forall v n n',
  reordered (Some n) (Some n') -> ParseLS (Ok (LRoot v n)) = Ok (LRoot v n) -> ParseLS (Ok (LRoot v n')) = Ok (LRoot v n').
Proof.
  intros v n n' R. unfold ParseLS. cbn [rbind lversion lroot_node].
  destruct (negb (Z.eqb v 1)); [discriminate|].
  destruct (validateNode n) as [[]|e|w] eqn:E; cbn [rbind]; try discriminate. intros _.
  apply validate_iff in E. apply (reordered_checked _ _ R) in E. apply validate_iff in E. rewrite E. reflexivity.
Qed.
Print Assumptions C40_order_irrelevant.
(** Missing: nodes without entries (every file and symlink) are not checked at
    all, and a null entry is a nil dereference. *)
Definition bad_leaf : lnode := LNode (bs "symlink") [] 5 [] true 0.
Theorem C40_listing_validated_refuted :
  ~ fields_fit bad_leaf /\
  ParseLS (Ok (LRoot 1 (LNode (bs "directory") [(bs "a", Some bad_leaf)] 0 [] false 0)))
  = Ok (LRoot 1 (LNode (bs "directory") [(bs "a", Some bad_leaf)] 0 [] false 0)) /\
  exists m, ParseLS (Ok (LRoot 1 (LNode (bs "directory") [(bs "a", None)] 0 [] false 0))) = Panic m.
Proof.
  split; [|split; [reflexivity|eexists; reflexivity]].
  intros (_ & _ & H). destruct (H eq_refl) as [H1 _]. apply H1. reflexivity.
Qed.
Print Assumptions C40_listing_validated_refuted.
Definition ex_ls : lnode :=
  LNode (bs "directory")
    [ (bs "b", Some (LNode (bs "directory") [(bs "c", Some (LNode (bs "symlink") [] 0 (bs "t") false 0))] 0 [] false 0));
      (bs "a", Some (LNode (bs "regular") [] 5 [] true 96)) ] 0 [] false 0.
Example C40_nonvacuous :
  ParseLS (Ok (LRoot 1 ex_ls)) = Ok (LRoot 1 ex_ls) /\
  reordered (Some ex_ls) (Some (LNode (bs "directory") (rev (lentries ex_ls)) 0 [] false 0)) /\
  (exists e, ParseLS (Ok (LRoot 2 ex_ls)) = Err e) /\
  (exists e, ParseLS (Ok (LRoot 1 (LNode (bs "directory") [(bs "a/b", Some ex_ls)] 0 [] false 0))) = Err e) /\
  (exists e, ParseLS (Ok (LRoot 1 (LNode (bs "symlink") [(bs "a", Some ex_ls)] 0 [] false 0))) = Err e).
Proof.
  split; [reflexivity|]. split; [|repeat split; eexists; reflexivity].
  apply ro_node with (es1 := rev (lentries ex_ls)); [apply Permutation_rev|].
  repeat constructor; cbn [fst snd]; econstructor; try apply Permutation_refl; repeat constructor; cbn [snd];
    econstructor; try apply Permutation_refl; constructor.
Qed.

(** C94, over all the orders in which Go may walk the maps of a decoded listing: it can panic exactly when it
    can meet a null entry with nothing wrong on the way, it can report an error exactly when it can meet
    something wrong, and accepts exactly otherwise. *)
Theorem C94_panics_iff : forall n,
  (exists n' m, reordered (Some n) (Some n') /\ ParseLS (Ok (LRoot 1 n')) = Panic m) <-> meets_null n.
Proof.
  intros n. split.
  - intros (n' & m & R & H). unfold ParseLS in H. cbn [rbind lversion lroot_node] in H. change (negb (1 =? 1)%Z) with false in H. cbv iota in H.
    destruct (validateNode n') as [[]|e|w] eqn:V; cbn [rbind] in H; try discriminate H. eapply null_back; [eapply panic_null; exact V|exact R].
  - intros H. destruct (null_some n H) as (n' & w & R & V). exists n', w. split; [exact R|]. unfold ParseLS. cbn [rbind lversion lroot_node].
    rewrite V. reflexivity.
Qed.
Print Assumptions C94_panics_iff.
Theorem C94_fails_iff : forall n,
  (exists n' e, reordered (Some n) (Some n') /\ ParseLS (Ok (LRoot 1 n')) = Err e) <-> meets_fault n.
Proof.
  intros n. split.
  - intros (n' & m & R & H). unfold ParseLS in H. cbn [rbind lversion lroot_node] in H. change (negb (1 =? 1)%Z) with false in H. cbv iota in H.
    destruct (validateNode n') as [[]|e|w] eqn:V; cbn [rbind] in H; try discriminate H. eapply fault_back; [eapply err_fault; exact V|exact R].
  - intros H. destruct (fault_some n H) as (n' & w & R & V). exists n', w. split; [exact R|]. unfold ParseLS. cbn [rbind lversion lroot_node].
    rewrite V. reflexivity.
Qed.
Print Assumptions C94_fails_iff.
(** So it panics in every order if it can meet a null entry and nothing wrong, and whether it panics may depend
    on the order. *)
Theorem C94_always : forall n, meets_null n -> ~ meets_fault n ->
  forall n', reordered (Some n) (Some n') -> exists m, ParseLS (Ok (LRoot 1 n')) = Panic m.
Proof.
  intros n H1 H2 n' R. destruct (ParseLS (Ok (LRoot 1 n'))) as [r|e|m] eqn:P; [exfalso| |eauto].
  - apply C40_listing_validated_partial in P. destruct P as (E & _ & B). injection E as <-. cbn [lroot_node] in B.
    assert (C : checked (Some n')) by (apply checked_below; intros m M; destruct (B m M) as (k & A1 & A2 & A3); eauto).
    assert (C' : forall m, meets_null m -> forall m', reordered (Some m) (Some m') -> ~ checked (Some m')).
    { clear. induction 1 as [m k F C I|m k c F C I H IH]; intros m' R X; inversion R as [|ty es es1 es2 sz tg ex off P F2]; subst; cbn [lentries] in *;
        inversion X as [? _ _ Y]; subst; cbn [lentries] in Y; eapply Permutation_in in I; try exact P; clear -F2 I Y IH || clear -F2 I Y.
      - induction F2 as [|[a b] [a' b'] l l' [E R] F2 IHF]; [destruct I|]. inversion Y; subst. cbn [fst snd] in *. destruct I as [I|I]; [|auto].
        injection I as -> ->. inversion R; subst. match goal with Z : checked None |- _ => inversion Z end.
      - induction F2 as [|[a b] [a' b'] l l' [E R] F2 IHF]; [destruct I|]. inversion Y; subst. cbn [fst snd] in *. destruct I as [I|I]; [|auto].
        injection I as -> ->. destruct b' as [b'|]; [|inversion R]. eapply IH; eassumption. }
    exact (C' n H1 n' R C).
  - exfalso. apply H2. apply C94_fails_iff. eauto.
Qed.
Print Assumptions C94_always.
Definition null_dir (es : list (bytes * option lnode)) : lnode := LNode (bs "directory") es 0 [] false 0.
Example C94_nonvacuous :
  meets_null (null_dir [(bs "b", Some ex_ls); (bs "a", None)]) /\ ~ meets_fault (null_dir [(bs "a", None)]) /\
  meets_fault (null_dir [(bs "a", None); (bs "x/y", None)]) /\ meets_null (null_dir [(bs "a", None); (bs "x/y", None)]) /\
  ~ meets_null (LNode (bs "directory") [(bs "a", None)] 5 [] false 0).
Proof.
  assert (F : forall es, fields_fit (null_dir es)) by (intros es; repeat split; discriminate).
  assert (C : clean_name (bs "a")) by (apply name_iff; reflexivity).
  split; [|split; [|split; [|split]]].
  - eapply null_here; [apply F|exact C|right; left; reflexivity].
  - intros H. inversion H as [_ X|k c I X|k m I X]; [exact (X (F _))|destruct I as [I|[]]; injection I as <- <-; exact (X C)|destruct I as [I|[]]; discriminate I].
  - eapply fault_name; [right; left; reflexivity|]. intros X. apply name_iff in X. discriminate X.
  - eapply null_here; [apply F|exact C|left; reflexivity].
  - intros H. inversion H as [k X _ _|k m X _ _ _]; destruct X as (_ & X & _); destruct (X eq_refl) as (_ & Y & _); discriminate Y.
Qed.
