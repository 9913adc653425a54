(** Proofs about nar/util.go and nar/header.go (C25, C26). *)
From Verif Require Import Base.Bytes Base.BytesFacts Model.Nar Spec.NarSpec.
Ltac Zify.zify_post_hook ::= idtac.

(** Character-wise comparison with '/' below everything. *)
Fixpoint scmp (a b : bytes) : comparison :=
  match a, b with
  | [], [] => Eq
  | [], _ :: _ => Lt
  | _ :: _, [] => Gt
  | x :: a', y :: b' =>
      if byte_eqb x y then scmp a' b'
      else if byte_eqb x "/"%byte then Lt
      else if byte_eqb y "/"%byte then Gt
      else N.compare (b2n x) (b2n y)
  end.
Lemma ccmp_scmp a : forall b, ccmp (split_byte a "/"%byte) (split_byte b "/"%byte) = scmp a b.
Proof.
  induction a as [|x a IH]; intros [|y b].
  - reflexivity.
  - cbn [split_byte scmp]. pose proof (split_byte_nonnil b "/"%byte).
    destruct (byte_eqb y "/"%byte).
    + destruct (split_byte b "/"%byte); [congruence|reflexivity].
    + destruct (split_byte b "/"%byte); reflexivity.
  - cbn [split_byte scmp]. pose proof (split_byte_nonnil a "/"%byte).
    destruct (byte_eqb x "/"%byte).
    + destruct (split_byte a "/"%byte); [congruence|reflexivity].
    + destruct (split_byte a "/"%byte); reflexivity.
  - cbn [split_byte scmp]. specialize (IH b).
    pose proof (split_byte_nonnil a "/"%byte) as Ha. pose proof (split_byte_nonnil b "/"%byte) as Hb.
    destruct (split_byte a "/"%byte) as [|h1 t1]; [congruence|].
    destruct (split_byte b "/"%byte) as [|h2 t2]; [congruence|].
    destruct (byte_eqb_spec x y) as [->|Hne].
    + destruct (byte_eqb y "/"%byte); [exact IH|].
      cbn [ccmp bcmp] in *. rewrite N.compare_refl. exact IH.
    + destruct (byte_eqb_spec x "/"%byte) as [->|Hx].
      * destruct (byte_eqb_spec y "/"%byte); [congruence|]. reflexivity.
      * destruct (byte_eqb_spec y "/"%byte) as [->|Hy]; [reflexivity|].
        cbn [ccmp bcmp]. destruct (N.compare_spec (b2n x) (b2n y)) as [E|E|E]; try reflexivity.
        elim Hne. apply b2n_inj. exact E.
Qed.
Lemma ble_cons x a b : ble (x :: a) (x :: b) = ble a b.
Proof. unfold ble. cbn [bcmp]. rewrite N.compare_refl. reflexivity. Qed.
Lemma lex_exact a : forall b, ble a b = false -> (lex_loop a b = true <-> scmp a b <> Gt).
Proof.
  induction a as [|x a IH]; intros [|y b] H; cbn [lex_loop scmp]; try discriminate.
  - split; [discriminate|congruence].
  - destruct (byte_eqb_spec x y) as [->|Hne].
    + rewrite ble_cons in H. apply IH. exact H.
    + unfold ble in H. cbn [bcmp] in H.
      destruct (N.compare_spec (b2n x) (b2n y)) as [E|E|E]; [elim Hne; apply b2n_inj; exact E|discriminate|].
      unfold byte_lt. destruct (N.ltb_spec (b2n x) (b2n y)); [lia|].
      destruct (byte_eqb_spec x "/"%byte) as [->|Hx]; destruct (byte_eqb_spec y "/"%byte) as [->|Hy];
        cbn [andb negb]; try congruence.
      * split; [discriminate|reflexivity].
      * split; [discriminate|congruence].
      * split; [discriminate|congruence].
Qed.
Lemma lex_ordered_exact a b :
  PathIsLexicographicallyOrdered a b = true <-> ble a b = true \/ component_le a b.
Proof.
  unfold PathIsLexicographicallyOrdered, component_le. rewrite ccmp_scmp.
  destruct (ble a b) eqn:E.
  - split; auto.
  - rewrite lex_exact by exact E. split; [auto|intros [H|H]; [discriminate|exact H]].
Qed.

(** * Headers *)
Lemma validate_header_exact h : hd_Validate h = Ok tt <->
  (exists p, hd_path h = "/"%byte :: p) /\ ~ In x00 (hd_path h) /\
  ((hd_type h = bs "regular" \/ hd_type h = bs "directory") -> hd_target h = []) /\
  ((hd_type h = bs "directory" \/ hd_type h = bs "symlink") -> hd_size h = 0%Z /\ hd_exec h = false) /\
  (hd_type h = bs "symlink" -> hd_target h <> []).
Proof.
  unfold hd_Validate. change TypeRegular with (bs "regular"). change TypeDirectory with (bs "directory").
  change TypeSymlink with (bs "symlink").
  destruct h as [p t tg sz ex]. cbn [hd_path hd_type hd_target hd_size hd_exec].
  destruct p as [|c p].
  { split; [discriminate|]. intros [[p Hp] _]. discriminate. }
  destruct (byte_eqb_spec c "/"%byte) as [->|Hc]; cbn [negb].
  2:{ split; [discriminate|]. intros [[p' Hp] _]. congruence. }
  destruct (contains_byte ("/"%byte :: p) x00) eqn:En.
  { apply contains_byte_iff in En. split; [discriminate|]. tauto. }
  apply contains_byte_false in En.
  destruct (beq_spec t (bs "regular")) as [->|T1].
  { cbn [orb andb]. destruct (beq_spec tg []) as [->|]; cbn [negb andb].
    - change (beq (bs "regular") (bs "directory")) with false. change (beq (bs "regular") (bs "symlink")) with false.
      cbn [orb andb]. split; [intros _|reflexivity]. split; [eauto|]. split; [exact En|].
      split; [auto|]. split; [intros [H|H]; discriminate|discriminate].
    - split; [discriminate|]. intros (_ & _ & H & _). elim n. auto. }
  destruct (beq_spec t (bs "directory")) as [->|T2].
  { cbn [orb andb]. destruct (beq_spec tg []) as [->|]; cbn [negb andb].
    2:{ split; [discriminate|]. intros (_ & _ & H & _). elim n. auto. }
    destruct (Z.eqb_spec sz 0) as [->|]; cbn [negb].
    2:{ split; [discriminate|]. intros (_ & _ & _ & H & _). destruct H; auto; contradiction. }
    destruct ex; cbn [andb].
    { split; [discriminate|]. intros (_ & _ & _ & H & _). destruct H; auto; discriminate. }
    change (beq (bs "directory") (bs "symlink")) with false. cbn [andb].
    split; [intros _|reflexivity]. split; [eauto|]. split; [exact En|]. repeat split; auto. discriminate. }
  cbn [orb andb].
  destruct (beq_spec t (bs "symlink")) as [->|T3].
  - cbn [andb]. destruct (Z.eqb_spec sz 0) as [->|]; cbn [negb].
    2:{ split; [discriminate|]. intros (_ & _ & _ & H & _). destruct H; auto; contradiction. }
    destruct ex; cbn [andb].
    { split; [discriminate|]. intros (_ & _ & _ & H & _). destruct H; auto; discriminate. }
    destruct (beq_spec tg []) as [->|Ht].
    { split; [discriminate|]. intros (_ & _ & _ & _ & H). elim H; auto. }
    split; [intros _|reflexivity]. split; [eauto|]. split; [exact En|]. split; [intros [H|H]; discriminate|].
    split; auto.
  - cbn [andb]. split; [intros _|reflexivity]. split; [eauto|]. split; [exact En|].
    split; [intros [H|H]; contradiction|]. split; [intros [H|H]; contradiction|contradiction].
Qed.
