(** An entry called ")": the Reader never reads such an archive to its end (C28). *)
From Verif Require Import Base.Bytes Base.BytesFacts Model.GoIO Model.GoStd Model.Wire Model.Nar
  Model.NarReader Spec.WireSpec Spec.WireHist Spec.NarSpec Spec.NarHist Spec.NarAccept
  Proof.WireFacts Proof.WireProps Proof.NarPath Proof.NarReaderFacts Proof.NarSession Proof.NarAcceptP.
Ltac Zify.zify_post_hook ::= idtac.

Lemma takes_field x y d d1 : (lenN x < 2 ^ 63)%N -> (lenN y < 2 ^ 63)%N -> takes x (field y ++ d) d1 -> x = y /\ d1 = d.
Proof.
  intros Hx Hy (tail & H & ->). unfold field in H. rewrite <- !app_assoc in H.
  assert (L : lenN x = lenN y).
  { assert (H1 : firstn 8 (le8 (lenN x)) = le8 (lenN x)) by reflexivity.
    assert (H2 : le8 (lenN y) = le8 (lenN x)).
    { apply (f_equal (firstn 8)) in H. exact H. }
    apply (f_equal le_val) in H2. rewrite !le_val_le8 in H2 by lia. auto. }
  rewrite L in H. apply app_inv_head in H.
  assert (L' : length x = length y) by (unfold lenN in L; lia).
  assert (E : x = y /\ tail = repeat x00 (pad_len (length y)) ++ d).
  { symmetry in H. apply app_eq_app_len in H; [exact H|exact L']. }
  destruct E as [-> ->]. split; [reflexivity|]. rewrite skipn_app, repeat_length, Nat.sub_diag, skipn_all2 by (rewrite repeat_length; lia).
  reflexivity.
Qed.

Lemma takes_self c d : takes c (field c ++ d) d.
Proof.
  exists (repeat x00 (pad_len (length c)) ++ d). unfold field. rewrite <- !app_assoc. split; [reflexivity|].
  rewrite skipn_app, repeat_length, Nat.sub_diag, skipn_all2 by (rewrite repeat_length; lia). reflexivity.
Qed.
Definition eser (e : bytes * node) : bytes := entry_open (fst e) ++ ser (snd e) ++ str ")".
Definition loop (es : list (bytes * node)) : bytes := concat (map eser es) ++ str ")".
Fixpoint after (final : bytes) (K : list (list (bytes * node))) : bytes :=
  match K with [] => final | es :: K' => str ")" ++ loop es ++ after final K' end.
Fixpoint bad (t : node) : bool :=
  match t with Dir es => existsb (fun e => beq (fst e) (bs ")") || bad (snd e)) es | _ => false end.
Definition ebad (e : bytes * node) : bool := beq (fst e) (bs ")") || bad (snd e).
Definition fbad (f : frame) : bool := match f with Frame _ n => beq n (bs ")") end.
Definition wfe (e : bytes * node) : Prop := (lenN (fst e) < 2 ^ 63)%N /\ wf_tree any_name (snd e).
Definition short (b : bool) (st : list frame) (K : list (list (bytes * node))) : Prop :=
  length st < length K \/ length st = length K /\ (b || existsb (existsb ebad) K || existsb fbad st)%bool = true.

Lemma after_len final K : length final <= length (after final K).
Proof. induction K; cbn [after]; [lia|]. rewrite !app_length. lia. Qed.
Lemma after_len2 final K : K <> [] -> length final < length (after final K).
Proof.
  destruct K as [|es K]; [congruence|]. intros _. cbn [after]. rewrite !app_length. pose proof (after_len final K).
  change (length (str ")")) with 16. lia.
Qed.
Lemma ser_dir es d : ser (Dir es) ++ d = str "(" ++ str "type" ++ str "directory" ++ loop es ++ d.
Proof. unfold loop, eser. cbn [ser]. rewrite <- !app_assoc. reflexivity. Qed.
Lemma loop_cons n t es d : loop ((n, t) :: es) ++ d =
  str "entry" ++ str "(" ++ str "name" ++ field n ++ str "node" ++ ser t ++ str ")" ++ loop es ++ d.
Proof. unfold loop. cbn [map concat]. unfold eser at 1. cbn [fst snd]. unfold entry_open. rewrite <- !app_assoc. reflexivity. Qed.

(** Consume the known tokens of a [takes] hypothesis. *)
Ltac small := first [assumption|reflexivity|(unfold lenN in *; cbn; lia)|lia].
Ltac tk H := unfold str in H; apply takes_field in H; [|small..]; destruct H as [?X ->].

Lemma never c st d its rest : Acc c st d its rest -> forall final K, Forall (Forall wfe) K ->
  match c with
  | CNode p => forall t, wf_tree any_name t -> d = ser t ++ after final K -> short (bad t) st K -> length final < length rest
  | CLoop p => (forall es, Forall wfe es -> d = loop es ++ after final K -> short (existsb ebad es) st K -> length final < length rest) /\
               (d = after final K -> length st < length K -> length final < length rest)
  | CRet => (d = after final K -> short false st K -> length final < length rest) /\
            (forall es, Forall wfe es -> d = loop es ++ after final K -> length st <= length K -> length final < length rest)
  end.
Proof.
  induction 1; intros final K HK.
  - (* blank *) intros t Ht -> _. exfalso. unfold toks in H. cbn [map takes_all] in H.
    destruct H as (a & T1 & b & T2 & c & T3 & ->).
    destruct t; cbn [ser] in T1; rewrite <- !app_assoc in T1; tk T1; tk T2; tk T3; discriminate.
  - (* sym *) intros t0 Ht -> Hs. unfold toks in H0. cbn [map app takes_all] in H0.
    destruct H0 as (a & T1 & b & T2 & c & T3 & e & T4 & f & T5 & ->).
    inversion Ht as [exec c0|tg G1 G2|es W1 W2 W3]; subst; cbn [ser] in T1; rewrite <- !app_assoc in T1; tk T1; tk T2; tk T3; try discriminate.
    tk T4. tk T5. tk H1. apply (proj1 (IHAcc final K HK)); auto.
  - (* reg *) intros t Ht -> Hs. unfold toks in H0.
    inversion Ht as [exec c0 HC|tg G1 G2|es W1 W2 W3]; subst.
    + assert (T6 : takes c (field c0 ++ str ")" ++ after final K) d1).
      { destruct x, exec; cbn [map app takes_all] in H0; cbn [ser] in H0.
        1: destruct H0 as (a & T1 & b & T2 & e & T3 & f & T4 & g & T5 & h & T6 & X).
        2: destruct H0 as (a & T1 & b & T2 & e & T3 & f & T4 & _).
        3, 4: destruct H0 as (a & T1 & b & T2 & e & T3 & f & T4 & X).
        all: rewrite <- !app_assoc in T1; cbn [app] in T1; tk T1; tk T2; tk T3; tk T4; try discriminate.
        - tk T5. tk T6. change (str ")") with (field (bs ")")); rewrite X. apply takes_self.
        - change (str ")") with (field (bs ")")); rewrite X. apply takes_self. }
      tk T6. tk H1. apply (proj1 (IHAcc final K HK)); auto.
    + destruct x; cbn [map app takes_all] in H0; destruct H0 as (a & T1 & b & T2 & e & T3 & _);
        cbn [ser] in T1; rewrite <- !app_assoc in T1; tk T1; tk T2; tk T3; discriminate.
    + destruct x; cbn [map app takes_all] in H0; destruct H0 as (a & T1 & b & T2 & e & T3 & _);
        rewrite ser_dir in T1; tk T1; tk T2; tk T3; discriminate.
  - (* dir *) intros t Ht -> Hs. unfold toks in H. cbn [map app takes_all] in H.
    destruct H as (a & T1 & b & T2 & c & T3 & ->).
    inversion Ht as [exec c0|tg G1 G2|es W1 W2 W3]; subst.
    1, 2: cbn [ser] in T1; rewrite <- !app_assoc in T1; tk T1; tk T2; tk T3; discriminate.
    rewrite ser_dir in T1. tk T1; tk T2; tk T3.
    apply (proj1 (IHAcc final K HK)) with (es := es); auto.
    clear -W1 W3. induction es as [|e es IH]; [constructor|]. inversion W1 as [|? ? [A _] W1']; subst. inversion W3; subst. constructor; [|auto].
    split; [|assumption]. destruct A as (_ & _ & _ & _ & _ & A). unfold lenN. lia.
  - (* close *) split.
    + intros es He -> Hs. destruct es as [|[n t] es].
      * unfold loop in H. cbn [map concat app] in H. tk H. apply (proj1 (IHAcc final K HK)); auto.
      * rewrite loop_cons in H. tk H. discriminate.
    + intros -> Hl. destruct K as [|es K]; [cbn in Hl; lia|]. inversion HK; subst. cbn [after] in H. tk H.
      apply (proj2 (IHAcc final K ltac:(assumption))) with (es := es); auto. cbn [length] in Hl. lia.
  - (* junk *) split.
    + intros es He -> Hs. destruct es as [|[n t] es].
      * unfold loop in H2. cbn [map concat app] in H2. tk H2. congruence.
      * rewrite loop_cons in H2. tk H2. congruence.
    + intros -> Hl. destruct K as [|es K]; [cbn in Hl; lia|]. cbn [after] in H2. tk H2. congruence.
  - (* entry *) unfold toks in H2. cbn [map app takes_all] in H2.
    destruct H2 as (a & T1 & b & T2 & c & T3 & e & T4 & f & T5 & ->). split.
    + intros es He -> Hs. destruct es as [|[n' t] es].
      * unfold loop in T1. cbn [map concat app] in T1. tk T1. discriminate.
      * rewrite loop_cons in T1. inversion He as [|? ? [E1 E2] He']; subst. cbn [fst snd] in *. tk T1. tk T2. tk T3. tk T4. tk T5. subst n'.
        apply (IHAcc final (es :: K)) with (t := t); [constructor; assumption|exact E2|reflexivity|].
        unfold short in *. cbn [length existsb fbad] in *. unfold ebad in Hs at 1. cbn [fst snd] in Hs.
        destruct Hs as [Hs|[Hs1 Hs2]]; [left; lia|]. right. split; [lia|].
        destruct (beq n (bs ")")), (bad t), (existsb ebad es), (existsb (existsb ebad) K), (existsb fbad st); cbn in *; congruence.
    + intros -> Hl. destruct K as [|es K]; [cbn in Hl; lia|]. cbn [after] in T1. tk T1. discriminate.
  - (* end *) split.
    + intros -> Hs. apply after_len2. intros ->. destruct Hs as [Hs|[_ Hs]]; [cbn in Hs; lia|discriminate].
    + intros es He -> Hl. rewrite app_length. pose proof (after_len final K). unfold loop. rewrite app_length.
      change (length (str ")")) with 16. lia.
  - (* pop *) split.
    + intros -> Hs. destruct K as [|es K]; [destruct Hs as [Hs|[Hs _]]; cbn in Hs; lia|]. inversion HK; subst.
      cbn [after] in H. tk H. apply (proj1 (IHAcc final K ltac:(assumption))) with (es := es); auto.
      unfold short in *. cbn [length existsb fbad] in *. rewrite (proj2 (beq_neq n (bs ")")) H0) in Hs. 
      destruct Hs as [Hs|[Hs1 Hs2]]; [left; lia|]. right. split; [lia|exact Hs2].
    + intros es He -> Hl. destruct es as [|[n' t] es].
      * unfold loop in H. cbn [map concat app] in H. tk H. apply (proj2 (IHAcc final K HK)); [reflexivity|cbn [length] in Hl; lia].
      * rewrite loop_cons in H. tk H. discriminate.
  - (* last *) split.
    + intros -> Hs. destruct K as [|es K]; [destruct Hs as [Hs|[Hs _]]; cbn in Hs; lia|]. inversion HK; subst.
      cbn [after] in H. tk H. apply (proj2 (IHAcc final K ltac:(assumption))) with (es := es); auto.
      unfold short in *. cbn [length] in *. lia.
    + intros es He -> Hl. destruct es as [|[n' t] es].
      * unfold loop in H. cbn [map concat app] in H. tk H. apply (proj1 (IHAcc final K HK)); [reflexivity|left; cbn [length] in Hl; lia].
      * rewrite loop_cons in H. tk H. discriminate.
Qed.
Lemma bad_reads p t its final rest : wf_tree any_name t -> bad t = true -> node_read p its (ser t ++ final) rest ->
  length final < length rest.
Proof.
  intros Ht Hb H. apply Acc_root in H. apply (never _ _ _ _ _ H final [] (Forall_nil _) t Ht eq_refl).
  right. split; [reflexivity|]. rewrite Hb. reflexivity.
Qed.
Lemma not_bad t : wf_tree any_name t -> bad t = false -> wf_tree reader_name t.
Proof.
  induction t as [e c|tg|es IH] using node_ind2; intros H Hb; inversion H as [| |? W1 W2 W3]; subst; constructor; auto.
  - cbn [bad] in Hb. clear -W1 Hb. induction es as [|e es IHe]; [constructor|]. inversion W1; subst. cbn [existsb] in Hb.
    apply orb_false_iff in Hb. destruct Hb as [Hb1 Hb2]. apply orb_false_iff in Hb1. destruct Hb1 as [Hb1 _]. constructor; auto.
    split; [tauto|]. unfold reader_name. apply beq_neq. exact Hb1.
  - cbn [bad] in Hb. clear -IH W3 Hb. induction IH as [|e es IH1 IH2 IHe]; [constructor|]. inversion W3; subst. cbn [existsb] in Hb.
    apply orb_false_iff in Hb. destruct Hb as [Hb1 Hb2]. apply orb_false_iff in Hb1. constructor; tauto.
Qed.

