(** An entry called ")" that nothing follows: the Reader still reports the whole tree, and otherwise it does
    not (C28). *)
From Verif Require Import Base.Bytes Base.BytesFacts Model.GoIO Model.GoStd Model.Wire Model.Nar
  Model.NarReader Spec.WireSpec Spec.WireHist Spec.NarSpec Spec.NarHist Spec.NarAccept
  Proof.WireFacts Proof.WireProps Proof.NarPath Proof.NarReaderFacts Proof.NarSession Proof.NarAcceptP Proof.NarReaderBad.
Ltac Zify.zify_post_hook ::= idtac.

Fixpoint lastp (t : node) : Prop :=
  match t with
  | Dir es => (fix ls (l : list (bytes * node)) : Prop :=
      match l with [] => True | e :: l' => lastp (snd e) /\ (ebad e = true -> l' = []) /\ ls l' end) es
  | _ => True
  end.
Fixpoint lasts (l : list (bytes * node)) : Prop :=
  match l with [] => True | e :: l' => lastp (snd e) /\ (ebad e = true -> l' = []) /\ lasts l' end.
Fixpoint nd (k : nat) (t : node) : list nat :=
  k :: match t with Dir es => concat (map (fun e => nd (S k) (snd e)) es) | _ => [] end.
Definition edp (k : nat) (es : list (bytes * node)) : list nat := concat (map (fun e => nd k (snd e)) es).
Fixpoint kd (K : list (list (bytes * node))) : list nat :=
  match K with [] => [] | es :: K' => edp (length K) es ++ kd K' end.
Definition dl (its : list (header * bytes)) (ks : list nat) : Prop :=
  Forall2 (fun it k => exists cs, comps_ok cs /\ hd_path (fst it) = path_of cs /\ length cs = k) its ks.
Definition pok (p : bytes) (st : list frame) : Prop := exists cs, comps_ok cs /\ p = path_of cs /\ length cs = length st.
Fixpoint wfst (st : list frame) : Prop :=
  match st with [] => True | Frame p n :: st' => pok p st' /\ wfst st' end.
Definition wfn (e : bytes * node) : Prop := name_ok (fst e) /\ wf_tree any_name (snd e).
Fixpoint kclean (st : list frame) (K : list (list (bytes * node))) : Prop :=
  match st, K with
  | Frame _ n :: st', es :: K' => (n = bs ")" -> kd (es :: K') = []) /\ lasts es /\ (existsb ebad es = true -> kd K' = []) /\ kclean st' K'
  | _, _ => True
  end.

Lemma nd_cons k t : exists l, nd k t = k :: l.
Proof. destruct t; cbn [nd]; eauto. Qed.
Lemma edp_nil k es : edp k es = [] -> es = [].
Proof. destruct es as [|e es]; [reflexivity|]. unfold edp. cbn [map concat]. destruct (nd_cons k (snd e)) as (l & ->). discriminate. Qed.
Lemma kd_cons es K : kd (es :: K) = [] -> es = [] /\ kd K = [].
Proof. cbn [kd]. intros H. apply app_eq_nil in H. destruct H as [H1 H2]. split; [eapply edp_nil; exact H1|exact H2]. Qed.
Lemma kclean_nil K : kd K = [] -> forall st, kclean st K.
Proof.
  induction K as [|es K IH]; intros H st; destruct st as [|[p n] st]; cbn [kclean]; auto.
  destruct (kd_cons _ _ H) as [-> H2]. split; [auto|]. split; [exact I|]. split; [discriminate|]. apply IH; exact H2.
Qed.
Lemma wfn_e es : Forall wfn es -> Forall wfe es.
Proof. apply Forall_impl. intros e [(_ & _ & _ & _ & _ & A) B]. split; [unfold lenN; lia|exact B]. Qed.
Lemma edp_cons k e es l : edp k (e :: es) ++ l = nd k (snd e) ++ edp k es ++ l.
Proof. unfold edp. cbn [map concat]. rewrite app_assoc. reflexivity. Qed.
Lemma dl_nil ks : dl [] ks -> ks = [].
Proof. intros H. inversion H. reflexivity. Qed.
Lemma pok_step p n st : pok p st -> name_ok n -> pok (Join2 p n) (Frame p n :: st).
Proof.
  intros (cs & H1 & -> & H2) Hn. exists (cs ++ [n]). split; [apply Forall_app; split; [exact H1|constructor; [exact Hn|constructor]]|].
  split; [apply Join_path_of; assumption|]. rewrite app_length. cbn [length]. lia.
Qed.
Lemma wfn_dir es : wf_tree any_name (Dir es) -> Forall wfn es.
Proof.
  intros H. inversion H as [| |? W1 W2 W3]; subst. clear -W1 W3. induction es as [|e es IH]; [constructor|].
  inversion W1 as [|? ? [A _] W1']; subst. inversion W3; subst. constructor; [split; assumption|auto].
Qed.
(** The first node read is the one that stands there. *)
Lemma Acc_head p st t z its rest : wf_tree any_name t -> Acc (CNode p) st (ser t ++ z) its rest ->
  exists h c its', its = (h, c) :: its' /\ hd_path h = p.
Proof.
  intros Ht H. inversion H; subst; eauto. exfalso.
  match goal with T : takes_all _ _ _ |- _ => unfold toks in T; cbn [map takes_all] in T; destruct T as (a & T1 & b & T2 & c & T3 & ->) end.
  destruct t; cbn [ser] in T1; rewrite <- !app_assoc in T1; tk T1; tk T2; tk T3; discriminate.
Qed.

Ltac smalln := first [assumption|reflexivity|(unfold lenN in *; cbn; lia)|lia].
Lemma listed c st d its rest : Acc c st d its rest -> forall final K, Forall (Forall wfn) K -> wfst st ->
  match c with
  | CNode p => pok p st -> forall t, wf_tree any_name t -> d = ser t ++ after final K -> length st = length K ->
      dl its (nd (length K) t ++ kd K) -> lastp t /\ (bad t = true -> kd K = []) /\ kclean st K
  | CLoop p => pok p st ->
      (forall es, Forall wfn es -> d = loop es ++ after final K -> length st = length K -> dl its (edp (S (length K)) es ++ kd K) ->
         lasts es /\ (existsb ebad es = true -> kd K = []) /\ kclean st K) /\
      (forall es, Forall wfn es -> d = loop es ++ after final K -> length st < length K -> dl its (edp (S (length K)) es ++ kd K) ->
         es = [] /\ kd K = []) /\
      (d = after final K -> length st < length K -> dl its (kd K) -> kd K = [])
  | CRet =>
      (d = after final K -> length st = length K -> dl its (kd K) -> kclean st K) /\
      (d = after final K -> length st < length K -> dl its (kd K) -> kd K = []) /\
      (forall es, Forall wfn es -> d = loop es ++ after final K -> length st <= length K -> dl its (edp (S (length K)) es ++ kd K) ->
         es = [] /\ kd K = [])
  end.
Proof.
  induction 1; intros final K HK Hst.
  - (* blank *) intros Hp t Ht -> _ _. exfalso. unfold toks in H. cbn [map takes_all] in H.
    destruct H as (a & T1 & b & T2 & c & T3 & ->).
    destruct t; cbn [ser] in T1; rewrite <- !app_assoc in T1; tk T1; tk T2; tk T3; discriminate.
  - (* sym *) intros Hp t0 Ht -> Hs Hd. unfold toks in H0. cbn [map app takes_all] in H0.
    destruct H0 as (a & T1 & b & T2 & c & T3 & e & T4 & f & T5 & ->).
    inversion Ht as [exec c0|tg G1 G2|es W1 W2 W3]; subst; cbn [ser] in T1; rewrite <- !app_assoc in T1; tk T1; tk T2; tk T3; try discriminate.
    tk T4. tk T5. tk H1. cbn [nd app] in Hd. inversion Hd; subst. split; [exact I|]. split; [discriminate|].
    apply (proj1 (IHAcc final K HK Hst)); auto.
  - (* reg *) intros Hp t Ht -> Hs Hd. unfold toks in H0.
    inversion Ht as [exec c0 HC|tg G1 G2|es W1 W2 W3]; subst.
    + assert (T6 : takes c (field c0 ++ str ")" ++ after final K) d1).
      { destruct x, exec; cbn [map app takes_all] in H0; cbn [ser] in H0.
        1: destruct H0 as (a & T1 & b & T2 & e & T3 & f & T4 & g & T5 & h & T6 & X).
        2: destruct H0 as (a & T1 & b & T2 & e & T3 & f & T4 & _).
        3, 4: destruct H0 as (a & T1 & b & T2 & e & T3 & f & T4 & X).
        all: rewrite <- !app_assoc in T1; cbn [app] in T1; tk T1; tk T2; tk T3; tk T4; try discriminate.
        - tk T5. tk T6. change (str ")") with (field (bs ")")); rewrite X. apply takes_self.
        - change (str ")") with (field (bs ")")); rewrite X. apply takes_self. }
      tk T6. tk H1. cbn [nd app] in Hd. inversion Hd; subst. split; [exact I|]. split; [discriminate|].
      apply (proj1 (IHAcc final K HK Hst)); auto.
    + destruct x; cbn [map app takes_all] in H0; destruct H0 as (a & T1 & b & T2 & e & T3 & _);
        cbn [ser] in T1; rewrite <- !app_assoc in T1; tk T1; tk T2; tk T3; discriminate.
    + destruct x; cbn [map app takes_all] in H0; destruct H0 as (a & T1 & b & T2 & e & T3 & _);
        rewrite ser_dir in T1; tk T1; tk T2; tk T3; discriminate.
  - (* dir *) intros Hp t Ht -> Hs Hd. unfold toks in H. cbn [map app takes_all] in H.
    destruct H as (a & T1 & b & T2 & c & T3 & ->).
    destruct t as [exec c0|tg|es].
    1, 2: inversion Ht; subst; cbn [ser] in T1; rewrite <- !app_assoc in T1; tk T1; tk T2; tk T3; discriminate.
    pose proof (wfn_dir _ Ht) as We.
    rewrite ser_dir in T1. tk T1; tk T2; tk T3. cbn [nd app] in Hd. inversion Hd; subst.
    apply (proj1 (IHAcc final K HK Hst Hp)); auto.
  - (* close *) intros Hp. split; [|split].
    + intros es He -> Hs Hd. destruct es as [|[n t] es].
      * unfold loop in H. cbn [map concat app] in H. tk H. split; [exact I|]. split; [discriminate|].
        apply (proj1 (IHAcc final K HK Hst)); auto.
      * rewrite loop_cons in H. tk H. discriminate.
    + intros es He -> Hs Hd. destruct es as [|[n t] es].
      * unfold loop in H. cbn [map concat app] in H. tk H. split; [reflexivity|].
        apply (proj1 (proj2 (IHAcc final K HK Hst))); auto.
      * rewrite loop_cons in H. tk H. discriminate.
    + intros -> Hl Hd. destruct K as [|es K]; [cbn in Hl; lia|]. inversion HK; subst. cbn [after] in H. tk H.
      destruct (proj2 (proj2 (IHAcc final K ltac:(assumption) Hst)) es) as [-> E]; auto. cbn [length] in Hl; lia.
  - (* junk *) intros Hp. split; [|split].
    + intros es He -> Hs. destruct es as [|[n t] es].
      * unfold loop in H2. cbn [map concat app] in H2. tk H2. congruence.
      * rewrite loop_cons in H2. tk H2. congruence.
    + intros es He -> Hs. destruct es as [|[n t] es].
      * unfold loop in H2. cbn [map concat app] in H2. tk H2. congruence.
      * rewrite loop_cons in H2. tk H2. congruence.
    + intros -> Hl. destruct K as [|es K]; [cbn in Hl; lia|]. cbn [after] in H2. tk H2. congruence.
  - (* entry *) intros Hp. unfold toks in H2. cbn [map app takes_all] in H2.
    destruct H2 as (a & T1 & b & T2 & c & T3 & e & T4 & f & T5 & ->). split; [|split].
    + intros es He -> Hs Hd. destruct es as [|[n' t] es].
      * unfold loop in T1. cbn [map concat app] in T1. tk T1. discriminate.
      * rewrite loop_cons in T1. inversion He as [|? ? [E1 E2] He']; subst. cbn [fst snd] in *.
        assert (L' : (lenN n' < 2 ^ 63)%N) by (destruct E1 as (_ & _ & _ & _ & _ & E1); unfold lenN; lia).
        tk T1. tk T2. tk T3. tk T4. tk T5. subst n'.
        destruct (IHAcc final (es :: K)) with (t := t) as (R1 & R2 & R3); auto.
        -- constructor; assumption.
        -- apply pok_step; assumption.
        -- cbn [length]. lia.
        -- cbn [length kd]. rewrite edp_cons in Hd. exact Hd.
        -- cbn [kclean] in R3. destruct R3 as (R3 & R4 & R5 & R6). cbn [lasts fst snd existsb]. unfold ebad at 1 2. cbn [fst snd].
           assert (Q : (beq n (bs ")") || bad t)%bool = true -> kd (es :: K) = []).
           { intros Hq. apply orb_true_iff in Hq. destruct Hq as [Hq|Hq]; [|auto]. apply R3. apply beq_eq. exact Hq. }
           repeat split; auto.
           ++ intros Hq. apply (kd_cons es K). auto.
           ++ intros Hq. apply orb_true_iff in Hq. destruct Hq as [Hq|Hq]; [|auto]. apply (kd_cons es K). auto.
    + intros es He -> Hs Hd. exfalso. destruct es as [|[n' t] es].
      * unfold loop in T1. cbn [map concat app] in T1. tk T1. discriminate.
      * rewrite loop_cons in T1. inversion He as [|? ? [E1 E2] He']; subst. cbn [fst snd] in *.
        assert (L' : (lenN n' < 2 ^ 63)%N) by (destruct E1 as (_ & _ & _ & _ & _ & E1); unfold lenN; lia).
        tk T1. tk T2. tk T3. tk T4. tk T5. subst n'.
        destruct (Acc_head _ _ _ _ _ _ E2 H3) as (h & c0 & its' & -> & Eh).
        destruct (pok_step p n st Hp E1) as (cs & C1 & C2 & C3).
        rewrite edp_cons in Hd. cbn [snd] in Hd. destruct (nd_cons (S (length K)) t) as (l & El). rewrite El in Hd. cbn [app] in Hd.
        inversion Hd as [|? ? ? ? (cs' & C1' & C2' & C3') _]; subst. cbn [fst] in C2'. rewrite Eh, C2 in C2'.
        apply path_of_inj in C2'; [|assumption..]. subst cs'. cbn [length] in C3. lia.
    + intros -> Hl. destruct K as [|es K]; [cbn in Hl; lia|]. cbn [after] in T1. tk T1. discriminate.
  - (* end *) split; [|split].
    + intros -> Hs _. exact I.
    + intros -> Hs Hd. apply dl_nil. exact Hd.
    + intros es He -> Hl Hd. apply dl_nil in Hd. apply app_eq_nil in Hd. destruct Hd as [H1 H2]. split; [eapply edp_nil; exact H1|exact H2].
  - (* pop *) cbn [wfst] in Hst. destruct Hst as [Hp Hst]. split; [|split].
    + intros -> Hs Hd. destruct K as [|es K]; [cbn in Hs; lia|]. inversion HK; subst.
      cbn [after] in H. tk H. destruct (proj1 (IHAcc final K ltac:(assumption) Hst Hp) es) as (R1 & R2 & R3); auto.
      cbn [kclean]. repeat split; auto. intros E. contradiction.
    + intros -> Hs Hd. destruct K as [|es K]; [cbn in Hs; lia|]. inversion HK; subst.
      cbn [after] in H. tk H. destruct (proj1 (proj2 (IHAcc final K ltac:(assumption) Hst Hp)) es) as [-> E]; auto. cbn [length] in Hs; lia.
    + intros es He -> Hl Hd. destruct es as [|[n' t] es].
      * unfold loop in H. cbn [map concat app] in H. tk H. split; [reflexivity|].
        apply (proj2 (proj2 (IHAcc final K HK Hst Hp))); auto.
      * rewrite loop_cons in H. tk H. discriminate.
  - (* last *) cbn [wfst] in Hst. destruct Hst as [Hp Hst]. split; [|split].
    + intros -> Hs Hd. destruct K as [|es K]; [cbn in Hs; lia|]. inversion HK; subst.
      cbn [after] in H. tk H. destruct (proj2 (proj2 (IHAcc final K ltac:(assumption) Hst)) es) as [-> E]; auto; [cbn [length] in Hs; lia|].
      cbn [kclean kd]. rewrite E. repeat split; auto. apply kclean_nil. exact E.
    + intros -> Hs Hd. destruct K as [|es K]; [cbn in Hs; lia|]. inversion HK; subst.
      cbn [after] in H. tk H. destruct (proj2 (proj2 (IHAcc final K ltac:(assumption) Hst)) es) as [-> E]; auto. cbn [length] in Hs; lia.
    + intros es He -> Hl Hd. destruct es as [|[n' t] es].
      * unfold loop in H. cbn [map concat app] in H. tk H. split; [reflexivity|].
        apply (proj1 (proj2 (IHAcc final K HK Hst))); auto.
      * rewrite loop_cons in H. tk H. discriminate.
Qed.

(** * The trees with nothing after a ")" are reported *)
From Verif Require Import Spec.NarParenSpec.
Lemma closers_comm k d : closers k ++ str ")" ++ d = str ")" ++ closers k ++ d.
Proof.
  unfold closers. induction k as [|k IH]; [reflexivity|]. cbn [repeat concat]. rewrite <- !app_assoc, IH. reflexivity.
Qed.
Lemma takes_str s d : takes (bs s) (str s ++ d) d.
Proof. apply takes_self. Qed.
Lemma takes_all_self xs : forall d, takes_all xs (concat (map field xs) ++ d) d.
Proof.
  induction xs as [|x xs IH]; intros d; cbn [map concat app takes_all]; [reflexivity|].
  exists (concat (map field xs) ++ d). split; [rewrite <- app_assoc; apply takes_self|apply IH].
Qed.
Definition litems (cs : list bytes) (es : list (bytes * node)) : list (header * bytes) :=
  concat (map (fun e => items (cs ++ [fst e]) (snd e)) es).
Lemma dir_read cs es d d' : entries_read (path_of cs) (litems cs es) (loop es ++ d) d' ->
  node_read (path_of cs) (items cs (Dir es)) (ser (Dir es) ++ d) d'.
Proof.
  intros H. cbn [items hdr_of content_of]. eapply nr_dir; [|exact H]. rewrite ser_dir.
  exact (takes_all_self (toks ["("; "type"; "directory"]%string) (loop es ++ d)).
Qed.
Lemma entry_takes n t es d : takes_all (toks ["entry"; "("; "name"]%string ++ [n] ++ toks ["node"]%string) (loop ((n, t) :: es) ++ d)
  (ser t ++ str ")" ++ loop es ++ d).
Proof.
  rewrite loop_cons. replace (str "entry" ++ _) with (concat (map field (toks ["entry"; "("; "name"]%string ++ [n] ++ toks ["node"]%string))
    ++ ser t ++ str ")" ++ loop es ++ d); [apply takes_all_self|].
  unfold toks, str. cbn [map concat app]. rewrite <- !app_assoc. reflexivity.
Qed.
Lemma good_read t : wf_tree reader_name t -> forall cs d, comps_ok cs -> node_read (path_of cs) (items cs t) (ser t ++ d) d.
Proof.
  induction t as [x c|tg|es IH] using node_ind2; intros Hwf cs d Hcs.
  - inversion Hwf as [? ? Hc| |]; subst. cbn [items hdr_of content_of].
    apply (nr_reg _ x c _ (str ")" ++ d)); [exact Hc| |apply takes_str].
    set (xs := toks _ ++ _). replace (ser (Reg x c) ++ d) with (concat (map field xs) ++ field c ++ str ")" ++ d).
    + apply takes_all_self.
    + unfold xs, toks, str. destruct x; cbn [ser map concat app]; rewrite <- ?app_assoc; reflexivity.
  - inversion Hwf as [|? Ht1 Ht2|]; subst. cbn [items hdr_of content_of]. apply nr_sym; [exact Ht2|].
    set (xs := toks _ ++ _). replace (ser (Sym tg) ++ d) with (concat (map field xs) ++ d).
    + apply takes_all_self.
    + unfold xs, toks, str. cbn [ser map concat app]. rewrite <- ?app_assoc. reflexivity.
  - inversion Hwf as [| |? Hnames Hsort Hts]; subst. apply dir_read. clear Hsort Hwf.
    induction es as [|[n t] es IHes].
    + unfold loop. cbn [map concat app]. constructor. apply takes_str.
    + inversion IH as [|? ? IHt IHrest]; subst. inversion Hnames as [|? ? [Hn Hr] Hnames']; subst.
      inversion Hts as [|? ? Ht Hts']; subst. cbn [fst snd] in *. unfold litems. cbn [map concat fst snd].
      eapply (er_entry _ n _ _ _ (ser t ++ str ")" ++ loop es ++ d)).
      * apply Hn.
      * apply Hn.
      * destruct Hn as (_ & _ & _ & _ & _ & Hl). unfold lenN. lia.
      * exact Hr.
      * apply entry_takes.
      * rewrite Join_path_of by assumption. apply IHt; [exact Ht|].
        apply Forall_app; split; [exact Hcs|constructor; [exact Hn|constructor]].
      * apply takes_str.
      * apply IHes; assumption.
Qed.
Lemma last_loop es : Forall (fun e => reader_name (fst e) /\ wf_tree reader_name (snd e)) es -> forall n t cs d d',
  Forall (fun e => name_ok (fst e)) es -> comps_ok cs ->
  entries_read (path_of cs) (items (cs ++ [n]) t) (loop [(n, t)] ++ d) d' ->
  entries_read (path_of cs) (litems cs (es ++ [(n, t)])) (loop (es ++ [(n, t)]) ++ d) d'.
Proof.
  induction 1 as [|[m u] es [Hr Ht] _ IH]; intros n t cs d d' Hn Hcs H.
  - unfold litems. cbn [app map concat fst snd]. rewrite app_nil_r. exact H.
  - inversion Hn as [|? ? Hm Hn']; subst. cbn [fst snd] in *. unfold litems. cbn [app map concat fst snd].
    eapply (er_entry _ m _ _ _ (ser u ++ str ")" ++ loop (es ++ [(n, t)]) ++ d)).
    + apply Hm.
    + apply Hm.
    + destruct Hm as (_ & _ & _ & _ & _ & Hl). unfold lenN. lia.
    + exact Hr.
    + apply entry_takes.
    + rewrite Join_path_of by assumption. apply good_read; [exact Ht|].
      apply Forall_app; split; [exact Hcs|constructor; [exact Hm|constructor]].
    + apply takes_str.
    + apply IH; assumption.
Qed.
Lemma last_read t k : paren_last t k -> wf_tree any_name t -> forall cs d, comps_ok cs ->
  node_read (path_of cs) (items cs t) (ser t ++ d) (closers k ++ d).
Proof.
  assert (W : forall es n t, wf_tree any_name (Dir (es ++ [(n, t)])) ->
    Forall (fun e : bytes * node => name_ok (fst e)) es /\ name_ok n /\ wf_tree any_name t).
  { intros es n u H. inversion H as [| |? W1 _ W3]; subst. apply Forall_app in W1, W3. destruct W1 as [W1 W2], W3 as [_ W3].
    inversion W2 as [|? ? [W4 _] _]; subst. inversion W3; subst. split; [|split; assumption].
    eapply Forall_impl; [|exact W1]. cbn. tauto. }
  induction 1 as [x c|tg| |es t k He Ht IH|es n t k He Hn Ht IH]; intros Hwf cs d Hcs.
  - apply good_read; [|exact Hcs]. inversion Hwf; subst. constructor; assumption.
  - apply good_read; [|exact Hcs]. inversion Hwf; subst. constructor; assumption.
  - apply good_read; [|exact Hcs]. constructor; constructor.
  - destruct (W _ _ _ Hwf) as (W1 & W2 & W3). apply dir_read. apply last_loop; [exact He|exact W1|exact Hcs|].
    eapply er_last; [exact (entry_takes (bs ")") t [] d)| |].
    + rewrite Join_path_of by assumption. apply IH; [exact W3|].
      apply Forall_app; split; [exact Hcs|constructor; [exact W2|constructor]].
    + unfold loop. cbn [map concat app]. rewrite closers_comm. replace (closers (S k) ++ d) with (closers k ++ str ")" ++ d).
      * apply takes_str.
      * rewrite closers_comm. unfold closers. cbn [repeat concat]. rewrite <- app_assoc. reflexivity.
  - destruct (W _ _ _ Hwf) as (W1 & W2 & W3). apply dir_read. apply last_loop; [exact He|exact W1|exact Hcs|].
    rewrite <- (app_nil_r (items _ t)).
    eapply er_entry; [| | | |exact (entry_takes n t [] d)| | |].
    + apply W2.
    + apply W2.
    + destruct W2 as (_ & _ & _ & _ & _ & Hl). unfold lenN. lia.
    + exact Hn.
    + rewrite Join_path_of by assumption. apply IH; [exact W3|].
      apply Forall_app; split; [exact Hcs|constructor; [exact W2|constructor]].
    + unfold loop. cbn [map concat app]. rewrite closers_comm. apply takes_str.
    + rewrite closers_comm. constructor. apply takes_str.
Qed.

Lemma reader_last t : wf_tree reader_name t -> paren_last t 0.
Proof.
  induction t as [x c|tg|es IH] using node_ind2; intros H; [constructor..|].
  inversion H as [| |? W1 W2 W3]; subst. destruct es as [|e es]; [constructor|].
  destruct (exists_last (l := e :: es) ltac:(discriminate)) as (l & [n t] & E). rewrite E in *. clear E e es.
  apply Forall_app in W1, W3, IH. destruct W1 as [W1 W1'], W3 as [W3 W3'], IH as [_ IH].
  inversion W1' as [|? ? [_ Hn] _]; subst. inversion W3'; subst. inversion IH; subst. cbn [fst snd] in *.
  apply pl_other; [|exact Hn|auto]. apply Forall_forall. intros e Hin. rewrite Forall_forall in W1, W3.
  split; [apply (W1 e Hin)|apply (W3 e Hin)].
Qed.
Lemma wf_mono (X Y : bytes -> Prop) t : wf_tree X t -> (forall n, X n -> Y n) -> wf_tree Y t.
Proof.
  intros H HX. induction t as [e c|tg|es IH] using node_ind2; inversion H as [| |? W1 W2 W3]; subst; constructor; auto.
  - eapply Forall_impl; [|exact W1]. intros a [A B]. auto.
  - clear -IH W3. induction IH; [constructor|]. inversion W3; subst. constructor; auto.
Qed.
Lemma reader_listable t : wf_tree reader_name t -> listable t.
Proof. intros H. split; [apply (wf_mono _ _ _ H); intros; exact I|exists 0; apply reader_last; exact H]. Qed.
Lemma last_items t k s rest e : wf_tree any_name t -> paren_last t k -> flat s = (nar t ++ rest, e) ->
  exists r s1, NewReader s = (Ok r, s1) /\ at_items (items [] t) (closers k ++ rest) e r.
Proof.
  intros Hwf Hk Hs. unfold nar in Hs. rewrite <- app_assoc in Hs. destruct (new_reader_ok _ _ _ Hs) as (s1 & E & F).
  eexists _, _. split; [exact E|]. split; [reflexivity|]. split; [reflexivity|]. split; [apply (chained_items _ _ Hwf)|].
  cbn [rd_gor rd_content rd_src resume fst snd]. split; [|left; reflexivity]. eapply Acc_serves; [|exact F].
  apply Acc_root. apply (last_read t k Hk Hwf []). constructor.
Qed.

(** * And no others *)
Lemma lastp_dir es : lastp (Dir es) = lasts es.
Proof. induction es as [|e es IH]; [reflexivity|]. cbn [lastp lasts]. cbn [lastp] in IH. rewrite IH. reflexivity. Qed.
Lemma last_of t : wf_tree any_name t -> lastp t -> exists k, paren_last t k.
Proof.
  induction t as [x c|tg|es IH] using node_ind2; intros Hwf Hl; [eexists; constructor..|].
  rewrite lastp_dir in Hl. pose proof (wfn_dir _ Hwf) as We. clear Hwf.
  destruct es as [|e es]; [eexists; constructor|].
  destruct (exists_last (l := e :: es) ltac:(discriminate)) as (l & [n t] & E). rewrite E in *. clear E e es.
  assert (Q : Forall (fun e => reader_name (fst e) /\ wf_tree reader_name (snd e)) l /\ lastp t).
  { clear IH. induction l as [|[m u] l IHl]; cbn [app lasts snd] in Hl; [split; [constructor|apply Hl]|].
    destruct Hl as (L1 & L2 & L3). inversion We as [|? ? [E1 E2] We']; subst. destruct (IHl L3 We') as [Q1 Q2]. split; [|exact Q2].
    constructor; [|exact Q1]. cbn [fst snd] in *. destruct (ebad (m, u)) eqn:B.
    - specialize (L2 eq_refl). destruct l; discriminate.
    - unfold ebad in B. cbn [fst snd] in B. apply orb_false_iff in B. destruct B as [B1 B2]. split; [apply beq_neq; exact B1|].
      apply not_bad; assumption. }
  destruct Q as [Q1 Q2]. apply Forall_app in IH, We. destruct IH as [_ IH], We as [_ We].
  inversion IH as [|? ? IHt _]; subst. inversion We as [|? ? [_ Wt] _]; subst. cbn [fst snd] in *.
  destruct (IHt Wt Q2) as (k & Hk). destruct (beq n (bs ")")) eqn:B.
  - apply beq_eq in B. subst n. exists (S k). constructor; assumption.
  - apply beq_neq in B. exists k. constructor; assumption.
Qed.
Lemma items_dl t : wf_tree any_name t -> forall cs, comps_ok cs -> dl (items cs t) (nd (length cs) t).
Proof.
  induction t as [x c|tg|es IH] using node_ind2; intros Hwf cs Hcs; cbn [items nd];
    (constructor; [exists cs; cbn; auto|try constructor]).
  pose proof (wfn_dir _ Hwf) as We. clear Hwf. induction es as [|[n t] es IHes]; cbn [map concat fst snd]; [constructor|].
  inversion IH as [|? ? IHt IHr]; subst. inversion We as [|? ? [E1 E2] We']; subst. cbn [fst snd] in *.
  apply Forall2_app; [|apply IHes; assumption].
  replace (S (length cs)) with (length (cs ++ [n])) by (rewrite app_length; cbn; lia). apply IHt; [exact E2|].
  apply Forall_app. split; [exact Hcs|]. constructor; [exact E1|constructor].
Qed.
Lemma dl_headers a b ks : map fst a = map fst b -> dl a ks -> dl b ks.
Proof.
  intros E H. revert b E. induction H as [|x k a ks Hx _ IH]; intros [|y b] E; try discriminate; [constructor|].
  cbn [map] in E. injection E as E1 E2. constructor; [rewrite <- E1; exact Hx|]. apply IH. exact E2.
Qed.
Lemma listed_last t its final rest : wf_tree any_name t -> node_read (bs "/") its (ser t ++ final) rest ->
  map fst its = map fst (items [] t) -> exists k, paren_last t k.
Proof.
  intros Ht H E. apply Acc_root in H. apply last_of; [exact Ht|].
  apply (listed _ _ _ _ _ H final [] (Forall_nil _) I) with (t := t); auto.
  - exists []. repeat split. constructor.
  - cbn [kd length]. rewrite app_nil_r. eapply dl_headers; [symmetry; exact E|]. apply (items_dl t Ht []). constructor.
Qed.
