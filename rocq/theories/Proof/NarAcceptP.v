(** What the nar Reader accepts (C110). *)
From Verif Require Import Base.Bytes Base.BytesFacts Model.GoIO Model.GoStd Model.Wire Model.Nar
  Model.NarReader Spec.WireSpec Spec.WireHist Spec.NarSpec Spec.NarHist Spec.NarAccept
  Proof.WireFacts Proof.WireProps Proof.PathFacts Proof.NarUtilProps Proof.NarPath Proof.NarReaderFacts
  Proof.NarReaderAny Proof.NarSession Proof.NarTrunc Proof.NarCut.
Ltac Zify.zify_post_hook ::= idtac.

(** * Tokens *)
Lemma rbf_takes s max x s' : ReadBytesFull s max = (Ok x, s') ->
  takes x (src_data s) (src_data s') /\ (lenN x <= max)%N /\ fin s' = fin s.
Proof.
  intros H. destruct (ReadBytesFull_spec s max (src_data s) (fin s) eq_refl) as (s2 & _ & _ & Hr & Hfl).
  rewrite H in Hr. injection Hr as Hx <-. destruct (flat_data _ _ _ Hfl) as [Hd Hf]. clear H Hfl.
  unfold rbf_spec in *. destruct (N.ltb_spec (lenN (src_data s)) 8) as [H8|H8]; [discriminate|].
  set (d := src_data s) in *. set (n := le_val (ntake 8 d)) in *.
  destruct (N.ltb_spec max n) as [Hm|Hm]; [discriminate|].
  destruct (N.leb_spec (2 ^ 63) n) as [Hb|Hb]; [discriminate|].
  destruct (N.ltb_spec (lenN (ndrop 8 d)) n) as [Hn|Hn]; [discriminate|]. cbn [fst snd] in *. injection Hx as ->.
  assert (Hl : lenN (ntake n (ndrop 8 d)) = n) by (apply ntake_len; exact Hn).
  split; [|split; [lia|exact Hf]]. exists (ndrop n (ndrop 8 d)). split.
  - rewrite ntake_ndrop, Hl. subst n. rewrite le8_le_val.
    + symmetry. apply ntake_ndrop.
    + pose proof (ntake_len 8 d H8) as L. unfold lenN in L. lia.
  - rewrite Hd. rewrite <- ndrop_ndrop. rewrite <- Hl at 1. rewrite pad_N_nat. unfold ndrop at 1. rewrite Nat2N.id. reflexivity.
Qed.
Lemma takes_rbf x d d' e s max : flat s = (d, e) -> takes x d d' -> (lenN x <= max)%N -> (max < 2 ^ 63)%N ->
  exists s', ReadBytesFull s max = (Ok x, s') /\ flat s' = (d', e).
Proof.
  intros Hs (tail & -> & ->) H1 H2. destruct (ReadBytesFull_spec s max _ e Hs) as (s2 & _ & _ & Hr & Hfl).
  exists s2. rewrite Hr, Hfl. unfold rbf_spec.
  assert (L8 : lenN (le8 (lenN x)) = 8%N) by reflexivity.
  rewrite lenN_app, L8. destruct (N.ltb_spec (8 + lenN (x ++ tail)) 8) as [H|H]; [lia|].
  assert (T : ntake 8 (le8 (lenN x) ++ x ++ tail) = le8 (lenN x)) by (rewrite <- L8; apply ntake_exact).
  assert (D : ndrop 8 (le8 (lenN x) ++ x ++ tail) = x ++ tail) by (rewrite <- L8; apply ndrop_exact).
  rewrite T, D, le_val_le8 by lia.
  rewrite (proj2 (N.ltb_ge max (lenN x))) by lia. rewrite (proj2 (N.leb_gt (2 ^ 63) (lenN x))) by lia.
  rewrite lenN_app, (proj2 (N.ltb_ge (lenN x + lenN tail) (lenN x))) by lia. cbn [fst snd].
  rewrite ntake_exact, <- ndrop_ndrop, ndrop_exact, pad_N_nat. unfold ndrop. rewrite Nat2N.id. auto.
Qed.
Lemma tok_takes s max x s' : tok s max = (inl x, s') ->
  takes x (src_data s) (src_data s') /\ (lenN x <= max)%N /\ fin s' = fin s.
Proof.
  unfold tok, ReadString. destruct (ReadBytesFull s max) as [r0 s0] eqn:E. intros H.
  destruct r0; try discriminate. injection H as <- <-. apply rbf_takes. exact E.
Qed.
Lemma takes_tok x d d' e s max : flat s = (d, e) -> takes x d d' -> (lenN x <= max)%N -> (max < 2 ^ 63)%N ->
  exists s', tok s max = (inl x, s') /\ flat s' = (d', e).
Proof.
  intros Hs Ht H1 H2. destruct (takes_rbf x d d' e s max Hs Ht H1 H2) as (s' & Hr & Hf).
  exists s'. unfold tok, ReadString. rewrite Hr. auto.
Qed.
Lemma expect_takes s x s' : expectString s x = (None, s') ->
  takes x (src_data s) (src_data s') /\ fin s' = fin s.
Proof.
  unfold expectString, ReadString. destruct (ReadBytesFull s (lenN x)) as [r0 s0] eqn:E. intros H.
  destruct r0 as [y|[]|]; try discriminate. destruct (beq y x) eqn:B; [|discriminate]. apply beq_eq in B. subst y.
  injection H as <-. apply rbf_takes in E. tauto.
Qed.
Lemma takes_expect x d d' e s : flat s = (d, e) -> takes x d d' -> (lenN x < 2 ^ 63)%N ->
  exists s', expectString s x = (None, s') /\ flat s' = (d', e).
Proof.
  intros Hs Ht H1. destruct (takes_rbf x d d' e s (lenN x) Hs Ht ltac:(lia) H1) as (s' & Hr & Hf).
  exists s'. unfold expectString, ReadString. rewrite Hr, beq_refl. auto.
Qed.
Lemma takes_len x d d' : takes x d d' -> length d' + 8 <= length d.
Proof.
  intros (tail & -> & ->). rewrite !app_length, le8_length, skipn_length. lia.
Qed.
Lemma takes_all_app xs : forall ys d d', takes_all (xs ++ ys) d d' <-> exists d1, takes_all xs d d1 /\ takes_all ys d1 d'.
Proof.
  induction xs as [|x xs IH]; intros ys d d'; cbn [app takes_all].
  - split; [intros H; exists d; auto|]. intros (d1 & -> & H). exact H.
  - split.
    + intros (d1 & H1 & H2). apply IH in H2. destruct H2 as (d2 & H2 & H3). exists d2. split; [exists d1; auto|exact H3].
    + intros (d2 & (d1 & H1 & H2) & H3). exists d1. split; [exact H1|]. apply IH. exists d2. auto.
Qed.

(** * The parser as rules, with an explicit stack *)
Inductive Acc : pc -> list frame -> bytes -> list (header * bytes) -> bytes -> Prop :=
| A_blank p st d d1 its rest : takes_all (toks ["("; "type"; ")"]%string) d d1 ->
    Acc CRet st d1 its rest -> Acc (CNode p) st d its rest
| A_sym p st t d d1 d2 its rest : (lenN t <= 4095)%N ->
    takes_all (toks ["("; "type"; "symlink"; "target"]%string ++ [t]) d d1 -> takes (bs ")") d1 d2 ->
    Acc CRet st d2 its rest -> Acc (CNode p) st d ((Header p (bs "symlink") t 0 false, []) :: its) rest
| A_reg p st x c d d1 d2 its rest : (lenN c < 2 ^ 63)%N ->
    takes_all (toks ["("; "type"; "regular"]%string ++ (if x : bool then toks ["executable"; ""]%string else []) ++
      toks ["contents"]%string) d (field c ++ d1) -> takes (bs ")") d1 d2 ->
    Acc CRet st d2 its rest ->
    Acc (CNode p) st d ((Header p (bs "regular") [] (Z.of_nat (length c)) x, c) :: its) rest
| A_dir p st d d1 its rest : takes_all (toks ["("; "type"; "directory"]%string) d d1 ->
    Acc (CLoop p) st d1 its rest ->
    Acc (CNode p) st d ((Header p (bs "directory") [] 0 false, []) :: its) rest
| A_close p st d d1 its rest : takes (bs ")") d d1 -> Acc CRet st d1 its rest -> Acc (CLoop p) st d its rest
| A_junk p st x d d1 its rest : x <> bs "entry" -> x <> bs ")" -> (lenN x <= 32)%N -> takes x d d1 ->
    Acc (CLoop p) st d1 its rest -> Acc (CLoop p) st d its rest
| A_entry p st n d d1 its rest : ~ In "/"%byte n -> ~ In x00 n -> (lenN n <= 255)%N ->
    takes_all (toks ["entry"; "("; "name"]%string ++ [n] ++ toks ["node"]%string) d d1 ->
    Acc (CNode (Join2 p n)) (Frame p n :: st) d1 its rest -> Acc (CLoop p) st d its rest
| A_end d : Acc CRet [] d [] d
| A_pop p n st d d1 its rest : takes (bs ")") d d1 -> n <> bs ")" -> Acc (CLoop p) st d1 its rest ->
    Acc CRet (Frame p n :: st) d its rest
| A_last p st d d1 its rest : takes (bs ")") d d1 -> Acc CRet st d1 its rest ->
    Acc CRet (Frame p (bs ")") :: st) d its rest.

(** ** The rules and the grammar *)
Scheme node_read_mind := Minimality for node_read Sort Prop
  with entries_read_mind := Minimality for entries_read Sort Prop.
Combined Scheme read_mutind from node_read_mind, entries_read_mind.
Lemma read_Acc :
  (forall p its d d', node_read p its d d' -> forall st its2 rest, Acc CRet st d' its2 rest ->
     Acc (CNode p) st d (its ++ its2) rest) /\
  (forall p its d d', entries_read p its d d' -> forall st its2 rest, Acc CRet st d' its2 rest ->
     Acc (CLoop p) st d (its ++ its2) rest).
Proof.
  apply read_mutind.
  - intros. eapply A_blank; eassumption.
  - intros p t d d' Ht H st its2 rest HA. rewrite app_assoc in H. apply takes_all_app in H. destruct H as (d1 & H1 & H2).
    cbn [toks map takes_all] in H2. destruct H2 as (d2 & H2 & ->). cbn [app]. eapply A_sym; eassumption.
  - intros. cbn [app]. eapply A_reg; eassumption.
  - intros. cbn [app]. eapply A_dir; eauto.
  - intros. cbn [app]. eapply A_close; eassumption.
  - intros. eapply A_junk; eauto.
  - intros p n its1 its2 d d1 d2 d3 d' N1 N2 N3 N4 T _ IH1 T2 _ IH2 st its3 rest HA.
    rewrite <- app_assoc. eapply A_entry; try eassumption. apply IH1. eapply A_pop; try eassumption. apply IH2. exact HA.
  - intros p its d d1 d2 d' T _ IH1 T2 st its3 rest HA.
    apply (A_entry p st (bs ")") d d1); [apply valid_name_iff; reflexivity..|discriminate|exact T|]. apply IH1.
    eapply A_last; eassumption.
Qed.
Fixpoint Unw (st : list frame) (d : bytes) (its : list (header * bytes)) (rest : bytes) : Prop :=
  match st with
  | [] => its = [] /\ rest = d
  | Frame p n :: st' => exists d1, takes (bs ")") d d1 /\
      ((n = bs ")" /\ Unw st' d1 its rest) \/
       (n <> bs ")" /\ exists its1 its2 d2, its = its1 ++ its2 /\ entries_read p its1 d1 d2 /\ Unw st' d2 its2 rest))
  end.
Lemma Acc_read c st d its rest : Acc c st d its rest ->
  match c with
  | CNode p => exists its1 its2 d1, its = its1 ++ its2 /\ node_read p its1 d d1 /\ Unw st d1 its2 rest
  | CLoop p => exists its1 its2 d1, its = its1 ++ its2 /\ entries_read p its1 d d1 /\ Unw st d1 its2 rest
  | CRet => Unw st d its rest
  end.
Proof.
  induction 1; try (destruct IHAcc as (i1 & i2 & e1 & -> & I2 & I3)).
  - exists [], its, d1. split; [reflexivity|]. split; [constructor; assumption|assumption].
  - eexists [_], its, d2. split; [reflexivity|]. split; [|assumption]. apply nr_sym; [assumption|].
    rewrite app_assoc. apply takes_all_app. exists d1. split; [assumption|]. exists d2. split; [assumption|reflexivity].
  - eexists [_], its, d2. split; [reflexivity|]. split; [|assumption]. eapply nr_reg; eassumption.
  - eexists (_ :: i1), i2, e1. split; [reflexivity|]. split; [|assumption]. eapply nr_dir; eassumption.
  - exists [], its, d1. split; [reflexivity|]. split; [constructor; assumption|assumption].
  - exists i1, i2, e1. split; [reflexivity|]. split; [|assumption]. eapply er_junk; eassumption.
  - cbn [Unw] in I3. destruct I3 as (e2 & T & [(-> & I3)|(N & j1 & j2 & e3 & -> & I4 & I5)]).
    + exists i1, i2, e2. split; [reflexivity|]. split; [|assumption]. eapply er_last; eassumption.
    + exists (i1 ++ j1), j2, e3. split; [apply app_assoc|]. split; [|assumption]. eapply er_entry; eassumption.
  - split; reflexivity.
  - cbn [Unw]. exists d1. split; [assumption|]. right. split; [assumption|]. exists i1, i2, e1. auto.
  - cbn [Unw]. exists d1. split; [assumption|]. left. auto.
Qed.
Lemma Acc_root p d its rest : Acc (CNode p) [] d its rest <-> node_read p its d rest.
Proof.
  split.
  - intros H. apply Acc_read in H. destruct H as (i1 & i2 & d1 & -> & H & -> & ->). rewrite app_nil_r. exact H.
  - intros H. rewrite <- (app_nil_r its). eapply (proj1 read_Acc); [exact H|constructor].
Qed.

(** * Every stream of the grammar is accepted *)
Ltac tstep Hs :=
  match goal with
  | T : takes ?x ?d ?d1 |- context [expectString ?s ?y] =>
      let s1 := fresh "s" in let R := fresh "R" in let F := fresh "F" in
      destruct (takes_expect x d d1 _ s Hs T ltac:(reflexivity)) as (s1 & R & F);
      change (expectString s y) with (expectString s x); rewrite R; clear R Hs T; rename F into Hs; clear s; rename s1 into s
  | T : takes ?x ?d ?d1 |- context [tok ?s ?m] =>
      let s1 := fresh "s" in let R := fresh "R" in let F := fresh "F" in
      destruct (takes_tok x d d1 _ s m Hs T ltac:(first [discriminate|assumption]) ltac:(reflexivity)) as (s1 & R & F);
      rewrite R; clear R Hs T; rename F into Hs; clear s; rename s1 into s
  end.
Ltac topen H :=
  match type of H with
  | takes_all (_ :: _) _ _ => let d := fresh "d" in let T := fresh "T" in destruct H as (d & T & H); topen H
  | takes_all [] _ _ => cbn [takes_all] in H
  | _ => idtac
  end.
Lemma close_takes st d d1 e s (K : pstep -> Prop) : flat s = (d, e) -> takes (bs ")") d d1 ->
  (forall s', flat s' = (d1, e) -> K (run_all CRet st s')) ->
  K (let '(t, s) := tok s tokenLenMax in
       match t with
       | inr er => PStop er s
       | inl t => match close_paren t st s with PGo c st s => run_all c st s | r => r end
       end).
Proof.
  intros Hs T HK. tstep Hs. unfold close_paren. rewrite beq_refl. apply HK. exact Hs.
Qed.
Lemma reg_serves st c d1 d2 e s h its K :
  flat s = (field c ++ d1, e) -> takes (bs ")") d1 d2 -> (lenN c < 2 ^ 63)%N ->
  (forall s', flat s' = (d2, e) -> serves its K (run_all CRet st s')) ->
  exists s1, ReadBytes s = (Ok (lenN c, BR (lenN c) (lenN c)), s1) /\
    serves ((h, c) :: its) K (PYield h WReg st (Some (BR (lenN c) (lenN c))) s1).
Proof.
  intros Hs T Hc HK. unfold field in Hs. rewrite <- !app_assoc in Hs.
  destruct (uint_read (lenN c) _ _ s Hs ltac:(lia)) as (s1 & R & F & _).
  exists s1. split.
  { unfold ReadBytes. rewrite R. cbn [rbind]. unfold NewBytesReader.
    rewrite (proj2 (N.ltb_lt (lenN c) (2 ^ 63)) Hc). reflexivity. }
  cbn [serves]. exists WReg, st, (Some (BR (lenN c) (lenN c))), s1. split; [reflexivity|].
  right. split; [reflexivity|]. exists (repeat x00 (pad_len (length c)) ++ d1), e.
  pose proof (takes_len _ _ _ T) as L.
  split; [exact F|]. split.
  { intros E. apply app_eq_nil in E. destruct E as [_ ->]. cbn [length] in L. lia. }
  intros k s2 Hk F2. cbn [resume].
  destruct (br_close_spec (lenN c) (lenN c - k) s2 _ _ F2) as (s3 & Hcl & _ & F3 & _).
  { rewrite lenN_app, ndrop_len. lia. }
  { right. rewrite lenN_app, ndrop_len, !lenN_app. unfold lenN in *. lia. }
  rewrite Hcl.
  assert (Hdrop : forall x, ndrop (lenN c - k) (ndrop k c ++ x) = x).
  { intros x. rewrite <- (ndrop_len k c). apply ndrop_exact. }
  rewrite Hdrop, pad_error_ok. rewrite <- ndrop_ndrop, Hdrop, pad_drop_ok in F3.
  split; [|reflexivity]. cbn [fst]. apply (close_takes st d1 d2 e s3 (serves its K) F3 T HK).
Qed.
Lemma Acc_serves c st d its rest : Acc c st d its rest -> forall s e, flat s = (d, e) ->
  serves its (returns [] rest e) (run_all c st s).
Proof.
  induction 1; intros s e Hs; rewrite run_all_step; cbn [pstep1].
  - unfold parse_head. unfold toks in H. cbn [map] in H. topen H. subst.
    tstep Hs. tstep Hs. tstep Hs. change (beq (bs ")") (bs "regular")) with false.
    change (beq (bs ")") (bs "symlink")) with false. change (beq (bs ")") (bs "directory")) with false.
    unfold close_paren. rewrite beq_refl. apply IHAcc. exact Hs.
  - unfold parse_head. unfold toks in H0. cbn [map app] in H0. topen H0. subst.
    tstep Hs. tstep Hs. tstep Hs. change (beq (bs "symlink") (bs "regular")) with false. rewrite beq_refl.
    tstep Hs. tstep Hs.
    cbn [serves]. exists WSym, st, None, s. split; [reflexivity|]. left.
    split; [reflexivity|]. split; [reflexivity|]. split; [|reflexivity]. cbn [resume fst].
    eapply (close_takes st _ _ e s); [exact Hs|eassumption|]. intros s' F. apply IHAcc. exact F.
  - unfold parse_head. unfold toks in H0. destruct x; cbn [map app] in H0; topen H0; subst.
    + tstep Hs. tstep Hs. tstep Hs. rewrite beq_refl. tstep Hs. rewrite beq_refl.
      destruct (takes_rbf _ _ _ _ s 0 Hs T3 ltac:(discriminate) ltac:(reflexivity)) as (s4 & R & F2). rewrite R. clear R T3.
      tstep F2. rewrite beq_refl. cbn [negb].
      destruct (reg_serves st c _ _ e s4 (Header p (bs "regular") [] (Z.of_nat (length c)) true) its _ F2 H1 H (fun s' => IHAcc s' e))
        as (s6 & R & Hsv).
      rewrite R. rewrite (proj2 (N.ltb_ge _ _)) by lia. unfold lenN at 1. rewrite nat_N_Z. exact Hsv.
    + tstep Hs. tstep Hs. tstep Hs. rewrite beq_refl. tstep Hs.
      change (beq (bs "contents") (bs "executable")) with false. cbv iota. rewrite beq_refl. cbn [negb].
      destruct (reg_serves st c _ _ e s (Header p (bs "regular") [] (Z.of_nat (length c)) false) its _ Hs H1 H (fun s' => IHAcc s' e))
        as (s6 & R & Hsv).
      rewrite R. rewrite (proj2 (N.ltb_ge _ _)) by lia. unfold lenN at 1. rewrite nat_N_Z. exact Hsv.
  - unfold parse_head. unfold toks in H. cbn [map app] in H. topen H. subst.
    tstep Hs. tstep Hs. tstep Hs. change (beq (bs "directory") (bs "regular")) with false.
    change (beq (bs "directory") (bs "symlink")) with false. rewrite beq_refl.
    cbn [serves]. exists (WDir p), st, None, s. split; [reflexivity|]. left.
    split; [reflexivity|]. split; [reflexivity|]. split; [|reflexivity]. cbn [resume fst]. apply IHAcc. exact Hs.
  - tstep Hs. change (beq (bs ")") (bs "entry")) with false. rewrite beq_refl. apply IHAcc. exact Hs.
  - destruct (takes_tok x d d1 e s tokenLenMax Hs H2 H1 ltac:(reflexivity)) as (s1 & R & F). rewrite R.
    rewrite (proj2 (beq_neq x (bs "entry")) H), (proj2 (beq_neq x (bs ")")) H0). apply IHAcc. exact F.
  - unfold toks in H2. cbn [map app] in H2. topen H2. subst.
    tstep Hs. rewrite beq_refl. tstep Hs. tstep Hs. tstep Hs.
    rewrite (proj2 (valid_name_iff n) (conj H H0)). cbn [negb]. tstep Hs. apply IHAcc. exact Hs.
  - cbn [serves]. exists s. split; [exact Hs|]. rewrite run_ret_nil. reflexivity.
  - tstep Hs. rewrite (proj2 (beq_neq n (bs ")")) H0). apply IHAcc. exact Hs.
  - tstep Hs. rewrite beq_refl. apply IHAcc. exact Hs.
Qed.

(** * Nothing else is accepted *)
(** A parser that waits in [w]: [x] is the part of the file still to come. *)
Definition accW (w : wait) (st : list frame) (ct : option bytes_reader) (d x : bytes)
    (its : list (header * bytes)) (rest : bytes) : Prop :=
  match w with
  | WDir p => x = [] /\ ct = None /\ Acc (CLoop p) st d its rest
  | WSym => x = [] /\ ct = None /\ exists d1, takes (bs ")") d d1 /\ Acc CRet st d1 its rest
  | WReg => exists len d1 d2, ct = Some (BR len (lenN x)) /\
      d = x ++ repeat x00 (N.to_nat (pad_N len)) ++ d1 /\ takes (bs ")") d1 d2 /\ Acc CRet st d2 its rest
  end.
Definition gone (s s' : src) : Prop := fin s = EEOF /\ src_data s' = [].
(** What a parser that has been started must satisfy; [P its rest] is what is
    known about its input. *)
Definition sound (P : list (header * bytes) -> bytes -> Prop) (s : src) (p : pstep) : Prop :=
  match p with
  | PGo _ _ _ => False
  | PStop e s' => fwd s' s /\ (e = EEOF -> P [] (src_data s') \/ gone s s')
  | PYield h w st ct s' => fwd s' s /\
      match w with WReg => exists n, ct = Some (BR n n) | _ => ct = None end /\
      forall x its rest, accW w st ct (src_data s') x its rest ->
        P ((h, x) :: its) rest
  end.
Lemma sound_fwd (P P' : list (header * bytes) -> bytes -> Prop) s s' p : fwd s' s -> (forall its rest, P' its rest -> P its rest) -> sound P' s' p -> sound P s p.
Proof.
  intros F HP. destruct p as [c st s2|h w st ct s2|e s2]; cbn [sound]; [auto| |].
  - intros (H1 & H2 & H3). split; [eauto using fwd_trans|]. split; [exact H2|]. intros. apply HP. eapply H3; eassumption.
  - intros (H1 & H2). split; [eauto using fwd_trans|]. intros E. destruct (H2 E) as [H|[H H']]; [left; auto|right].
    split; [|exact H']. destruct F as (F & _). congruence.
Qed.
(** A stop on an error other than io.EOF, or at the end of the stream. *)
Lemma sound_err (P : list (header * bytes) -> bytes -> Prop) s e s' : fwd s' s -> (e = EEOF -> fin s = EEOF /\ src_data s' = []) -> sound P s (PStop e s').
Proof. intros F H. split; [exact F|]. intros E. right. apply H. exact E. Qed.
Definition step_sound (P : list (header * bytes) -> bytes -> Prop) (s : src) (p : pstep) : Prop :=
  match p with
  | PGo c st s' => fwd s' s /\ forall its rest, Acc c st (src_data s') its rest -> P its rest
  | p => sound P s p
  end.
Lemma sound_step (P : list (header * bytes) -> bytes -> Prop) s p : sound P s p -> step_sound P s p.
Proof. destruct p; cbn [sound step_sound]; intros H; [destruct H|exact H..]. Qed.
Lemma fin_fwd s' s : fwd s' s -> fin s' = fin s.
Proof. intros (H & _). exact H. Qed.
Ltac sstep :=
  match goal with
  | |- context [expectString ?s ?x] =>
      let E := fresh "E" in let e := fresh "e" in let s1 := fresh "s" in
      let F := fresh "F" in let N := fresh "N" in let T := fresh "T" in
      destruct (expectString s x) as [e s1] eqn:E; destruct (expect_any _ _ _ _ E) as (F & _ & N);
      destruct e;
      [apply sound_err; [eauto 8 using fwd_trans|intros Z; exfalso; apply N; congruence]
      |apply expect_takes in E; destruct E as [T _]; clear N]
  | |- context [tok ?s ?m] =>
      let E := fresh "E" in let e := fresh "t" in let s1 := fresh "s" in
      let F := fresh "F" in let N := fresh "N" in let T := fresh "T" in let L := fresh "L" in
      destruct (tok s m) as [[e|e] s1] eqn:E; destruct (tok_any _ _ _ _ E) as (F & _ & N);
      [apply tok_takes in E; destruct E as (T & L & _); clear N
      |apply sound_err; [eauto 8 using fwd_trans|intros Z;
         destruct (N (f_equal inr Z)) as [Z1 Z2]; split; [erewrite <- fin_fwd; [exact Z1|eauto 8 using fwd_trans, fwd_refl]|exact Z2]]]
  end.
Ltac beqs :=
  match goal with
  | |- context [beq ?x ?y] => let B := fresh "B" in destruct (beq x y) eqn:B;
      [apply beq_eq in B; try subst x|apply beq_neq in B]
  end.
Lemma contents_sound (P : list (header * bytes) -> bytes -> Prop) p x st s s0 : fwd s0 s ->
  (forall c d1, (lenN c < 2 ^ 63)%N -> src_data s0 = field c ++ d1 -> forall d2 its rest, takes (bs ")") d1 d2 ->
     Acc CRet st d2 its rest -> P ((Header p (bs "regular") [] (Z.of_nat (length c)) x, c) :: its) rest) ->
  sound P s (let '(r, s) := ReadBytes s0 in
             match r with
             | Err er => PStop er s
             | Panic w => PStop (EMsg w) s
             | Ok (n, br) =>
                 if (2 ^ 63 - 1 <? n)%N then PStop (EMsg "content length too large") s
                 else PYield (Header p TypeRegular [] (Z.of_N n) x) WReg st (Some br) s
             end).
Proof.
  intros F0 HP. destruct (ReadBytes s0) as [r s6] eqn:E6. apply ReadBytes_any in E6. destruct E6 as (F7 & L7 & N7).
  destruct r as [[n br]|er|w].
  - specialize (L7 _ _ eq_refl). destruct L7 as (L7 & -> & Hn & Hd). unfold dlen in L7.
    destruct (2 ^ 63 - 1 <? n)%N eqn:Hm.
    { apply sound_err; [eauto using fwd_trans|discriminate]. }
    apply N.ltb_ge in Hm. cbn [sound]. split; [eauto using fwd_trans|].
    unfold NewBytesReader. rewrite (proj2 (N.ltb_lt n (2 ^ 63))) by lia. split; [eauto|].
    intros c its rest (len & d1 & d2 & Hct & Hdata & T & HA). injection Hct as <- Hlen.
    rewrite Hlen. unfold lenN at 1. rewrite nat_N_Z. apply (HP c d1 ltac:(lia)) with d2; try assumption.
    rewrite <- (ntake_ndrop 8 (src_data s0)), <- Hd, Hdata. unfold field. rewrite <- Hlen, Hn.
    rewrite le8_le_val.
    2:{ pose proof (ntake_len 8 (src_data s0)) as LL. unfold lenN in LL. rewrite Hd in L7. lia. }
    rewrite <- !app_assoc. f_equal. f_equal. f_equal. f_equal. rewrite <- Hn, Hlen, pad_N_nat. apply Nat2N.id.
  - apply sound_err; [eauto using fwd_trans|]. intros ->. destruct (N7 eq_refl) as [N1 N2]. split; [|exact N2].
    erewrite <- fin_fwd; eassumption.
  - apply sound_err; [eauto using fwd_trans|discriminate].
Qed.
Lemma tall_cons x xs d d1 d' : takes x d d1 -> takes_all xs d1 d' -> takes_all (x :: xs) d d'.
Proof. intros H1 H2. exists d1. auto. Qed.
Lemma pstep1_sound c st s : step_sound (Acc c st (src_data s)) s (pstep1 c st s).
Proof.
  destruct c as [p|p|]; cbn [pstep1].
  - unfold parse_head. sstep. sstep. sstep. beqs.
    { sstep. beqs.
      - destruct (ReadBytesFull s3 0) as [r s4] eqn:E4. destruct (rbf_any _ _ _ _ E4) as (F4 & _ & N4).
        destruct r as [y|er|w].
        + apply rbf_takes in E4. destruct E4 as (T4 & L4 & _).
          assert (y = []) as -> by (destruct y; [reflexivity|rewrite lenN_cons in L4; lia]).
          sstep. beqs; cbn [negb]; [|apply sound_err; [eauto 10 using fwd_trans|discriminate]].
          apply sound_step. apply contents_sound; [eauto 10 using fwd_trans|]. intros c d1 Hc Hd d2 its rest TT HA.
          eapply A_reg; try eassumption. unfold toks. cbn [map app]. rewrite Hd in *.
          repeat (eapply tall_cons; [eassumption|]). reflexivity.
        + apply sound_err; [eauto 10 using fwd_trans|]. destruct er; discriminate.
        + apply sound_err; [eauto 10 using fwd_trans|]. discriminate.
      - beqs; cbn [negb]; [|apply sound_err; [eauto 10 using fwd_trans|discriminate]].
        apply sound_step. apply contents_sound; [eauto 10 using fwd_trans|]. intros c d1 Hc Hd d2 its rest TT HA.
        eapply A_reg; try eassumption. unfold toks. cbn [map app]. rewrite Hd in *.
        repeat (eapply tall_cons; [eassumption|]). reflexivity. }
    beqs.
    { sstep. sstep. cbn [step_sound sound]. split; [eauto 10 using fwd_trans|]. split; [reflexivity|].
      intros x its rest (-> & _ & d1 & TT & HA). eapply A_sym; try eassumption. unfold toks. cbn [map app].
      repeat (eapply tall_cons; [eassumption|]). reflexivity. }
    beqs.
    { cbn [step_sound sound]. split; [eauto 10 using fwd_trans|]. split; [reflexivity|].
      intros x its rest (-> & _ & HA). eapply A_dir; try eassumption. unfold toks. cbn [map app].
      repeat (eapply tall_cons; [eassumption|]). reflexivity. }
    unfold close_paren. beqs; [|apply sound_err; [eauto 10 using fwd_trans|discriminate]].
    cbn [step_sound]. split; [eauto 10 using fwd_trans|]. intros its rest HA. eapply A_blank; try eassumption.
    unfold toks. cbn [map app]. repeat (eapply tall_cons; [eassumption|]). reflexivity.
  - sstep. beqs.
    + sstep. sstep. sstep. destruct (IsValidNodeName t) eqn:V; cbn [negb]; [|apply sound_err; [eauto 10 using fwd_trans|discriminate]].
      sstep. cbn [step_sound]. split; [eauto 10 using fwd_trans|]. intros its rest HA. apply valid_name_iff in V. destruct V.
      eapply A_entry; try eassumption. unfold toks. cbn [map app]. repeat (eapply tall_cons; [eassumption|]). reflexivity.
    + beqs; cbn [step_sound]; (split; [assumption|]); intros its rest HA; [eapply A_close|eapply A_junk]; eassumption.
  - destruct st as [|[p n] st].
    + split; [apply fwd_refl|]. intros _. left. constructor.
    + sstep. beqs; cbn [step_sound]; (split; [assumption|]); intros its rest HA; [eapply A_last|eapply A_pop]; eassumption.
Qed.
Lemma run_sound c st s : sound (Acc c st (src_data s)) s (run_all c st s).
Proof.
  remember (dlen s + length st) as m eqn:Hm. revert c st s Hm.
  induction m as [m IH] using lt_wf_ind. intros c st s Hm. rewrite run_all_step.
  pose proof (pstep1_sound c st s) as H.
  destruct (pstep1 c st s) as [c' st' s'|h w st' ct s'|e s'] eqn:E; [|exact H..].
  destruct H as (H1 & H2). apply pstep1_go in E. destruct E as [_ E].
  eapply sound_fwd; [exact H1|exact H2|]. eapply IH; [|reflexivity]. lia.
Qed.

(** ** Resuming the parser *)
Definition accG (g : gor) (ct : option bytes_reader) (d : bytes) (its : list (header * bytes)) (rest : bytes) : Prop :=
  match g with
  | GFirst => Acc (CNode (bs "/")) [] d its rest
  | GWait w st => exists x, accW w st ct d x its rest
  | _ => False
  end.
Definition gready (g : gor) (ct : option bytes_reader) : Prop :=
  match g with
  | GFirst => ct = None
  | GWait WReg _ => ct <> None
  | GWait _ _ => ct = None
  | _ => False
  end.
Definition idle (ct : option bytes_reader) : Prop := ct = None \/ exists len, ct = Some (BR len 0).
Lemma close_sound (P : list (header * bytes) -> bytes -> Prop) st s s1 : fwd s1 s ->
  (forall d2 its rest, takes (bs ")") (src_data s1) d2 -> Acc CRet st d2 its rest -> P its rest) ->
  sound P s
  (let '(t, s) := tok s1 tokenLenMax in
   match t with
   | inr er => PStop er s
   | inl t => match close_paren t st s with PGo c st s => run_all c st s | r => r end
   end).
Proof.
  intros F1 HP. sstep. unfold close_paren. beqs; [|apply sound_err; [eauto using fwd_trans|discriminate]].
  eapply sound_fwd; [|intros its rest HA; eapply HP; [exact T|exact HA]|apply run_sound]. eauto using fwd_trans.
Qed.
Lemma br_close_eof br s br' s' : br_close br s = (Some EEOF, (br', s')) -> fin s = EEOF.
Proof.
  unfold br_close. destruct (drain_spec (S (S (src_size s))) (br_rem br) s _ _ ltac:(lia) eq_refl)
    as (er & rem' & s1 & -> & _ & Hf & _ & Her & _).
  destruct er as [er|].
  - intros H. injection H as -> _ _. destruct Her as [H|(H & H1 & _)]; [discriminate|]. congruence.
  - destruct (readPadding_spec s1 (br_len br) _ _ Hf) as (s2 & _ & _ & -> & _). intros H.
    injection H as H _ _. unfold pad_error in H.
    destruct (pad_N (br_len br) <=? _)%N; [destruct (all_zero _); discriminate|]. injection H as H. apply short_eof in H. apply H.
Qed.
Lemma all_zero_repeat l : all_zero l = true -> l = repeat x00 (length l).
Proof.
  unfold all_zero. induction l as [|b l IH]; cbn [forallb length repeat]; [reflexivity|].
  intros H. apply andb_true_iff in H. destruct H as [H1 H2]. apply byte_eqb_eq in H1. subst b. f_equal. auto.
Qed.
Lemma resume_sound g ct s : gready g ct ->
  sound (accG g ct (src_data s)) s (fst (resume g ct s)) /\
  (forall s', fst (resume g ct s) = PStop EEOF s' -> gone s s' \/ idle (snd (resume g ct s))).
Proof.
  intros Hg. destruct g as [|w st| |]; cbn [gready] in Hg; try (exfalso; exact Hg).
  - subst ct. cbn [resume fst snd]. split; [apply run_sound|]. intros. right. left. reflexivity.
  - destruct w as [| |p].
    + destruct ct as [[len rem]|]; [|congruence]. clear Hg. cbn [resume].
      destruct (br_close (BR len rem) s) as [er [br' s1]] eqn:E. cbn [fst snd].
      destruct (N.ltb_spec rem (lenN (src_data s))) as [Hr|Hr].
      * destruct (br_close_spec len rem s (src_data s) (fin s) eq_refl ltac:(lia) (or_intror Hr)) as (s2 & E2 & Heg & Hf & _).
        rewrite E in E2. injection E2 as E2 -> ->. destruct (flat_data _ _ _ Hf) as [Hd He].
        assert (F : fwd s2 s) by (split; [exact He|split; [exact Heg|eauto]]).
        assert (Hnn : ndrop rem (src_data s) <> []).
        { intros Z. apply (f_equal lenN) in Z. rewrite ndrop_len in Z. cbn in Z. lia. }
        split; [|intros; right; right; eauto]. destruct er as [er|].
        { apply sound_err; [exact F|]. intros ->. exfalso. unfold pad_error in E2.
          destruct (pad_N len <=? _)%N; [destruct (all_zero _); discriminate|]. injection E2 as E2. symmetry in E2.
          apply short_eof in E2. apply Hnn. apply E2. }
        unfold pad_error in E2. destruct (N.leb_spec (pad_N len) (lenN (ndrop rem (src_data s)))) as [Hp|Hp]; [|discriminate].
        destruct (all_zero (ntake (pad_N len) (ndrop rem (src_data s)))) eqn:Z; [|discriminate].
        apply close_sound; [exact F|]. intros d2 its rest T HA. cbn [accG].
        exists (ntake rem (src_data s)). cbn [accW]. exists len, (src_data s2), d2.
        rewrite ntake_len by lia. split; [reflexivity|]. split; [|auto].
        rewrite Hd, <- ndrop_ndrop. apply all_zero_repeat in Z.
        pose proof (ntake_len _ _ Hp) as LZ. unfold lenN in LZ. rewrite <- (ntake_ndrop rem (src_data s)) at 1. f_equal.
        rewrite <- (ntake_ndrop (pad_N len) (ndrop rem (src_data s))) at 1. f_equal. rewrite Z at 1. f_equal. lia.
      * destruct (br_close_pos len rem s (src_data s) (fin s) eq_refl) as (er2 & br2 & s2 & E2 & Heg & _ & _ & Hf).
        rewrite E in E2. injection E2 as <- <- <-. specialize (Hf Hr). destruct (flat_data _ _ _ Hf) as [Hd He].
        pose proof (br_close_fwd _ _ _ _ _ E) as F.
        assert (Hgen : forall e s', match er with
            | Some er => PStop er s1
            | None => let '(t, s) := tok s1 tokenLenMax in
               match t with
               | inr er => PStop er s
               | inl t => match close_paren t st s with PGo c st s => run_all c st s | r => r end
               end end = PStop e s' -> e = EEOF -> gone s s').
        { intros e s' H ->. destruct er as [er|].
          - injection H as -> <-. split; [eapply br_close_eof; exact E|exact Hd].
          - destruct (tok s1 tokenLenMax) as [[t|t] s3] eqn:E3.
            + apply tok_takes in E3. destruct E3 as (T & _). apply takes_len in T. rewrite Hd in T. cbn in T. lia.
            + injection H as -> <-. destruct (tok_any _ _ _ _ E3) as (_ & _ & N). destruct (N eq_refl). split; congruence. }
        assert (Hst : exists e s', match er with
            | Some er => PStop er s1
            | None => let '(t, s) := tok s1 tokenLenMax in
               match t with
               | inr er => PStop er s
               | inl t => match close_paren t st s with PGo c st s => run_all c st s | r => r end
               end end = PStop e s' /\ fwd s' s).
        { destruct er as [er|]; [eauto|]. destruct (tok s1 tokenLenMax) as [[t|t] s3] eqn:E3.
          - apply tok_takes in E3. destruct E3 as (T & _). apply takes_len in T. rewrite Hd in T. cbn in T. lia.
          - destruct (tok_any _ _ _ _ E3) as (F3 & _). exists t, s3. split; [reflexivity|eauto using fwd_trans]. }
        destruct Hst as (e & s' & Hst & F'). rewrite Hst in *. split.
        { apply sound_err; [exact F'|]. intros He'. exact (Hgen e s' eq_refl He'). }
        intros s'' H. injection H as -> ->. left. exact (Hgen EEOF s'' eq_refl eq_refl).
    + subst ct. cbn [resume fst snd]. split; [|intros; right; left; reflexivity].
      apply close_sound; [apply fwd_refl|]. intros d2 its rest T HA. exists []. cbn [accW]. eauto.
    + subst ct. cbn [resume fst snd]. split; [|intros; right; left; reflexivity].
      eapply sound_fwd; [apply fwd_refl| |apply run_sound]. intros its rest HA. exists []. cbn [accW]. auto.
Qed.

(** ** Sessions *)
Lemma app_eq_app_len {A} (a b c d : list A) : a ++ b = c ++ d -> length a = length c -> a = c /\ b = d.
Proof.
  revert c. induction a as [|x a IH]; intros [|y c] H L; try discriminate L; [auto|].
  cbn [app] in H. injection H as -> H. apply IH in H; [|cbn in L; lia]. destruct H as [-> ->]. auto.
Qed.
Definition ready (r : rd) : Prop :=
  rd_err r = None /\ rd_closed r = false /\ gready (rd_gor r) (rd_content r).
Lemma rd_reads_fwd ns : forall r l r', rd_reads ns r = (l, r') -> fwd (rd_src r') (rd_src r).
Proof.
  induction ns as [|n ns IH]; intros r l r' E; cbn [rd_reads] in E; [injection E as <- <-; apply fwd_refl|].
  destruct (rd_Read n r) as [[b er1] r3] eqn:E3. destruct (rd_reads ns r3) as [l3 r4] eqn:E4.
  injection E as <- <-. apply IH in E4. eapply fwd_trans; [exact E4|]. unfold rd_Read in E3.
  destruct (rd_content r) as [br|]; [|injection E3 as <- <- <-; apply fwd_refl].
  destruct (br_read n br (rd_src r)) as [[b0 e0] [br' s']] eqn:E5. injection E3 as <- <- <-. eapply br_read_fwd. exact E5.
Qed.
Lemma session_stuck plans : forall r o r' e, rd_err r = Some e -> session plans r = (o, r') -> fwd (rd_src r') (rd_src r).
Proof.
  induction plans as [|ns plans IH]; intros r o r' e He H; cbn [session] in H.
  - injection H as <- <-. apply fwd_refl.
  - unfold Next in H. rewrite He in H. destruct (rd_reads ns r) as [l r2] eqn:E.
    destruct (session plans r2) as [o1 r3] eqn:ES. injection H as <- <-.
    eapply fwd_trans; [|eapply rd_reads_fwd; exact E]. eapply IH; [|exact ES]. eapply rd_reads_err; eassumption.
Qed.
Lemma gone_fwd s s1 s2 : gone s s1 -> fwd s2 s1 -> gone s s2.
Proof.
  intros [H1 H2] (_ & _ & k & H). split; [exact H1|]. rewrite H, H2. unfold ndrop. apply skipn_nil.
Qed.
Lemma session_sound plans : forall r o r', ready r -> session plans r = (o, r') -> In (Err EEOF) (map fst o) ->
  (exists its, accG (rd_gor r) (rd_content r) (src_data (rd_src r)) its (src_data (rd_src r')) /\
     chained (rd_prev r) its /\ session_of its plans o) \/ gone (rd_src r) (rd_src r').
Proof.
  induction plans as [|ns plans IH]; intros r o r' (R1 & R2 & R3) H Hin; cbn [session] in H.
  { injection H as <- <-. destruct Hin. }
  unfold Next in H. rewrite R1, R2 in H.
  destruct (resume_sound (rd_gor r) (rd_content r) (rd_src r) R3) as [HS HI].
  destruct (resume (rd_gor r) (rd_content r) (rd_src r)) as [ps ct0]. cbn [fst snd] in *.
  destruct ps as [c st s1|h w st ct s1|e s1]; cbn [sound] in HS; [destruct HS| |].
  - destruct HS as (F & Hct & HP). destruct (PathIsLexicographicallyOrdered (rd_prev r) (hd_path h)) eqn:Ho.
    2:{ destruct (rd_reads ns _) as [l r2] eqn:E. destruct (session plans r2) as [o1 r3] eqn:ES.
        injection H as <- <-. exfalso. cbn [map fst In] in Hin. destruct Hin as [Hin|Hin]; [discriminate|].
        assert (Er : rd_err r2 = Some (EMsg "received header in the wrong order")) by (eapply rd_reads_err; [|exact E]; reflexivity).
        destruct (session_err _ _ _ _ _ Er ES) as [_ Q]. apply Q in Hin. discriminate. }
    assert (HC : (exists n, ct = Some (BR n n) /\ w = WReg) \/ ct = None /\ gready (GWait w st) None).
    { destruct w; [left; destruct Hct as (n & ->); eauto|right; split; [exact Hct|reflexivity]..]. }
    destruct HC as [(n & -> & ->)|[-> G]].
    + destruct (N.ltb_spec n (lenN (src_data s1))) as [Hn|Hn].
      * set (c := ntake n (src_data s1)). set (tail := ndrop n (src_data s1)).
        assert (Hlc : lenN c = n) by (apply ntake_len; lia).
        assert (Hfl : flat s1 = (c ++ tail, fin s1)) by (unfold flat, c, tail; rewrite ntake_ndrop; reflexivity).
        assert (Ht : tail <> []).
        { intros Z. apply (f_equal lenN) in Z. unfold tail in Z. rewrite ndrop_len in Z. cbn in Z. lia. }
        destruct (rd_reads_some ns s1 (GWait WReg st) None (hd_path h) n false c tail (fin s1) Hfl Ht)
          as (l & k & s2 & E & Hl & Hk & Hf2). rewrite Hlc in E. rewrite E in H.
        destruct (session plans _) as [o1 r3] eqn:ES. injection H as <- <-.
        cbn [map fst In] in Hin. destruct Hin as [Hin|Hin]; [discriminate|].
        destruct (flat_data _ _ _ Hf2) as [Hd2 He2].
        apply IH in ES; [|repeat split; cbn; discriminate|exact Hin]. cbn [rd_gor rd_content rd_src rd_prev] in ES.
        destruct ES as [(its & (x & len & d1 & d2 & Hx & Hd & T & HA) & Hch & Hso)|[G1 G2]].
        -- left. injection Hx as <- Hx. rewrite Hd2 in Hd.
           assert (x = ndrop k c /\ tail = repeat x00 (N.to_nat (pad_N n)) ++ d1) as [-> Etail].
           { symmetry in Hd. apply app_eq_app_len in Hd; [destruct Hd; auto|].
             assert (LL : lenN x = lenN (ndrop k c)) by (rewrite ndrop_len; lia). unfold lenN in LL. lia. }
           exists ((h, c) :: its). split; [apply HP|split; [split; assumption|constructor; assumption]].
           exists n, d1, d2. rewrite Hlc. split; [reflexivity|]. split; [|auto].
           rewrite <- Etail. unfold flat in Hfl. congruence.
        -- right. split; [|exact G2]. apply fin_fwd in F. congruence.
      * destruct (rd_reads_cut ns s1 (GWait WReg st) None (hd_path h) n n false _ _ eq_refl)
          as (l & j & s2 & E & Hj & Hj2 & Hf2). rewrite E in H.
        destruct (session plans _) as [o1 r3] eqn:ES. injection H as <- <-.
        cbn [map fst In] in Hin. destruct Hin as [Hin|Hin]; [discriminate|].
        destruct (flat_data _ _ _ Hf2) as [Hd2 He2].
        apply IH in ES; [|repeat split; cbn; discriminate|exact Hin]. cbn [rd_gor rd_content rd_src rd_prev] in ES.
        destruct ES as [(its & (x & len & d1 & d2 & Hx & Hd & T & HA) & Hch & Hso)|[G1 G2]].
        -- exfalso. injection Hx as <- Hx. apply takes_len in T. rewrite Hd2 in Hd. apply (f_equal lenN) in Hd.
           rewrite ndrop_len, !lenN_app in Hd. unfold lenN in *. lia.
        -- right. split; [|exact G2]. apply fin_fwd in F. congruence.
    + destruct (rd_reads_none ns s1 (GWait w st) None (hd_path h) false) as (l & E & Hl). rewrite E in H.
      destruct (session plans _) as [o1 r3] eqn:ES. injection H as <- <-.
      cbn [map fst In] in Hin. destruct Hin as [Hin|Hin]; [discriminate|].
      apply IH in ES; [|repeat split; exact G|exact Hin]. cbn [rd_gor rd_content rd_src rd_prev] in ES.
      destruct ES as [(its & (x & HA) & Hch & Hso)|[G1 G2]].
      * left. assert (x = []) as -> by (destruct w; [exfalso; apply G; reflexivity|apply HA..]).
        exists ((h, []) :: its). split; [apply HP; exact HA|]. split; [split; assumption|]. constructor; assumption.
      * right. split; [|exact G2]. apply fin_fwd in F. congruence.
  - destruct HS as [F HE]. set (r1 := RD s1 GExit (Some e) (rd_prev r) ct0 false) in *.
    destruct (rd_reads ns r1) as [l r2] eqn:E. destruct (session plans r2) as [o1 r3] eqn:ES.
    injection H as <- <-. assert (Er2 : rd_err r2 = Some e) by (eapply rd_reads_err; [|exact E]; reflexivity).
    assert (e = EEOF) as ->.
    { cbn [map fst In] in Hin. destruct Hin as [Hin|Hin]; [congruence|].
      destruct (session_err _ _ _ _ _ Er2 ES) as [_ Q]. apply Q in Hin. congruence. }
    specialize (HE eq_refl). specialize (HI s1 eq_refl).
    assert (Hgone : gone (rd_src r) s1 -> gone (rd_src r) (rd_src r3)).
    { intros G. eapply gone_fwd; [exact G|]. eapply fwd_trans; [eapply session_stuck; eassumption|].
      apply (rd_reads_fwd _ _ _ _ E). }
    destruct HE as [HE|HE]; [|right; auto]. destruct HI as [HI|HI]; [right; auto|]. left. exists [].
    destruct (rd_reads_idle ns r1 HI) as (l' & E' & Hl). rewrite E in E'. injection E' as -> ->.
    destruct (session_end plans (src_data s1) (fin s1) r1) as (o' & E' & Ho).
    { split; [reflexivity|]. split; [reflexivity|]. exact HI. }
    rewrite ES in E'. injection E' as -> ->. split; [exact HE|]. split; [exact I|]. constructor; assumption.
Qed.
