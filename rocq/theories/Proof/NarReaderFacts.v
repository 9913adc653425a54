(** The NAR reader on canonical input (C28), and that the parser's fuel
    suffices. *)
From Verif Require Import Base.Bytes Base.BytesFacts Model.GoIO Model.GoStd Model.Wire Model.Nar
  Model.NarReader Spec.WireSpec Spec.WireHist Spec.NarSpec Spec.NarHist
  Proof.WireFacts Proof.WireProps Proof.PathFacts Proof.NarUtilProps Proof.NarPath.
Ltac Zify.zify_post_hook ::= idtac.

Definition dlen (s : src) : nat := length (src_data s).
(** The stream only moves forward. *)
Definition fwd (s' s : src) : Prop :=
  fin s' = fin s /\ eager s' = eager s /\ exists k, src_data s' = ndrop k (src_data s).
Lemma fwd_refl s : fwd s s.
Proof. repeat split. exists 0%N. reflexivity. Qed.
Lemma ndrop_ndrop a b (d : bytes) : ndrop a (ndrop b d) = ndrop (b + a) d.
Proof. unfold ndrop. rewrite skipn_skipn. f_equal. lia. Qed.
Lemma fwd_trans a b c : fwd a b -> fwd b c -> fwd a c.
Proof.
  intros (H1 & H2 & k & H3) (H4 & H5 & m & H6). split; [congruence|]. split; [congruence|].
  exists (m + k)%N. rewrite H3, H6. apply ndrop_ndrop.
Qed.
Lemma fwd_len a b : fwd a b -> dlen a <= dlen b.
Proof. intros (_ & _ & k & H). unfold dlen. rewrite H. unfold ndrop. rewrite skipn_length. lia. Qed.

(** ReadBytesFull on any stream. *)
Lemma short_error_eof d e : short_error d e = EEOF -> e = EEOF.
Proof. unfold short_error. destruct e; try congruence. Qed.
Lemma rbf_any s max r s' : ReadBytesFull s max = (r, s') ->
  fwd s' s /\ (forall x, r = Ok x -> dlen s' + 8 <= dlen s /\ dlen s' + length x <= dlen s) /\
  (r = Err EEOF -> fin s = EEOF /\ src_data s' = []).
Proof.
  intros H. destruct (ReadBytesFull_spec s max (src_data s) (fin s) eq_refl) as (s2 & Heg & Hsz & Hr & Hfl).
  rewrite H in Hr. injection Hr as -> ->.
  assert (Hf : src_data s2 = snd (rbf_spec max (src_data s) (fin s)) /\ fin s2 = fin s)
    by (apply flat_data; exact Hfl).
  destruct Hf as [Hd Hf]. unfold dlen. rewrite Hd. clear Hfl H.
  unfold rbf_spec in *.
  destruct (N.ltb_spec (lenN (src_data s)) 8) as [H8|H8]; cbn [fst snd] in *.
  { split; [|split].
    - split; [exact Hf|]. split; [exact Heg|]. exists (lenN (src_data s)). rewrite Hd.
      rewrite ndrop_all by lia. reflexivity.
    - intros x Hx. discriminate.
    - intros Hx. injection Hx as Hx. split; [eapply short_error_eof; exact Hx|reflexivity]. }
  set (n := le_val (ntake 8 (src_data s))) in *.
  assert (Hl8 : length (ndrop 8 (src_data s)) + 8 = length (src_data s)).
  { unfold ndrop. rewrite skipn_length. unfold lenN in H8. lia. }
  destruct (max <? n)%N; cbn [fst snd] in *.
  { split; [|split; [discriminate|discriminate]]. split; [exact Hf|]. split; [exact Heg|]. eauto. }
  destruct (2 ^ 63 <=? n)%N; cbn [fst snd] in *.
  { split; [|split; [discriminate|discriminate]]. split; [exact Hf|]. split; [exact Heg|]. eauto. }
  destruct (N.ltb_spec (lenN (ndrop 8 (src_data s))) n) as [Hn|Hn]; cbn [fst snd] in *.
  { split; [|split].
    - split; [exact Hf|]. split; [exact Heg|]. exists (lenN (src_data s)). rewrite Hd.
      rewrite ndrop_all by lia. reflexivity.
    - intros x Hx. discriminate.
    - intros Hx. injection Hx as Hx. split; [eapply short_error_eof; exact Hx|reflexivity]. }
  rewrite ndrop_ndrop in *. split; [|split].
  - split; [exact Hf|]. split; [exact Heg|]. eauto.
  - intros x Hx. injection Hx as <-. unfold ntake, ndrop in *.
    rewrite !skipn_length in *. rewrite firstn_length, skipn_length. unfold lenN in *. lia.
  - discriminate.
Qed.
Lemma tok_any s max r s' : tok s max = (r, s') ->
  fwd s' s /\ (forall x, r = inl x -> dlen s' + 8 <= dlen s) /\
  (r = inr EEOF -> fin s = EEOF /\ src_data s' = []).
Proof.
  unfold tok, ReadString. destruct (ReadBytesFull s max) as [r0 s0] eqn:E. apply rbf_any in E.
  intros H. injection H as <- <-. destruct E as (H1 & H2 & H3). split; [exact H1|].
  destruct r0 as [x|e|w]; split; try discriminate.
  - intros y _. apply (H2 x). reflexivity.
  - intros Hx. apply H3. congruence.
Qed.
Lemma expect_any s x e s' : expectString s x = (e, s') ->
  fwd s' s /\ (e = None -> dlen s' + 8 <= dlen s) /\ (e = Some EEOF -> False).
Proof.
  unfold expectString, ReadString. destruct (ReadBytesFull s (lenN x)) as [r0 s0] eqn:E. apply rbf_any in E.
  intros H. injection H as <- <-. destruct E as (H1 & H2 & H3). split; [exact H1|].
  destruct r0 as [y|er|w].
  - split; [intros _; apply (H2 y); reflexivity|]. destruct (beq y x); discriminate.
  - destruct er; split; try discriminate; intros Hx; discriminate.
  - split; discriminate.
Qed.

(** One parser step consumes input. *)
Lemma close_paren_go t st s c st' s' : close_paren t st s = PGo c st' s' -> c = CRet /\ st' = st /\ s' = s.
Proof. unfold close_paren. destruct (beq t (bs ")")); [|discriminate]. intros H. inversion H. auto. Qed.
Ltac tokstep H :=
  match type of H with
  | context [expectString ?s ?x] =>
      let E := fresh "E" in let e := fresh "e" in let s1 := fresh "s" in
      destruct (expectString s x) as [e s1] eqn:E; apply expect_any in E; destruct e; [discriminate H|]
  | context [tok ?s ?m] =>
      let E := fresh "E" in let e := fresh "t" in let s1 := fresh "s" in
      destruct (tok s m) as [[e|e] s1] eqn:E; apply tok_any in E; [|discriminate H]
  end.
Lemma ReadBytes_any s r s' : ReadBytes s = (r, s') ->
  fwd s' s /\ (forall n br, r = Ok (n, br) -> dlen s' + 8 <= dlen s /\ br = NewBytesReader n /\
                n = le_val (ntake 8 (src_data s)) /\ src_data s' = ndrop 8 (src_data s)) /\
  (r = Err EEOF -> fin s = EEOF /\ src_data s' = []).
Proof.
  unfold ReadBytes. destruct (ReadUint64_spec s _ _ eq_refl) as (s1 & Heg & Hsz & H).
  destruct (N.leb_spec 8 (lenN (src_data s))) as [H8|H8]; destruct H as [-> Hfl]; intros H0.
  - injection H0 as <- <-. cbn [rbind]. destruct (flat_data _ _ _ Hfl) as [Hd Hf]. split; [|split].
    + split; [exact Hf|]. split; [exact Heg|]. eauto.
    + intros n br Hx. injection Hx as <- <-. unfold dlen. rewrite Hd. unfold ndrop. rewrite skipn_length.
      unfold lenN in H8. repeat split; lia.
    + discriminate.
  - injection H0 as <- <-. cbn [rbind]. destruct (flat_data _ _ _ Hfl) as [Hd Hf]. split; [|split].
    + split; [exact Hf|]. split; [exact Heg|]. exists (lenN (src_data s)). rewrite Hd, ndrop_all by lia. reflexivity.
    + discriminate.
    + intros Hx. injection Hx as Hx. split; [eapply short_error_eof; exact Hx|exact Hd].
Qed.
Lemma parse_head_go p st s c st' s' : parse_head p st s = PGo c st' s' ->
  c = CRet /\ st' = st /\ fwd s' s /\ dlen s' + 8 <= dlen s.
Proof.
  unfold parse_head. intros H. tokstep H. tokstep H. tokstep H.
  destruct E as (F1 & L1 & _), E0 as (F2 & L2 & _), E1 as (F3 & L3 & _).
  specialize (L1 eq_refl). specialize (L2 eq_refl). specialize (L3 _ eq_refl).
  destruct (beq t (bs "regular")).
  { tokstep H.
    destruct (beq t0 (bs "executable")).
    - destruct (ReadBytesFull s3 0) as [r s4]. destruct r as [x|er|w]; [|discriminate|discriminate].
      destruct (tok s4 tokenLenMax) as [[t1|t1] s5]; [|discriminate].
      destruct (negb (beq t1 (bs "contents"))); [discriminate|].
      destruct (ReadBytes s5) as [[[n br]|er|w] s6]; try discriminate.
      destruct (2 ^ 63 - 1 <? n)%N; discriminate.
    - destruct (negb (beq t0 (bs "contents"))); [discriminate|].
      destruct (ReadBytes s3) as [[[n br]|er|w] s6]; try discriminate.
      destruct (2 ^ 63 - 1 <? n)%N; discriminate. }
  destruct (beq t (bs "symlink")); [tokstep H; tokstep H; discriminate|].
  destruct (beq t (bs "directory")); [discriminate|].
  apply close_paren_go in H. destruct H as (-> & -> & ->).
  split; [reflexivity|]. split; [reflexivity|]. split; [|lia].
  eapply fwd_trans; [exact F3|]. eapply fwd_trans; [exact F2|]. exact F1.
Qed.
Lemma pstep1_go c st s c' st' s' : pstep1 c st s = PGo c' st' s' ->
  fwd s' s /\ dlen s' + length st' < dlen s + length st.
Proof.
  destruct c as [p|p|]; cbn [pstep1]; intros H.
  - apply parse_head_go in H. destruct H as (_ & -> & H & L). split; [exact H|lia].
  - tokstep H. destruct E as (F1 & L1 & _). specialize (L1 _ eq_refl).
    destruct (beq t (bs "entry")).
    + tokstep H. tokstep H. tokstep H. destruct (negb (IsValidNodeName t0)); [discriminate|]. tokstep H.
      injection H as <- <- <-.
      destruct E as (F2 & L2 & _), E0 as (F3 & L3 & _), E1 as (F4 & L4 & _), E2 as (F5 & L5 & _).
      specialize (L2 eq_refl). specialize (L3 eq_refl). specialize (L4 _ eq_refl). specialize (L5 eq_refl).
      split; [|cbn [length]; lia].
      eapply fwd_trans; [exact F5|]. eapply fwd_trans; [exact F4|]. eapply fwd_trans; [exact F3|].
      eapply fwd_trans; [exact F2|]. exact F1.
    + destruct (beq t (bs ")")); injection H as <- <- <-; split; auto; lia.
  - destruct st as [|[p n] st]; [discriminate|]. tokstep H.
    destruct E as (F1 & L1 & _). specialize (L1 eq_refl). cbn [length].
    destruct (beq n (bs ")")); injection H as <- <- <-; split; auto; lia.
Qed.
Lemma run_fuel f1 : forall f2 c st s,
  dlen s + length st < f1 -> dlen s + length st < f2 -> run f1 c st s = run f2 c st s.
Proof.
  induction f1 as [|f1 IH]; intros f2 c st s H1 H2; [lia|]. destruct f2 as [|f2]; [lia|].
  cbn [run]. destruct (pstep1 c st s) as [c' st' s'|h w st' ct s'|e s'] eqn:E; try reflexivity.
  apply pstep1_go in E. destruct E as [_ E]. apply IH; lia.
Qed.
Lemma run_all_step c st s : run_all c st s =
  match pstep1 c st s with PGo c' st' s' => run_all c' st' s' | r => r end.
Proof.
  unfold run_all at 1.
  change (run (S (S (length (src_data s) + length st))) c st s) with
    (match pstep1 c st s with PGo c' st' s' => run (S (length (src_data s) + length st)) c' st' s' | r => r end).
  destruct (pstep1 c st s) as [c' st' s'|h w st' ct s'|e s'] eqn:E; try reflexivity.
  apply pstep1_go in E. destruct E as [_ E]. unfold run_all. apply run_fuel; unfold dlen in *; lia.
Qed.
(** The parser never gets stuck. *)
Lemma run_all_not_go c st s : match run_all c st s with PGo _ _ _ => False | _ => True end.
Proof.
  remember (dlen s + length st) as m eqn:Hm. revert c st s Hm.
  induction m as [m IH] using lt_wf_ind. intros c st s Hm. rewrite run_all_step.
  destruct (pstep1 c st s) as [c' st' s'|h w st' ct s'|e s'] eqn:E; try exact I.
  apply pstep1_go in E. destruct E as [_ E]. eapply IH; [|reflexivity]. lia.
Qed.

(** * Canonical input *)
Lemma tok_ok c rest e s max : flat s = (field c ++ rest, e) -> (lenN c <= max)%N -> (max < 2 ^ 63)%N ->
  exists s', tok s max = (inl c, s') /\ flat s' = (rest, e).
Proof.
  intros Hs H1 H2. destruct (field_read c rest e s max Hs ltac:(lia) H1) as (s' & Hr & Hf & _).
  exists s'. unfold tok, ReadString. rewrite Hr. auto.
Qed.
Lemma expect_ok c rest e s : flat s = (field c ++ rest, e) -> (lenN c < 2 ^ 63)%N ->
  exists s', expectString s c = (None, s') /\ flat s' = (rest, e).
Proof.
  intros Hs H1. destruct (field_read c rest e s (lenN c) Hs H1 ltac:(lia)) as (s' & Hr & Hf & _).
  exists s'. unfold expectString, ReadString. rewrite Hr, beq_refl. auto.
Qed.

(** What the parser must deliver: [serves its K p]. *)
Fixpoint serves (its : list (header * bytes)) (K : pstep -> Prop) (p : pstep) : Prop :=
  match its with
  | [] => K p
  | (h, c) :: its' =>
      exists w st ct s, p = PYield h w st ct s /\
      ((ct = None /\ c = [] /\ serves its' K (fst (resume (GWait w st) None s)) /\
        snd (resume (GWait w st) None s) = None) \/
       (ct = Some (BR (lenN c) (lenN c)) /\ exists tail e, flat s = (c ++ tail, e) /\ tail <> [] /\
        forall k s2, (k <= lenN c)%N -> flat s2 = (ndrop k c ++ tail, e) ->
          serves its' K (fst (resume (GWait w st) (Some (BR (lenN c) (lenN c - k))) s2)) /\
          snd (resume (GWait w st) (Some (BR (lenN c) (lenN c - k))) s2) = Some (BR (lenN c) 0)))
  end.
Lemma serves_app its1 its2 K1 K2 p : serves its1 K1 p -> (forall p', K1 p' -> serves its2 K2 p') ->
  serves (its1 ++ its2) K2 p.
Proof.
  revert p. induction its1 as [|[h c] its1 IH]; intros p H HK; cbn [app serves] in *; [auto|].
  destruct H as (w & st & ct & s & -> & H). exists w, st, ct, s. split; [reflexivity|].
  destruct H as [(H1 & H2 & H3 & H4)|(H1 & tail & e & H2 & H3 & H4)].
  - left. auto 6.
  - right. split; [exact H1|]. exists tail, e. split; [exact H2|]. split; [exact H3|].
    intros k s2 Hk Hs2. destruct (H4 k s2 Hk Hs2). auto.
Qed.

(** Induction over trees. *)
Lemma node_ind2 (P : node -> Prop) :
  (forall x c, P (Reg x c)) -> (forall t, P (Sym t)) ->
  (forall es, Forall (fun e => P (snd e)) es -> P (Dir es)) -> forall t, P t.
Proof.
  intros H1 H2 H3. fix IH 1. intros [x c|t|es]; [apply H1|apply H2|]. apply H3.
  induction es as [|[n t] es IHes]; constructor; [apply IH|exact IHes].
Qed.

Ltac expect_step :=
  match goal with
  | Hs : flat ?s = (str ?x ++ _, _) |- context [expectString ?s ?y] =>
      let s1 := fresh "s" in let R := fresh "R" in let F := fresh "F" in
      destruct (expect_ok (bs x) _ _ s Hs ltac:(reflexivity)) as (s1 & R & F);
      change (expectString s y) with (expectString s (bs x)); rewrite R; clear R Hs; rename F into Hs; clear s; rename s1 into s
  end.
Ltac tok_step :=
  match goal with
  | Hs : flat ?s = (str ?x ++ _, _) |- context [tok ?s ?m] =>
      let s1 := fresh "s" in let R := fresh "R" in let F := fresh "F" in
      destruct (tok_ok (bs x) _ _ s m Hs ltac:(discriminate) ltac:(reflexivity)) as (s1 & R & F);
      rewrite R; clear R Hs; rename F into Hs; clear s; rename s1 into s
  end.

Definition returns (st : list frame) (rest : bytes) (e : error) (p : pstep) : Prop :=
  exists s', flat s' = (rest, e) /\ p = run_all CRet st s'.

Lemma close_ok st s rest e : flat s = (str ")" ++ rest, e) ->
  returns st rest e
    (let '(t, s) := tok s tokenLenMax in
       match t with
       | inr er => PStop er s
       | inl t => match close_paren t st s with PGo c st s => run_all c st s | r => r end
       end).
Proof.
  intros Hs. tok_step. unfold close_paren. rewrite beq_refl. exists s. auto.
Qed.
Lemma file_serves st c rest e s w h :
  flat s = (field c ++ str ")" ++ rest, e) -> (lenN c < 2 ^ 63)%N -> w = WReg ->
  exists s1, ReadBytes s = (Ok (lenN c, BR (lenN c) (lenN c)), s1) /\
    serves [(h, c)] (returns st rest e) (PYield h w st (Some (BR (lenN c) (lenN c))) s1).
Proof.
  intros Hs Hc ->. unfold field in Hs. rewrite <- !app_assoc in Hs.
  destruct (uint_read (lenN c) _ _ s Hs ltac:(lia)) as (s1 & R & F & _).
  exists s1. split.
  { unfold ReadBytes. rewrite R. cbn [rbind]. unfold NewBytesReader.
    rewrite (proj2 (N.ltb_lt (lenN c) (2 ^ 63)) Hc). reflexivity. }
  cbn [serves]. exists WReg, st, (Some (BR (lenN c) (lenN c))), s1. split; [reflexivity|].
  right. split; [reflexivity|]. exists (repeat x00 (pad_len (length c)) ++ str ")" ++ rest), e.
  split; [exact F|]. split.
  { intros E. apply app_eq_nil in E. destruct E as [_ E]. discriminate. }
  intros k s2 Hk F2. cbn [resume].
  destruct (br_close_spec (lenN c) (lenN c - k) s2 _ _ F2) as (s3 & Hcl & _ & F3 & _).
  { rewrite lenN_app, ndrop_len. lia. }
  { right. rewrite lenN_app, ndrop_len, !lenN_app.
    change (lenN (str ")")) with 16%N. lia. }
  rewrite Hcl.
  assert (Hdrop : forall x, ndrop (lenN c - k) (ndrop k c ++ x) = x).
  { intros x. rewrite <- (ndrop_len k c). apply ndrop_exact. }
  rewrite Hdrop, pad_error_ok. rewrite <- ndrop_ndrop, Hdrop, pad_drop_ok in F3.
  split; [|reflexivity]. cbn [fst]. apply close_ok. exact F3.
Qed.

Lemma node_serves t : wf_tree reader_name t -> forall cs st s rest e,
  comps_ok cs -> flat s = (ser t ++ rest, e) ->
  serves (items cs t) (returns st rest e) (run_all (CNode (path_of cs)) st s).
Proof.
  induction t as [x c|tg|es IH] using node_ind2; intros Hwf cs st s rest e Hcs Hs; rewrite run_all_step; cbn [pstep1].
  - (* regular *)
    inversion Hwf as [? ? Hc| |]; subst. cbn [items hdr_of content_of].
    unfold parse_head. cbn [ser] in Hs. rewrite <- !app_assoc in Hs.
    expect_step. expect_step. tok_step. rewrite beq_refl.
    destruct x.
    + rewrite <- !app_assoc in Hs. tok_step. rewrite beq_refl.
      destruct (field_read [] _ _ s 0 Hs ltac:(reflexivity) ltac:(discriminate)) as (s4 & R & F2 & _).
      rewrite R. clear R Hs. tok_step. rewrite beq_refl. cbn [negb].
      destruct (file_serves st c rest e s4 WReg
        (Header (path_of cs) (bs "regular") [] (Z.of_nat (length c)) true) F2 Hc eq_refl) as (s6 & R & Hsv).
      rewrite R. rewrite (proj2 (N.ltb_ge _ _)) by lia.
      unfold lenN at 1. rewrite nat_N_Z. exact Hsv.
    + cbn [app] in Hs. tok_step.
      change (beq (bs "contents") (bs "executable")) with false. cbv iota. rewrite beq_refl. cbn [negb].
      destruct (file_serves st c rest e s WReg
        (Header (path_of cs) (bs "regular") [] (Z.of_nat (length c)) false) Hs Hc eq_refl) as (s6 & R & Hsv).
      rewrite R. rewrite (proj2 (N.ltb_ge _ _)) by lia.
      unfold lenN at 1. rewrite nat_N_Z. exact Hsv.
  - (* symlink *)
    inversion Hwf as [|? Ht1 Ht2|]; subst. cbn [items hdr_of content_of].
    unfold parse_head. cbn [ser] in Hs. rewrite <- !app_assoc in Hs.
    expect_step. expect_step. tok_step.
    change (beq (bs "symlink") (bs "regular")) with false. rewrite beq_refl.
    expect_step. destruct (tok_ok tg _ _ s pathLenMax Hs ltac:(exact Ht2) ltac:(reflexivity)) as (s4 & R & F3).
    rewrite R. cbn [serves]. exists WSym, st, None, s4. split; [reflexivity|]. left.
    split; [reflexivity|]. split; [reflexivity|]. split; [|reflexivity]. cbn [resume fst]. apply close_ok. exact F3.
  - (* directory *)
    inversion Hwf as [| |? Hnames Hsort Hts]; subst. cbn [items hdr_of content_of].
    unfold parse_head. cbn [ser] in Hs. rewrite <- !app_assoc in Hs.
    expect_step. expect_step. tok_step.
    change (beq (bs "directory") (bs "regular")) with false.
    change (beq (bs "directory") (bs "symlink")) with false. rewrite beq_refl.
    cbn [serves]. exists (WDir (path_of cs)), st, None, s. split; [reflexivity|]. left.
    split; [reflexivity|]. split; [reflexivity|]. split; [|reflexivity]. cbn [resume fst].
    clear Hsort Hwf. revert s Hs.
    induction es as [|[n t] es IHes]; intros s Hs; rewrite run_all_step; cbn [pstep1].
    + cbn [map concat app serves] in *. tok_step.
      change (beq (bs ")") (bs "entry")) with false. rewrite beq_refl. exists s. auto.
    + inversion IH as [|? ? IHt IHrest]; subst. inversion Hnames as [|? ? [Hn Hr] Hnames']; subst.
      inversion Hts as [|? ? Ht Hts']; subst. cbn [fst snd map concat] in *.
      unfold entry_open in Hs. rewrite <- !app_assoc in Hs.
      tok_step. rewrite beq_refl. expect_step. expect_step.
      assert (Hlen : (lenN n <= nameLenMax)%N).
      { destruct Hn as (_ & _ & _ & _ & _ & Hl). unfold lenN, nameLenMax. lia. }
      destruct (tok_ok n _ _ s nameLenMax Hs Hlen ltac:(reflexivity)) as (s6 & R & F3).
      rewrite R. clear R Hs. rewrite (name_ok_valid n Hn). cbn [negb]. expect_step.
      rewrite Join_path_of by assumption.
      eapply serves_app.
      { apply IHt; [exact Ht|apply Forall_app; split; [exact Hcs|constructor; [exact Hn|constructor]]|].
        exact F3. }
      intros p' (s8 & F8 & ->). rewrite run_all_step. cbn [pstep1].
      expect_step. rewrite (proj2 (beq_neq n (bs ")")) Hr).
      apply IHes; auto.
Qed.
