(** Writing the headers of a tree in depth-first order succeeds. *)
From Verif Require Import Base.Bytes Base.BytesFacts Model.GoIO Model.GoStd Model.Wire Model.Nar
  Model.NarWriter Spec.WireSpec Spec.NarSpec Spec.NarWHist Spec.PipelineSpec
  Proof.WireFacts Proof.WireProps Proof.PathFacts Proof.NarUtilProps Proof.NarPath Proof.EntryPath
  Proof.NarReaderFacts Proof.NarWriterSound.
Ltac Zify.zify_post_hook ::= idtac.

(** * The items determine the tree *)
Definition not_below (cs : list bytes) (L : list (header * bytes)) : Prop :=
  match L with
  | [] => True
  | (h, _) :: _ => exists a, hd_path h = path_of a /\ ecomps a /\ forall r, r <> [] -> a <> cs ++ r
  end.
Lemma not_below_deeper cs n L : not_below cs L -> not_below (cs ++ [n]) L.
Proof.
  destruct L as [|[h c] L]; [auto|]. intros (a & H1 & H2 & H3). exists a. split; [exact H1|]. split; [exact H2|].
  intros r Hr E. apply (H3 (n :: r)); [discriminate|]. rewrite E, <- app_assoc. reflexivity.
Qed.
Definition eitems (cs : list bytes) (es : list (bytes * node)) : list (header * bytes) :=
  concat (map (fun e => items (cs ++ [fst e]) (snd e)) es).
Lemma items_head cs t : exists l, items cs t = (hdr_of cs t, content_of t) :: l.
Proof. destruct t; eexists; reflexivity. Qed.
Lemma eitems_not_below cs n es L : ecomps cs -> Forall (fun e => entry_name (fst e)) es -> not_below cs L ->
  not_below (cs ++ [n]) (eitems cs es ++ L).
Proof.
  intros Hcs Hes HL. destruct es as [|[m x] es]; [apply not_below_deeper; exact HL|].
  unfold eitems. cbn [map concat fst snd]. destruct (items_head (cs ++ [m]) x) as (l & ->).
  cbn [app not_below]. inversion Hes; subst. exists (cs ++ [m]). split; [apply hdr_of_path|].
  split; [apply Forall_app; split; [exact Hcs|constructor; auto]|].
  intros r Hr E. rewrite <- app_assoc in E. apply app_inv_head in E. destruct r; [congruence|discriminate].
Qed.
Lemma hdr_of_inj cs cs' t t' : hdr_of cs t = hdr_of cs' t' ->
  path_of cs = path_of cs' /\
  match t, t' with
  | Reg e c, Reg e' c' => e = e'
  | Sym a, Sym b => a = b
  | Dir _, Dir _ => True
  | _, _ => False
  end.
Proof.
  intros H. split; [apply (f_equal hd_path) in H; rewrite !hdr_of_path in H; exact H|].
  destruct t, t'; try exact I; try (apply (f_equal hd_type) in H; discriminate H).
  - apply (f_equal hd_exec) in H. exact H.
  - apply (f_equal hd_target) in H. exact H.
Qed.
Lemma items_inj t : forall t' cs L L', valid_tree t -> valid_tree t' -> ecomps cs ->
  not_below cs L -> not_below cs L' -> items cs t ++ L = items cs t' ++ L' -> t = t' /\ L = L'.
Proof.
  induction t as [e c|tg|es IH] using node_ind2; intros t' cs L L' Ht Ht' Hcs HL HL' E.
  all: assert (E1 : hdr_of cs _ = hdr_of cs t' /\ content_of _ = content_of t')
    by (destruct (items_head cs t') as (l & El); rewrite El in E; cbn [items app] in E;
        split; [exact (f_equal (fun l => match l with x :: _ => fst x | [] => hdr_of cs t' end) E)
               |exact (f_equal (fun l => match l with x :: _ => snd x | [] => content_of t' end) E)]).
  all: destruct E1 as [E1 E2]; apply hdr_of_inj in E1; destruct E1 as [_ E1]; destruct t' as [e' c'|tg'|es'];
    try contradiction; cbn [content_of] in E2; subst; cbn [items app] in E; apply (f_equal (@tl _)) in E; cbn [tl] in E.
  1, 2: auto.
  change (eitems cs es ++ L = eitems cs es' ++ L') in E.
  inversion Ht as [| |? V1 _ V3]; subst. inversion Ht' as [| |? V1' _ V3']; subst. clear Ht Ht' E1 E2.
  assert (G : es = es' /\ L = L'); [|destruct G; subst; auto].
  revert es' V1' V3' E. induction es as [|[n x] es IHes]; intros [|[n' x'] es'] V1' V3' E; unfold eitems in E; cbn [map concat fst snd] in E.
  - auto.
  - exfalso. cbn [app] in E. destruct (items_head (cs ++ [n']) x') as (l & El). rewrite El in E. cbn [app] in E.
    subst L. cbn [not_below] in HL. destruct HL as (a & H1 & H2 & H3). rewrite hdr_of_path in H1.
    inversion V1'; subst. apply e_path_of_inj in H1; [|apply Forall_app; split; [exact Hcs|constructor; auto]|exact H2].
    apply (H3 [n']); [discriminate|]. congruence.
  - exfalso. cbn [app] in E. destruct (items_head (cs ++ [n]) x) as (l & El). rewrite El in E. cbn [app] in E.
    subst L'. cbn [not_below] in HL'. destruct HL' as (a & H1 & H2 & H3). rewrite hdr_of_path in H1.
    inversion V1; subst. apply e_path_of_inj in H1; [|apply Forall_app; split; [exact Hcs|constructor; auto]|exact H2].
    apply (H3 [n]); [discriminate|]. congruence.
  - inversion V1; subst. inversion V1'; subst. inversion V3; subst. inversion V3'; subst. inversion IH as [|? ? IHx IHr]; subst. cbn [fst snd] in *.
    assert (C : ecomps (cs ++ [n])) by (apply Forall_app; split; [exact Hcs|constructor; auto]).
    assert (C' : ecomps (cs ++ [n'])) by (apply Forall_app; split; [exact Hcs|constructor; auto]).
    assert (Hn : n = n').
    { destruct (items_head (cs ++ [n]) x) as (l & El). destruct (items_head (cs ++ [n']) x') as (l' & El').
      rewrite El, El' in E. cbn [app] in E. injection E as E _ _. apply (f_equal hd_path) in E. rewrite !hdr_of_path in E.
      apply e_path_of_inj in E; [|assumption..]. apply app_inj_tail in E. apply E. }
    subst n'. rewrite <- !app_assoc in E. apply IHx in E; auto.
    + destruct E as [-> E]. destruct (IHes IHr H2 H6 es' H4 H8 E) as [-> ->]. auto.
    + apply eitems_not_below; assumption.
    + apply eitems_not_below; assumption.
Qed.

(** * Perfect sinks *)
Lemma wwrite_perfect p w : plan w = [] -> exists w', wwrite_ p w = (None, w') /\ plan w' = [].
Proof. intros H. unfold wwrite_, wwrite. rewrite H. eexists. split; reflexivity. Qed.
Lemma WriteString_perfect w x : plan w = [] -> exists w', WriteString w x = (None, w') /\ plan w' = [].
Proof.
  intros H. unfold WriteString, WriteUint64.
  destruct (wwrite_perfect (le64 (lenN x)) w H) as (w1 & -> & H1).
  destruct (wwrite_perfect x w1 H1) as (w2 & -> & H2).
  unfold writePadding. destruct (N.eqb _ 0); [eauto|]. apply wwrite_perfect. exact H2.
Qed.
Lemma wstrs_perfect l : forall w, plan w = [] -> exists w', wstrs l w = (None, w') /\ plan w' = [].
Proof.
  induction l as [|x l IH]; intros w H; cbn [wstrs]; [eauto|].
  destruct (WriteString_perfect w x H) as (w1 & -> & H1). apply IH. exact H1.
Qed.
Lemma emit_head_perfect h cw w : plan w = [] -> exists cw' w', emit_head h cw w = (None, (cw', w')) /\ plan w' = [].
Proof.
  intros H. unfold emit_head. destruct (wstrs_perfect [bs "("; bs "type"; hd_type h] w H) as (w1 & -> & H1).
  destruct (beq (hd_type h) TypeRegular).
  - assert (E : exists w2, (if hd_exec h
        then let '(e, w) := WriteString w1 (bs "executable") in
             match e with Some er => (Some er, w) | None => WriteBytes w [] end
        else (None, w1)) = (None, w2) /\ plan w2 = []).
    { destruct (hd_exec h); [|eauto]. destruct (WriteString_perfect w1 (bs "executable") H1) as (w2 & -> & H2).
      apply (WriteString_perfect w2 [] H2). }
    destruct E as (w2 & -> & H2). destruct (WriteString_perfect w2 (bs "contents") H2) as (w3 & -> & H3).
    unfold NewBytesWriter, WriteUint64. destruct (wwrite_perfect (le64 (u64_of_Z (hd_size h))) w3 H3) as (w4 & -> & H4). eauto.
  - assert (E : exists w2, (if beq (hd_type h) TypeSymlink then wstrs [bs "target"; hd_target h] w1 else (None, w1)) = (None, w2)
                  /\ plan w2 = []).
    { destruct (beq _ _); [apply wstrs_perfect; exact H1|eauto]. }
    destruct E as (w2 & -> & H2). destruct (beq _ _ || beq _ _); [cbn; eauto|eauto].
Qed.
Lemma finish_perfect up : forall w, plan w = [] -> exists w', finish up w = (None, w').
Proof.
  induction up as [|p up IH]; intros w H; cbn [finish];
    destruct (WriteString_perfect w (bs ")") H) as (w1 & -> & H1); [eauto|].
  destruct (WriteString_perfect w1 (bs ")") H1) as (w2 & -> & H2). apply IH. exact H2.
Qed.

(** * One header after another *)
Definition beyond (a b : list bytes) : Prop :=
  exists d m r n, a = d ++ m :: r /\ b = d ++ [n] /\ blt m n = true.
Definition follows (a : list bytes) (isdir : Prop) (b : list bytes) : Prop :=
  (isdir /\ exists n, b = a ++ [n]) \/ beyond a b.
Definition hdr_follows (h1 h2 : header) : Prop :=
  exists a b, hd_path h1 = path_of a /\ hd_path h2 = path_of b /\ ecomps a /\ ecomps b /\
    follows a (hd_type h1 = bs "directory") b.
Definition writer_path (p : bytes) : Prop := exists b, p = path_of b /\ ecomps b /\ Forall writer_name b.

Lemma writer_name_down n : writer_name n -> goes_up n = false.
Proof.
  intros H. destruct n as [|a [|b [|c n]]]; try reflexivity. cbn [goes_up].
  destruct (byte_eqb_spec a "."%byte) as [->|]; [|reflexivity].
  destruct (byte_eqb_spec b "."%byte) as [->|]; [|reflexivity]. elim H. reflexivity.
Qed.
Lemma blt_neq m n : blt m n = true -> m <> n.
Proof. intros H ->. unfold blt in H. rewrite bcmp_refl in H. discriminate. Qed.
Lemma ccmp_beyond d m r n : blt m n = true -> ccmp (d ++ m :: r) (d ++ [n]) <> Gt.
Proof. intros H. rewrite ccmp_app. cbn [ccmp]. unfold blt in H. destruct (bcmp m n); [discriminate|discriminate..]. Qed.
Lemma handle_down cur up h cw w a n : hd_type cur = bs "directory" ->
  hd_path cur = path_of a -> hd_path h = path_of (a ++ [n]) -> ecomps (a ++ [n]) -> writer_name n ->
  plan w = [] -> exists cw' w', handle cur up h cw w = HWait h (cur :: up) cw' w' /\ plan w' = [].
Proof.
  intros HT Hc Hh He Hw Hp. pose proof (proj1 (Forall_app _ _ _) He) as [Ha Hn]. inversion Hn as [|? ? Hn1 _]; subst.
  rewrite handle_eq, Hc, Hh, Rel_below by (auto; discriminate). cbn [join_byte].
  rewrite e_lex_path_of; [|exact Ha|exact He|rewrite ccmp_prefix; discriminate]. cbn [negb].
  rewrite writer_name_down by exact Hw. unfold descend. rewrite HT. change (beq (bs "directory") TypeDirectory) with true.
  cbn [negb]. rewrite Hc, Hh, Rel_below by (auto; discriminate). cbn [join_byte].
  rewrite entry_name_valid by exact Hn1. cbn [negb].
  destruct (wstrs_perfect [bs "entry"; bs "("; bs "name"; n; bs "node"] w Hp) as (w1 & -> & H1).
  destruct (emit_head_perfect h cw w1 H1) as (cw' & w' & -> & H2). eauto.
Qed.
Lemma handle_beyond z : forall cur h cw w b, zok z -> hd_path cur = path_of (zcs z) ->
  hd_path h = path_of b -> ecomps b -> Forall writer_name b -> beyond (zcs z) b -> plan w = [] ->
  exists up' cw' w', handle cur (zup z) h cw w = HWait h up' cw' w' /\ plan w' = [].
Proof.
  induction z as [|f z IH]; intros cur h cw w b Hz Hc Hh He Hw (d & m & r & n & Ea & -> & Hlt) Hp.
  { destruct d; discriminate Ea. }
  pose proof (zok_ecomps _ Hz) as Hzc.
  rewrite handle_eq, Hc, Hh, Ea. rewrite Ea in Hzc.
  rewrite e_lex_path_of by (auto; apply ccmp_beyond; exact Hlt). cbn [negb].
  rewrite Rel_beside by (auto; apply blt_neq; exact Hlt).
  destruct (WriteString_perfect w (bs ")") Hp) as (w1 & -> & H1). cbn [zup].
  destruct (WriteString_perfect w1 (bs ")") H1) as (w2 & -> & H2).
  rewrite zcs_cons in Ea. inversion Hz; subst.
  destruct r as [|x r _] using rev_ind.
  - apply app_inj_tail in Ea. destruct Ea as [Ed _]. subst d.
    destruct (handle_down (dirhdr (zcs z)) (zup z) h cw w2 (zcs z) n) as (cw' & w' & E & P); auto.
    + apply Forall_app in Hw. destruct Hw as [_ Hw]. inversion Hw; assumption.
    + eauto 6.
  - rewrite app_comm_cons, app_assoc in Ea. apply app_inj_tail in Ea. destruct Ea as [Ed _].
    apply IH with (b := d ++ [n]); auto. exists d, m, r, n. auto.
Qed.

Definition complete (h : header) (c : bytes) : Prop :=
  hd_type h = bs "regular" -> lenN c = Z.to_N (hd_size h).
Lemma cw_close_perfect o z h c r : winv o z h c r -> complete h c -> plan (wr_sink r) = [] ->
  exists cw w, cw_close (wr_cw r) (wr_sink r) = (Some None, (cw, w)) /\ plan w = [].
Proof.
  intros [Hg Ho Hz Hp Hs (head & Hsh & Hout & Hb)] HC HP.
  destruct Hb as [(T & -> & Hle)|(T & -> & b & -> & Hpl)]; cbn [cw_close].
  - unfold bw_close. cbn [bw_padded bw_written bw_total]. rewrite (HC T), N.eqb_refl. cbn [negb].
    unfold writePadding. destruct (N.eqb _ 0); [eauto|].
    match goal with |- context [wwrite_ ?p _] => destruct (wwrite_perfect p _ HP) as (w1 & -> & H1) end. eauto.
  - do 2 eexists. split; [reflexivity|exact HP].
Qed.
Lemma next_succeeds o z h c r h1 : winv o z h c r -> complete h c -> plan (wr_sink r) = [] ->
  hd_Validate h1 = Ok tt -> hdr_follows h h1 -> writer_path (hd_path h1) ->
  exists r', WriteHeader h1 r = (WOk, r') /\ plan (wr_sink r') = [].
Proof.
  intros Hi HC HP HV (a & b & Ha & Hb & Ea & Eb & Hf) (b' & Hb' & Eb' & Hw).
  assert (b' = b) as -> by (apply e_path_of_inj; congruence).
  destruct (cw_close_perfect _ _ _ _ _ Hi HC HP) as (cw & w & HCC & Hpw).
  destruct Hi as [Hg Ho Hz Hp Hs _]. unfold WriteHeader. rewrite HV, Ho, Hg, HCC.
  assert (a = zcs z) as ->.
  { apply e_path_of_inj; [exact Ea|apply zok_ecomps; exact Hz|congruence]. }
  destruct Hf as [(T & n & ->)|Hf].
  - destruct (handle_down h (zup z) h1 cw w (zcs z) n T Hp Hb Eb) as (cw' & w' & -> & P); auto.
    + apply Forall_app in Hw. destruct Hw as [_ Hw]. inversion Hw; assumption.
    + eexists. split; [reflexivity|exact P].
  - destruct (handle_beyond z h h1 cw w b Hz Hp Hb Eb Hw Hf Hpw) as (up' & cw' & w' & -> & P).
    eexists. split; [reflexivity|exact P].
Qed.
Lemma writes_succeed o z h ps : forall c r, winv o z h c r -> plan (wr_sink r) = [] ->
  Forall (fun p => lenN p < 2 ^ 63)%N ps -> complete h (c ++ concat ps) ->
  (hd_type h <> bs "regular" -> concat ps = []) ->
  exists r', wr_writes ps r = (map (fun p => (length p, WOk)) ps, r') /\ plan (wr_sink r') = [].
Proof.
  induction ps as [|p ps IH]; intros c r Hi HP Hps HC HD; cbn [wr_writes map]; [eauto|].
  inversion Hps; subst. cbn [concat] in *.
  assert (E : exists r1, wr_Write p r = ((length p, WOk), r1) /\ plan (wr_sink r1) = []).
  { pose proof Hi as [Hg Ho Hz Hp Hs (head & Hsh & Hout & Hb)].
    unfold wr_Write. destruct Hb as [(T & -> & Hle)|(T & -> & b & -> & Hpl)].
    - unfold bw_write. cbn [bw_total bw_written bw_padded]. specialize (HC T).
      unfold lenN in HC. rewrite !app_length in HC. fold (lenN c) in *.
      rewrite N.mod_small by lia. unfold lenN at 2. destruct (N.ltb_spec (Z.to_N (hd_size h)) (lenN c + N.of_nat (length p))).
      { unfold lenN in *. lia. }
      unfold wwrite. rewrite HP. eexists. split; reflexivity.
    - assert (p = []) as -> by (specialize (HD T); apply app_eq_nil in HD; apply HD).
      unfold bw_write, wwrite. cbn [bw_total bw_written bw_padded]. rewrite Hpl. eexists. split; [reflexivity|exact HP]. }
  destruct E as (r1 & E & HP1). rewrite E.
  pose proof (write_ok _ _ _ _ _ _ _ _ _ Hi H1 E) as Hi1. rewrite firstn_all in Hi1.
  destruct (IH _ _ Hi1 HP1 H2) as (r' & E' & HP').
  - rewrite <- app_assoc. exact HC.
  - intros T. specialize (HD T). apply app_eq_nil in HD. apply HD.
  - rewrite E'. eauto.
Qed.
Lemma accepted_all ps : accepted ps (map (fun p => (length p, WOk)) ps) = concat ps.
Proof. induction ps as [|p ps IH]; [reflexivity|]. cbn [accepted map concat]. rewrite firstn_all, IH. reflexivity. Qed.

(** * Depth-first headers follow each other *)
Fixpoint linked (its : list (header * bytes)) : Prop :=
  match its with
  | (h1, _) :: ((h2, _) :: _) as l => hdr_follows h1 h2 /\ linked l
  | _ => True
  end.
Definition starts_beyond (cs : list bytes) (L : list (header * bytes)) : Prop :=
  match L with
  | [] => True
  | (h, _) :: _ => exists b, hd_path h = path_of b /\ ecomps b /\ beyond cs b
  end.
Lemma starts_beyond_deeper cs n L : starts_beyond cs L -> starts_beyond (cs ++ [n]) L.
Proof.
  destruct L as [|[h c] L]; [auto|]. intros (b & H1 & H2 & d & m & r & k & -> & -> & H4).
  exists (d ++ [k]). repeat split; auto. exists d, m, (r ++ [n]), k. rewrite <- app_assoc. auto.
Qed.
Lemma linked_cons h c L : linked L -> match L with [] => True | (h2, _) :: _ => hdr_follows h h2 end -> linked ((h, c) :: L).
Proof. destruct L as [|[h2 c2] L]; cbn [linked]; auto. Qed.
Lemma starts_follow cs h L : hd_path h = path_of cs -> ecomps cs -> starts_beyond cs L ->
  match L with [] => True | (h2, _) :: _ => hdr_follows h h2 end.
Proof.
  intros Hp He. destruct L as [|[h2 c] L]; [auto|]. intros (b & H1 & H2 & H4).
  exists cs, b. repeat split; auto. right. exact H4.
Qed.
Lemma names_tl x l : names_sorted (x :: l) -> names_sorted l.
Proof. destruct l; [intros; exact I|intros H; apply H]. Qed.
Lemma items_linked t : forall cs L, valid_tree t -> ecomps cs -> linked L -> starts_beyond cs L ->
  linked (items cs t ++ L).
Proof.
  induction t as [e c|tg|es IH] using node_ind2; intros cs L Hw Hc1 HL HS.
  1, 2: cbn [items app]; apply linked_cons; [exact HL|]; eapply starts_follow; [apply hdr_of_path|exact Hc1|exact HS].
  inversion Hw as [| |? W1 W2 W3]; subst. cbn [items app]. fold (eitems cs es).
  assert (G : linked (eitems cs es ++ L) /\
     match es with [] => True | (n, x) :: _ => exists l, eitems cs es = (hdr_of (cs ++ [n]) x, content_of x) :: l end).
  { clear Hw. induction es as [|[n x] es IHes]; [auto|].
    inversion IH as [|? ? IHx IHr]; subst. inversion W1 as [|? ? Wn Wr]; subst. inversion W3; subst. cbn [fst snd] in *.
    unfold eitems. cbn [map concat fst snd]. fold (eitems cs es). split.
    2:{ destruct (items_head (cs ++ [n]) x) as (l & ->). cbn [app]. eauto. }
    destruct (IHes IHr Wr (names_tl _ _ W2) H2) as [G1 G2].
    rewrite <- app_assoc. apply IHx; auto.
    - apply Forall_app; split; auto.
    - destruct es as [|[n2 x2] es]; [apply starts_beyond_deeper; exact HS|].
      destruct G2 as (l & ->). cbn [app starts_beyond]. inversion Wr; subst. cbn [fst] in *.
      exists (cs ++ [n2]). split; [apply hdr_of_path|]. split; [apply Forall_app; auto|].
      exists cs, n, [], n2. cbn [map fst names_sorted] in W2. repeat split; tauto. }
  destruct G as [G1 G2]. apply linked_cons; [exact G1|].
  destruct es as [|[n x] es]; [eapply (starts_follow cs); [reflexivity|exact Hc1|exact HS]|].
  destruct G2 as (l & ->). cbn [app]. inversion W1; subst. cbn [fst] in *.
  exists cs, (cs ++ [n]). split; [reflexivity|]. split; [apply hdr_of_path|]. split; [exact Hc1|].
  split; [apply Forall_app; auto|]. left. split; [reflexivity|eauto].
Qed.
Definition good_item (it : header * bytes) : Prop :=
  careful (fst it) /\ (hd_Validate (fst it) = Ok tt /\ writer_path (hd_path (fst it))) /\ complete (fst it) (snd it) /\
  (hd_type (fst it) <> bs "regular" -> snd it = []).
Definition wcomps (cs : list bytes) : Prop := ecomps cs /\ Forall writer_name cs.
Lemma item_good cs t : writable t -> wcomps cs -> good_item (hdr_of cs t, content_of t).
Proof.
  intros Hw [Hc Hc2].
  assert (HV : hd_Validate (hdr_of cs t) = Ok tt).
  { apply validate_header_exact. rewrite hdr_of_path. split; [eexists; reflexivity|].
    split; [apply e_path_of_no_nul; exact Hc|]. inversion Hw; subst; cbn [hdr_of hd_type hd_target hd_size hd_exec];
      repeat split; intros; auto; try (match goal with H : _ \/ _ |- _ => destruct H as [H|H]; discriminate H end); discriminate. }
  split; [|split; [split; [exact HV|exists cs; cbn [fst]; rewrite hdr_of_path; auto]|]].
  - split; [exists cs; split; [exact Hc|apply hdr_of_path]|].
    inversion Hw; subst; unfold known_type; cbn [hdr_of hd_type hd_size fst]; (split; [tauto|]); unfold lenN in *; lia.
  - inversion Hw; subst; cbn [fst snd hdr_of content_of]; unfold complete; cbn [hd_type hd_size]; split; intros T;
      try discriminate T; try reflexivity; [unfold lenN; lia|congruence].
Qed.
Lemma items_good t : forall cs, writable t -> wcomps cs -> Forall good_item (items cs t).
Proof.
  induction t as [e c|tg|es IH] using node_ind2; intros cs Hw Hc.
  1, 2: constructor; [apply (item_good cs _ Hw Hc)|constructor].
  constructor; [apply (item_good cs _ Hw Hc)|]. inversion Hw as [| |? W1 W2 W3]; subst. clear W2 Hw.
  induction es as [|[n x] es IHes]; [constructor|]. inversion IH; subst. inversion W1; subst. inversion W3; subst.
  cbn [map concat fst snd]. apply Forall_app. split; [|apply IHes; assumption].
  cbn [fst snd] in *. apply H1; [assumption|]. destruct Hc, H3. split; apply Forall_app; split; auto.
Qed.
Lemma writable_valid t : writable t -> valid_tree t.
Proof.
  induction t as [e c|tg|es IH] using node_ind2; intros Hw; inversion Hw as [| |? W1 W2 W3]; subst; constructor; auto.
  - eapply Forall_impl; [|exact W1]. intros a [Ha _]. exact Ha.
  - clear -IH W3. induction IH; [constructor|]. inversion W3; subst. constructor; auto.
Qed.

(** * The whole session *)
Lemma rest_succeeds o its : forall hist z h c r, history_of its hist -> Forall good_item its ->
  linked ((h, c) :: its) -> winv o z h c r -> complete h c -> plan (wr_sink r) = [] ->
  exists res r' z' h' c', wsession hist r = (res, r') /\ all_ok hist res /\ log_of hist res = its /\
    winv o z' h' c' r' /\ complete h' c' /\ plan (wr_sink r') = [].
Proof.
  induction its as [|[h1 c1] its IH]; intros hist z h c r Hh Hg HL Hi HC HP; inversion Hh as [|? [h1' ps] ? hist' Hx Hh']; subst.
  - exists [], r, z, h, c. cbn [wsession log_of]. repeat split; auto; [constructor|apply Hi..].
  - destruct Hx as [Hx1 [Hx2 Hx3]]. cbn [fst snd] in *. subst h1' c1.
    inversion Hg as [|? ? (G1 & [G2 GW] & G3 & G4) Hg']; subst. cbn [fst snd] in *.
    destruct HL as [HL1 HL2]. cbn [wsession].
    destruct (next_succeeds _ _ _ _ _ _ Hi HC HP G2 HL1 GW) as (r1 & E1 & P1). rewrite E1.
    assert (Hne : hd_path h <> hd_path h1).
    { destruct HL1 as (a & b & Ea & Eb & Ca & Cb & Hf). intros E. rewrite Ea, Eb in E.
      apply e_path_of_inj in E; [|assumption..]. destruct Hf as [(_ & n & Hf)|(d & m & s & n & -> & -> & Hlt)].
      - rewrite E in Hf. rewrite <- (app_nil_r b) in Hf at 1. apply app_inv_head in Hf. discriminate.
      - apply app_inv_head in E. injection E as -> _. unfold blt in Hlt. rewrite bcmp_refl in Hlt. discriminate. }
    destruct (next_ok _ _ _ _ _ _ _ Hi G1 Hne E1) as (z1 & Hi1 & _).
    destruct (writes_succeed _ _ _ ps [] r1 Hi1 P1 Hx3 G3 G4) as (r2 & E2 & P2). rewrite E2.
    pose proof (writes_ok _ _ _ _ _ _ _ _ Hi1 Hx3 E2) as Hi2. rewrite accepted_all in Hi2. cbn [app] in Hi2.
    destruct (IH hist' _ _ _ _ Hh' Hg' HL2 Hi2 G3 P2) as (res & r' & z' & h' & c' & E3 & A & Lg & Hi' & C' & P').
    rewrite E3. exists ((WOk, map (fun p => (length p, WOk)) ps) :: res), r', z', h', c'.
    split; [reflexivity|]. split; [constructor; [auto|exact A]|]. split; [cbn [log_of]; rewrite accepted_all, Lg; reflexivity|].
    auto.
Qed.
Lemma no_repeat_linked its : forall hist, history_of its hist -> linked its -> no_repeat (hpaths hist).
Proof.
  induction its as [|[h c] its IH]; intros hist Hh HL; inversion Hh as [|? [h' ps] ? hist' Hx Hh']; subst; [exact I|].
  destruct its as [|[h2 c2] its]; inversion Hh' as [|? [h2' ps2] ? hist2 Hx2 Hh2]; subst; [exact I|].
  destruct Hx as [Hx _], Hx2 as [Hx2 _]. cbn [fst] in *. subst. destruct HL as [HL1 HL2].
  split; [|apply (IH _ Hh' HL2)].
  destruct HL1 as (a & b & Ea & Eb & Ca & Cb & Hf). cbn [fst]. intros E. rewrite Ea, Eb in E.
  apply e_path_of_inj in E; [|assumption..]. destruct Hf as [(_ & n & Hf)|(d & m & s & n & -> & -> & Hlt)].
  - rewrite E in Hf. rewrite <- (app_nil_r b) in Hf at 1. apply app_inv_head in Hf. discriminate.
  - apply app_inv_head in E. injection E as -> _. unfold blt in Hlt. rewrite bcmp_refl in Hlt. discriminate.
Qed.
Lemma history_careful its : forall hist, history_of its hist -> Forall good_item its ->
  Forall (fun x => careful (fst x) /\ Forall (fun p => lenN p < 2 ^ 63)%N (snd x)) hist.
Proof.
  induction its as [|[h c] its IH]; intros hist Hh HG; inversion Hh as [|? [h' ps] ? hist' Hx Hh']; subst; constructor.
  - destruct Hx as [Hx1 [Hx2 Hx3]]. cbn [fst snd] in *. subst h'. inversion HG as [|? ? (G & _) _]; subst. split; assumption.
  - apply IH; [exact Hh'|]. inversion HG; assumption.
Qed.
Lemma all_ok_WOk hist res : all_ok hist res -> Forall (fun x => fst x = WOk) res.
Proof. induction 1; constructor; tauto. Qed.

Lemma writer_session o t hist : writable t -> history_of (items [] t) hist ->
  exists r0 w res r1 r2, NewWriter (Sink o []) = (Ok r0, w) /\ wsession hist r0 = (res, r1) /\ all_ok hist res /\
    wr_Close r1 = (WOk, r2) /\ out (wr_sink r2) = o ++ nar t.
Proof.
  intros Hw Hh.
  pose proof (items_good t [] Hw (conj (Forall_nil _) (Forall_nil _))) as HG.
  assert (HL : linked (items [] t)).
  { rewrite <- (app_nil_r (items [] t)). apply items_linked; [apply writable_valid; exact Hw|constructor|exact I|exact I]. }
  destruct (WriteString_perfect (Sink o []) narVersionMagic1 eq_refl) as (w & EN & PW).
  assert (EN' : NewWriter (Sink o []) = (Ok (WR w WFirst CWNil false), w)) by (unfold NewWriter; rewrite EN; reflexivity).
  assert (S : exists res r1 z h c, wsession hist (WR w WFirst CWNil false) = (res, r1) /\ all_ok hist res /\
     log_of hist res = items [] t /\ winv o z h c r1 /\ complete h c /\ plan (wr_sink r1) = []).
  { destruct (items_head [] t) as (l & El). rewrite El in *.
    inversion Hh as [|? [h ps] ? hist' [Hx1 [Hx2 Hx3]] Hh']; subst. cbn [fst snd] in *. subst h.
    inversion HG as [|? ? (G1 & [G2 GW] & G3 & G4) HG']; subst. cbn [fst snd] in *.
    destruct (NewWriter_ok _ _ _ EN') as [_ Hw0]. cbn [out] in Hw0.
    assert (E1 : exists r1, WriteHeader (hdr_of [] t) (WR w WFirst CWNil false) = (WOk, r1) /\ plan (wr_sink r1) = []).
    { unfold WriteHeader. rewrite G2. cbn [wr_closed wr_gor wr_cw wr_sink]. rewrite hdr_of_path.
      change (beq (path_of []) (bs "/")) with true. cbn [negb].
      destruct (emit_head_perfect (hdr_of [] t) CWNil w PW) as (cw' & w' & -> & P). eauto. }
    destruct E1 as (r1 & E1 & P1). pose proof (first_ok _ _ _ _ G1 Hw0 E1) as Hi1.
    rewrite <- Hx2 in *.
    destruct (writes_succeed _ _ _ ps [] r1 Hi1 P1 Hx3 G3 G4) as (r2 & E2 & P2).
    pose proof (writes_ok _ _ _ _ _ _ _ _ Hi1 Hx3 E2) as Hi2. rewrite accepted_all in Hi2. cbn [app] in Hi2.
    destruct (rest_succeeds o l hist' _ _ _ _ Hh' HG' HL Hi2 G3 P2) as (res & r' & z' & h' & c' & E3 & A & Lg & Hi' & C' & P').
    exists ((WOk, map (fun p => (length p, WOk)) ps) :: res), r', z', h', c'. cbn [wsession]. rewrite E1, E2, E3.
    split; [reflexivity|]. split; [constructor; [auto|exact A]|]. split; [cbn [log_of]; rewrite accepted_all, Lg; reflexivity|].
    auto. }
  destruct S as (res & r1 & z & h & c & ES & A & Lg & Hi & HC & HP).
  assert (EC : exists r2, wr_Close r1 = (WOk, r2)).
  { destruct (cw_close_perfect _ _ _ _ _ Hi HC HP) as (cw & w2 & HCC & P2).
    destruct Hi as [Hg Ho _ _ _ _]. unfold wr_Close. rewrite Ho, Hg, HCC.
    destruct (finish_perfect (zup z) w2 P2) as (w3 & ->). eauto. }
  destruct EC as (r2 & EC).
  destruct (session_sound _ _ _ _ _ _ _ EN' ES (all_ok_WOk _ _ A) EC) as (t' & T1 & T2 & T3).
  - eapply history_careful; eassumption.
  - eapply no_repeat_linked; eassumption.
  - exists (WR w WFirst CWNil false), w, res, r1, r2. repeat split; auto.
    rewrite Lg in T3.
    destruct (items_inj t' t [] [] []) as [E _]; [apply writable_valid; exact T1|apply writable_valid; exact Hw|constructor|exact I|exact I|rewrite T3; reflexivity|].
    rewrite <- E. exact T2.
Qed.

(** * Only writable trees can be written *)
Lemma items_careful t : forall cs, valid_tree t -> go_sized t -> ecomps cs -> Forall (fun it => careful (fst it)) (items cs t).
Proof.
  induction t as [e c|tg|es IH] using node_ind2; intros cs Hv Hs Hc;
    (constructor; [split; [exists cs; split; [exact Hc|apply hdr_of_path]|]; inversion Hs; subst; unfold known_type; cbn [hdr_of hd_type hd_size fst]; (split; [tauto|]); unfold lenN in *; lia|]).
  1, 2: constructor.
  inversion Hv as [| |? W1 W2 W3]; subst. inversion Hs as [| |? V1 V2]; subst. clear W2 Hv Hs V1.
  induction es as [|[n x] es IHes]; [constructor|]. inversion IH; subst. inversion W1; subst. inversion W3; subst. inversion V2; subst.
  cbn [map concat fst snd]. apply Forall_app. split; [|apply IHes; assumption].
  cbn [fst snd] in *. apply H1; auto. apply Forall_app. auto.
Qed.
Lemma log_all its : forall hist res, history_of its hist -> all_ok hist res -> log_of hist res = its.
Proof.
  induction its as [|[h c] its IH]; intros hist res Hh Ha; inversion Hh as [|? [h' ps] ? hist' [A [B C]] Hh']; subst; inversion Ha as [|? [x l] ? res' [X Y] Ha']; subst; [reflexivity|].
  cbn [log_of fst snd] in *. subst. rewrite accepted_all, (IH _ _ Hh' Ha'). reflexivity.
Qed.
Lemma only_writable w0 r0 w t hist res r1 r2 : valid_tree t -> go_sized t -> history_of (items [] t) hist ->
  NewWriter w0 = (Ok r0, w) -> wsession hist r0 = (res, r1) -> all_ok hist res -> wr_Close r1 = (WOk, r2) -> writable t.
Proof.
  intros Hv Hs Hh EN ES A EC.
  assert (HL : linked (items [] t)).
  { rewrite <- (app_nil_r (items [] t)). apply items_linked; [exact Hv|constructor|exact I|exact I]. }
  destruct (session_sound _ _ _ _ _ _ _ EN ES (all_ok_WOk _ _ A) EC) as (t' & T1 & T2 & T3).
  - pose proof (items_careful t [] Hv Hs (Forall_nil _)) as HC. clear -Hh HC.
    induction Hh as [|it x its hist [A [B C]] Hh IH]; constructor; inversion HC; subst.
    + rewrite A. split; assumption.
    + auto.
  - eapply no_repeat_linked; eassumption.
  - rewrite (log_all _ _ _ Hh A) in T3.
    destruct (items_inj t' t [] [] []) as [E _]; [apply writable_valid; exact T1|exact Hv|constructor|exact I|exact I|rewrite T3; reflexivity|].
    rewrite <- E. exact T1.
Qed.
