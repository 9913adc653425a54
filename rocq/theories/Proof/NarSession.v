(** Sessions of the NAR reader over canonical archives (C28). *)
From Coq Require Import Sorted.
From Verif Require Import Base.Bytes Base.BytesFacts Model.GoIO Model.GoStd Model.Wire Model.Nar
  Model.NarReader Spec.WireSpec Spec.WireHist Spec.NarSpec Spec.NarHist
  Proof.WireFacts Proof.WireProps Proof.PathFacts Proof.NarUtilProps Proof.NarPath Proof.NarReaderFacts.
Ltac Zify.zify_post_hook ::= idtac.

(** * Reads *)
Lemma rd_reads_none ns s g er p cl :
  exists l, rd_reads ns (RD s g er p None cl) = (l, RD s g er p None cl) /\ reads_of [] ns l.
Proof.
  induction ns as [|n ns IH]; cbn [rd_reads rd_Read rd_content].
  - exists []. split; [reflexivity|constructor].
  - destruct IH as (l & -> & Hl). exists (([], Some EEOF) :: l). split; [reflexivity|constructor; exact Hl].
Qed.
Lemma rd_reads_done ns s g er p len cl :
  exists l, rd_reads ns (RD s g er p (Some (BR len 0)) cl) = (l, RD s g er p (Some (BR len 0)) cl) /\ reads_of [] ns l.
Proof.
  induction ns as [|n ns IH]; cbn [rd_reads].
  - exists []. split; [reflexivity|constructor].
  - unfold rd_Read. cbn [rd_content rd_src br_read br_rem lim_read N.eqb br_len rd_gor rd_err rd_prev rd_closed].
    destruct IH as (l & -> & Hl). exists (([], Some EEOF) :: l). split; [reflexivity|constructor; exact Hl].
Qed.
Lemma rd_reads_some ns : forall s g er p len cl d tail e,
  flat s = (d ++ tail, e) -> tail <> [] ->
  exists l k s2, rd_reads ns (RD s g er p (Some (BR len (lenN d))) cl) =
      (l, RD s2 g er p (Some (BR len (lenN d - k))) cl) /\
    reads_of d ns l /\ (k <= lenN d)%N /\ flat s2 = (ndrop k d ++ tail, e).
Proof.
  induction ns as [|n ns IH]; intros s g er p len cl d tail e Hs Ht; cbn [rd_reads].
  - exists [], 0%N, s. rewrite N.sub_0_r. split; [reflexivity|]. split; [constructor|]. split; [lia|exact Hs].
  - unfold rd_Read. cbn [rd_content rd_src rd_gor rd_err rd_prev rd_closed]. unfold br_read. cbn [br_rem br_len].
    destruct (lim_read n (lenN d, s)) as [[b er1] [rem1 s1]] eqn:E.
    destruct (lim_read_spec _ _ _ _ _ _ _ _ _ Hs E)
      as (Hd & He & Heg & Hlb & Hrem & Hz & Hnz & Hdec & Heag & Hsz).
    destruct (N.eq_dec (lenN d) 0) as [Hd0|Hd0].
    + destruct (Hz Hd0) as [-> ->]. destruct d as [|x d]; [|rewrite lenN_cons in Hd0; lia].
      assert (b = []) as -> by (destruct b; [reflexivity|rewrite lenN_cons in Hrem; cbn in Hrem; lia]).
      assert (rem1 = lenN []) as -> by (cbn in *; lia).
      destruct (IH s g er p len cl [] tail e Hs Ht) as (l & k & s2 & -> & Hl & Hk & Hf).
      exists (([], Some EEOF) :: l), k, s2. split; [reflexivity|]. split; [constructor; exact Hl|]. auto.
    + assert (Hsplit : exists d', d = b ++ d' /\ src_data s1 = d' ++ tail).
      { exists (skipn (length b) d). assert (Hl : length b <= length d) by (unfold lenN in *; lia).
        assert (E1 : firstn (length b) (d ++ tail) = b) by (rewrite Hd; apply firstn_length_app).
        assert (E2 : skipn (length b) (d ++ tail) = src_data s1) by (rewrite Hd; apply skipn_length_app).
        rewrite firstn_le_app in E1 by exact Hl. rewrite skipn_le_app in E2 by exact Hl.
        split; [|congruence]. rewrite <- E1 at 1. symmetry. apply firstn_skipn. }
      destruct Hsplit as (d' & -> & Hs1).
      assert (er1 = None) as ->.
      { destruct (Hnz Hd0) as [|[_ Hx]]; [assumption|]. rewrite Hx in Hs1. destruct d'; [|discriminate].
        cbn in Hs1. congruence. }
      assert (rem1 = lenN d') as -> by (rewrite lenN_app in Hrem; lia).
      assert (Hs1' : flat s1 = (d' ++ tail, e)) by (unfold flat; rewrite Hs1, He; reflexivity).
      destruct (IH s1 g er p len cl d' tail e Hs1' Ht) as (l & k & s2 & -> & Hl & Hk & Hf).
      exists ((b, None) :: l), (lenN b + k)%N, s2. rewrite lenN_app.
      replace (lenN b + lenN d' - (lenN b + k))%N with (lenN d' - k)%N by lia.
      split; [reflexivity|]. split; [|split; [lia|]].
      * constructor; [exact Hlb| |exact Hl]. intros E0. rewrite E0 in Hd0. apply Hd0. reflexivity.
      * rewrite Hf. f_equal. f_equal. rewrite ndrop_app by lia. f_equal. lia.
Qed.

(** * The order of the headers *)
Fixpoint cpaths (cs : list bytes) (t : node) : list (list bytes) :=
  cs :: match t with
        | Dir es => concat (map (fun e => cpaths (cs ++ [fst e]) (snd e)) es)
        | _ => []
        end.
Lemma items_cpaths t : forall cs, map (fun it => hd_path (fst it)) (items cs t) = map path_of (cpaths cs t).
Proof.
  induction t as [x c|tg|es IH] using node_ind2; intros cs; try reflexivity.
  cbn [items cpaths map fst hdr_of hd_path]. f_equal. rewrite !concat_map, !map_map.
  f_equal. apply map_ext_Forall. eapply Forall_impl; [|exact IH]. cbn beta. intros e He. apply He.
Qed.
Lemma cpaths_prefix t : forall cs x, In x (cpaths cs t) -> x = cs \/ exists y ys, x = cs ++ y :: ys.
Proof.
  induction t as [b c|tg|es IH] using node_ind2; intros cs x [H|H]; auto; try (destruct H; fail).
  right. apply in_concat in H. destruct H as (l & Hl & Hx). apply in_map_iff in Hl. destruct Hl as (e & <- & He).
  rewrite Forall_forall in IH. destruct (IH e He _ _ Hx) as [->|(y & ys & ->)].
  - exists (fst e), []. reflexivity.
  - exists (fst e), (y :: ys). rewrite <- app_assoc. reflexivity.
Qed.
Lemma SS_app {A} (R : A -> A -> Prop) l1 : forall l2, StronglySorted R l1 -> StronglySorted R l2 ->
  (forall a b, In a l1 -> In b l2 -> R a b) -> StronglySorted R (l1 ++ l2).
Proof.
  induction l1 as [|x l1 IH]; intros l2 H1 H2 H; cbn [app]; [exact H2|].
  inversion H1 as [|? ? H3 H4]; subst. constructor.
  - apply IH; auto. intros a b Ha Hb. apply H; [right|]; assumption.
  - apply Forall_app. split; [exact H4|]. apply Forall_forall. intros b Hb. apply H; [left; reflexivity|exact Hb].
Qed.
Lemma blt_bcmp a b : blt a b = true -> bcmp a b = Lt.
Proof. unfold blt. destruct (bcmp a b); congruence. Qed.
Lemma names_sorted_lt n l : names_sorted (n :: l) -> Forall (fun m => bcmp n m = Lt) l.
Proof.
  revert n. induction l as [|m l IH]; intros n H; constructor.
  - destruct H as [H _]. apply blt_bcmp. exact H.
  - destruct H as [H1 H2]. eapply Forall_impl; [|apply IH; exact H2].
    cbn beta. intros k Hk. eapply bcmp_lt_trans; [apply blt_bcmp; exact H1|exact Hk].
Qed.
Lemma names_sorted_tl n l : names_sorted (n :: l) -> names_sorted l.
Proof. destruct l; [intros; exact I|]. intros [_ H]. exact H. Qed.
Lemma cpaths_sorted X t : wf_tree X t -> forall cs, StronglySorted (fun a b => ccmp a b = Lt) (cpaths cs t).
Proof.
  induction t as [b c|tg|es IH] using node_ind2; intros Hwf cs; try (repeat constructor).
  - inversion Hwf as [| |? _ Hsort Hts]; subst. clear Hwf.
    induction es as [|[n t] es IHes]; cbn [map concat]; [constructor|].
    inversion IH as [|? ? IHt IHr]; subst. inversion Hts as [|? ? Ht Htr]; subst. cbn [map fst snd] in *.
    apply SS_app; [apply IHt; exact Ht|apply IHes; [exact IHr|eapply names_sorted_tl; exact Hsort|exact Htr]|].
    intros x y Hx Hy. apply in_concat in Hy. destruct Hy as (l & Hl & Hy). apply in_map_iff in Hl.
    destruct Hl as (e & <- & He). apply cpaths_prefix in Hx, Hy.
    apply names_sorted_lt in Hsort. rewrite Forall_forall in Hsort.
    specialize (Hsort (fst e) (in_map fst _ _ He)).
    assert (HH : forall u v, ccmp ((cs ++ [n]) ++ u) ((cs ++ [fst e]) ++ v) = Lt).
    { intros u v. rewrite <- !app_assoc, ccmp_app. cbn [app ccmp]. rewrite Hsort. reflexivity. }
    destruct Hx as [->|(a & u & ->)], Hy as [->|(a' & v & ->)].
    + specialize (HH [] []). rewrite !app_nil_r in HH. exact HH.
    + specialize (HH [] (a' :: v)). rewrite app_nil_r in HH. exact HH.
    + specialize (HH (a :: u) []). rewrite app_nil_r in HH. exact HH.
    + apply HH.
  - apply Forall_forall. intros x Hx. apply in_concat in Hx. destruct Hx as (l & Hl & Hx).
    apply in_map_iff in Hl. destruct Hl as (e & <- & He). apply cpaths_prefix in Hx.
    destruct Hx as [->|(a & u & ->)]; [|rewrite <- app_assoc]; apply ccmp_prefix; discriminate.
Qed.
Lemma cpaths_ok X t : wf_tree X t -> forall cs, comps_ok cs -> Forall comps_ok (cpaths cs t).
Proof.
  induction t as [b c|tg|es IH] using node_ind2; intros Hwf cs Hcs; constructor; auto.
  inversion Hwf as [| |? Hn _ Hts]; subst. apply Forall_forall. intros x Hx. apply in_concat in Hx.
  destruct Hx as (l & Hl & Hx). apply in_map_iff in Hl. destruct Hl as (e & <- & He).
  rewrite Forall_forall in IH, Hts, Hn. specialize (IH e He (Hts e He) (cs ++ [fst e])).
  rewrite Forall_forall in IH. apply IH; [|exact Hx]. apply Forall_app. split; [exact Hcs|].
  constructor; [apply (Hn e He)|constructor].
Qed.

(** * Sessions *)
(** Consecutive headers are in order. *)
Fixpoint chained (prev : bytes) (its : list (header * bytes)) : Prop :=
  match its with
  | [] => True
  | (h, _) :: its' => PathIsLexicographicallyOrdered prev (hd_path h) = true /\ chained (hd_path h) its'
  end.
Lemma chained_sorted its : forall prev css, map (fun it => hd_path (fst it)) its = map path_of css ->
  Forall comps_ok css -> StronglySorted (fun a b => ccmp a b = Lt) css ->
  match css with c :: _ => PathIsLexicographicallyOrdered prev (path_of c) = true | [] => True end ->
  chained prev its.
Proof.
  induction its as [|[h c] its IH]; intros prev css E Hok Hs Hp; cbn [chained]; [exact I|].
  destruct css as [|cs css]; [discriminate|]. cbn [map fst] in E. injection E as E1 E2.
  rewrite E1. split; [exact Hp|]. inversion Hok; subst. inversion Hs as [|? ? Hs1 Hs2]; subst.
  apply (IH _ css); auto. destruct css as [|cs2 css]; [exact I|].
  inversion Hs2; subst. inversion H2; subst. apply lex_path_of; auto. congruence.
Qed.
Lemma chained_items X t : wf_tree X t -> chained [] (items [] t).
Proof.
  intros H. apply (chained_sorted _ _ (cpaths [] t)).
  - apply items_cpaths.
  - eapply cpaths_ok; [exact H|constructor].
  - eapply cpaths_sorted. exact H.
  - destruct t; reflexivity.
Qed.

(** A reader that is about to deliver [its]. *)
Definition at_items (its : list (header * bytes)) (rest : bytes) (e : error) (r : rd) : Prop :=
  rd_err r = None /\ rd_closed r = false /\ chained (rd_prev r) its /\
  serves its (returns [] rest e) (fst (resume (rd_gor r) (rd_content r) (rd_src r))) /\
  (let ct := snd (resume (rd_gor r) (rd_content r) (rd_src r)) in
   ct = None \/ exists len, ct = Some (BR len 0)).
Definition at_end (rest : bytes) (e : error) (r : rd) : Prop :=
  rd_err r = Some EEOF /\ flat (rd_src r) = (rest, e) /\
  (rd_content r = None \/ exists len, rd_content r = Some (BR len 0)).

Lemma rd_reads_idle ns r : rd_content r = None \/ (exists len, rd_content r = Some (BR len 0)) ->
  exists l, rd_reads ns r = (l, r) /\ reads_of [] ns l.
Proof.
  destruct r as [s g er p ct cl]. cbn [rd_content]. intros [->|(len & ->)].
  - apply rd_reads_none.
  - apply rd_reads_done.
Qed.
Lemma session_end plans rest e r : at_end rest e r ->
  exists o, session plans r = (o, r) /\ session_of [] plans o.
Proof.
  intros (H1 & H2 & H3). induction plans as [|ns plans IH]; cbn [session].
  - exists []. split; [reflexivity|constructor].
  - unfold Next. rewrite H1. destruct (rd_reads_idle ns r H3) as (l & -> & Hl).
    destruct IH as (o & -> & Ho). exists ((Err EEOF, l) :: o). split; [reflexivity|constructor; assumption].
Qed.
Lemma run_ret_nil s : run_all CRet [] s = PStop EEOF s.
Proof. rewrite run_all_step. reflexivity. Qed.

Lemma session_items its : forall plans rest e r, at_items its rest e r ->
  exists o r', session plans r = (o, r') /\ session_of its plans o /\
    (length its < length plans -> flat (rd_src r') = (rest, e)).
Proof.
  induction its as [|[h c] its IH]; intros plans rest e r (H1 & H2 & H3 & H4 & H5).
  - destruct plans as [|ns plans]; cbn [session].
    { exists [], r. split; [reflexivity|]. split; [constructor|cbn; lia]. }
    unfold Next. rewrite H1, H2. cbn [serves] in H4. destruct H4 as (s' & Hf & Hp).
    rewrite run_ret_nil in Hp.
    destruct (resume (rd_gor r) (rd_content r) (rd_src r)) as [ps ct]. cbn [fst snd] in *. subst ps.
    set (r1 := RD s' GExit (Some EEOF) (rd_prev r) ct false).
    assert (He : at_end rest e r1) by (split; [reflexivity|split; assumption]).
    destruct (rd_reads_idle ns r1 H5) as (l & -> & Hl).
    destruct (session_end plans rest e r1 He) as (o & -> & Ho).
    exists ((Err EEOF, l) :: o), r1. split; [reflexivity|]. split; [constructor; assumption|]. intros _. exact Hf.
  - destruct plans as [|ns plans]; cbn [session].
    { exists [], r. split; [reflexivity|]. split; [constructor|cbn; lia]. }
    unfold Next. rewrite H1, H2. cbn [serves] in H4. destruct H4 as (w & st & ct & s & Hp & Hc).
    destruct (resume (rd_gor r) (rd_content r) (rd_src r)) as [ps ct0]. cbn [fst snd] in *. subst ps.
    destruct H3 as [H3 H3']. rewrite H3.
    destruct Hc as [(-> & -> & Hs & Hct)|(-> & tail & e' & Hfl & Ht & Hs)].
    + destruct (rd_reads_none ns s (GWait w st) None (hd_path h) false) as (l & -> & Hl).
      destruct (IH plans rest e (RD s (GWait w st) None (hd_path h) None false)) as (o & r' & -> & Ho & Hr).
      { split; [reflexivity|]. split; [reflexivity|]. split; [exact H3'|].
        cbn [rd_gor rd_content rd_src]. split; [exact Hs|]. left. exact Hct. }
      exists ((Ok h, l) :: o), r'. split; [reflexivity|]. split; [constructor; assumption|]. cbn [length]. intros Hlen. apply Hr. lia.
    + destruct (rd_reads_some ns s (GWait w st) None (hd_path h) (lenN c) false c tail e' Hfl Ht)
        as (l & k & s2 & -> & Hl & Hk & Hf2).
      destruct (Hs k s2 Hk Hf2) as [Hsv Hct].
      destruct (IH plans rest e (RD s2 (GWait w st) None (hd_path h) (Some (BR (lenN c) (lenN c - k))) false))
        as (o & r' & -> & Ho & Hr).
      { split; [reflexivity|]. split; [reflexivity|]. split; [exact H3'|].
        cbn [rd_gor rd_content rd_src]. split; [exact Hsv|]. right. eauto. }
      exists ((Ok h, l) :: o), r'. split; [reflexivity|]. split; [constructor; assumption|]. cbn [length]. intros Hlen. apply Hr. lia.
Qed.

Lemma new_reader_ok rest e s : flat s = (str "nix-archive-1" ++ rest, e) ->
  exists s1, NewReader s = (Ok (RD s1 GFirst None [] None false), s1) /\ flat s1 = (rest, e).
Proof.
  intros Hs. destruct (expect_ok (bs "nix-archive-1") _ _ s Hs ltac:(reflexivity)) as (s1 & R & F).
  exists s1. unfold NewReader. change narVersionMagic1 with (bs "nix-archive-1"). rewrite R. auto.
Qed.
Lemma reader_session t s rest e plans : wf_tree reader_name t -> flat s = (nar t ++ rest, e) ->
  exists r s1 o r', NewReader s = (Ok r, s1) /\ session plans r = (o, r') /\
    session_of (items [] t) plans o /\
    (length (items [] t) < length plans -> flat (rd_src r') = (rest, e)).
Proof.
  intros Hwf Hs. unfold nar in Hs. rewrite <- app_assoc in Hs.
  destruct (new_reader_ok _ _ _ Hs) as (s1 & -> & F).
  destruct (session_items (items [] t) plans rest e (RD s1 GFirst None [] None false)) as (o & r' & H1 & H2 & H3).
  - split; [reflexivity|]. split; [reflexivity|]. split; [apply (chained_items _ _ Hwf)|].
    cbn [rd_gor rd_content rd_src resume fst snd]. split; [|left; reflexivity].
    change (bs "/") with (path_of []). apply node_serves; [exact Hwf|constructor|exact F].
  - exists (RD s1 GFirst None [] None false), s1, o, r'. auto.
Qed.
Lemma items_length t : forall cs, length (items cs t) = nodes t.
Proof.
  induction t as [b c|tg|es IH] using node_ind2; intros cs; try reflexivity.
  cbn [items nodes length]. f_equal. induction es as [|e es IHes]; [reflexivity|].
  inversion IH; subst. cbn [map concat list_sum fold_right]. rewrite app_length, H1. f_equal. apply IHes. assumption.
Qed.
