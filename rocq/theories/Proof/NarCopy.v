(** Copying what a Reader reports of any stream into a Writer (C116). *)
From Coq Require Import Sorted.
From Verif Require Import Base.Bytes Base.BytesFacts Model.GoIO Model.GoStd Model.Wire Model.Nar Model.NarReader Model.NarWriter
  Spec.WireSpec Spec.NarSpec Spec.NarHist Spec.NarWHist Spec.ExtractSpec Spec.NarBackSpec Spec.PipelineSpec Spec.CopySpec
  Proof.WireFacts Proof.PathFacts Proof.NarUtilProps Proof.NarPath Proof.EntryPath Proof.NarReaderFacts Proof.NarReaderAny
  Proof.NarWriterSound Proof.NarWriterComplete Proof.PipelineProps Proof.NarWriterTree Proof.NarWriterExact Proof.NarExtract.
Ltac Zify.zify_post_hook ::= idtac.

(** * What a Reader reports *)
Lemma reads_run ns : forall r l r', rd_reads ns r = (l, r') ->
  exists k, rd_run (map ORead ns) r = (k, r') /\ headers_of k = [].
Proof.
  induction ns as [|n ns IH]; intros r l r' H; cbn [rd_reads] in H; cbn [map rd_run].
  - injection H as <- <-. eauto.
  - cbn [rd_step]. destruct (rd_Read n r) as [[b e] r1]. destruct (rd_reads ns r1) as [l1 r2] eqn:E. injection H as <- <-.
    destruct (IH _ _ _ E) as (k & -> & K). eexists. split; [reflexivity|]. exact K.
Qed.
Lemma rd_run_app a : forall b r, rd_run (a ++ b) r = let '(l1, r1) := rd_run a r in let '(l2, r2) := rd_run b r1 in (l1 ++ l2, r2).
Proof.
  induction a as [|x a IH]; intros b r; cbn [app rd_run]; [destruct (rd_run b r); reflexivity|].
  destruct (rd_step x r) as [y r1]. rewrite IH. destruct (rd_run a r1) as [l1 r2]. destruct (rd_run b r2) as [l2 r3]. reflexivity.
Qed.
Lemma headers_app a b : headers_of (a ++ b) = headers_of a ++ headers_of b.
Proof. induction a as [|[[h|e|w]|x y|z] a IH]; cbn [app headers_of]; rewrite ?IH; reflexivity. Qed.
Lemma session_run plans : forall r o r', session plans r = (o, r') ->
  exists ops l, no_close ops /\ rd_run ops r = (l, r') /\ headers_of l = ok_headers o.
Proof.
  induction plans as [|ns plans IH]; intros r o r' H; cbn [session] in H.
  - injection H as <- <-. exists [], []. split; [intros []|]. auto.
  - destruct (Next r) as [h r1] eqn:EN. destruct (rd_reads ns r1) as [l1 r2] eqn:ER. destruct (session plans r2) as [o2 r3] eqn:ES. injection H as <- <-.
    destruct (reads_run _ _ _ _ ER) as (k & K1 & K2). destruct (IH _ _ _ ES) as (ops & l & N & R & E).
    exists (ONext :: map ORead ns ++ ops), (SNext h :: k ++ l). split.
    { intros [X|X]; [discriminate X|]. apply in_app_iff in X. destruct X as [X|X]; [|exact (N X)]. apply in_map_iff in X. destruct X as (? & X & _). discriminate X. }
    cbn [rd_run rd_step]. rewrite EN, rd_run_app, K1, R. split; [reflexivity|]. unfold ok_headers. cbn [map concat fst].
    fold (ok_headers o2). rewrite <- E. destruct h; cbn [headers_of]; rewrite headers_app, K2; reflexivity.
Qed.
Lemma rewritten_headers o : map fst (rewritten o) = ok_headers o.
Proof.
  unfold rewritten, ok_headers. induction o as [|[[h|e|w] l] o IH]; cbn [map concat fst snd app]; rewrite ?IH; reflexivity.
Qed.
Lemma read_len n r b e r' : rd_Read n r = (b, e, r') -> (lenN b <= n)%N.
Proof.
  unfold rd_Read. destruct (rd_content r) as [br|]; [|intros H; injection H as <- _ _; unfold lenN; cbn [length]; lia].
  unfold br_read. destruct (lim_read n (br_rem br, rd_src r)) as [[b0 e0] [rem s]] eqn:E. intros H. injection H as <- _ _.
  eapply lim_read_spec in E; [|apply surjective_pairing]. apply E.
Qed.
Lemma chunks_small plans : forall r o r', Forall (Forall (fun n => n < 2 ^ 63)%N) plans -> session plans r = (o, r') ->
  Forall (fun x => Forall (fun p => lenN p < 2 ^ 63)%N (snd x)) (rewritten o).
Proof.
  induction plans as [|ns plans IH]; intros r o r' F H; cbn [session] in H.
  - injection H as <- <-. constructor.
  - destruct (Next r) as [h r1] eqn:EN. destruct (rd_reads ns r1) as [l1 r2] eqn:ER. destruct (session plans r2) as [o2 r3] eqn:ES. injection H as <- <-.
    inversion F as [|? ? F1 F2]; subst. unfold rewritten. cbn [map concat]. fold (rewritten o2). apply Forall_app. split; [|eapply IH; eassumption].
    destruct h; cbn [fst]; constructor; [|constructor]. cbn [fst snd]. clear -F1 ER. revert r1 l1 r2 ER.
    induction ns as [|n ns IH]; intros r1 l1 r2 ER; cbn [rd_reads] in ER; [injection ER as <- _; constructor|].
    inversion F1; subst. destruct (rd_Read n r1) as [[b e] ra] eqn:E1. destruct (rd_reads ns ra) as [l rb] eqn:E2. injection ER as <- <-.
    cbn [map fst]. constructor; [apply read_len in E1; lia|eapply IH; eassumption].
Qed.
(** * Neighbours *)
Lemma no_repeat_repeats hs : no_repeat (map hd_path hs) <-> no_repeats hs.
Proof.
  split.
  - intros H l1 h1 h2 l2 ->. rewrite map_app in H. induction l1 as [|a l1 IH]; cbn [map app] in H; [apply H|].
    destruct l1 as [|b l1]; [apply IH; apply H|]. apply IH. apply H.
  - induction hs as [|a [|b hs] IH]; intros H; [exact I..|]. split; [apply (H [] a b hs eq_refl)|]. apply IH. intros l1 h1 h2 l2 E.
    apply (H (a :: l1) h1 h2 l2). rewrite E. reflexivity.
Qed.
Lemma blt_of_lt m n : bcmp m n = Lt -> blt m n = true.
Proof. intros H. unfold blt. rewrite H. reflexivity. Qed.
Lemma neighbours hs css l1 h1 h2 l2 : tree_like hs -> path_list hs css -> no_repeats hs -> hs = l1 ++ h1 :: h2 :: l2 -> hdr_follows h1 h2.
Proof.
  intros T P R E. pose proof (no_repeats_nodup _ _ P R) as ND. pose proof (R _ _ _ _ E) as NE.
  destruct (path_list_at _ _ _ _ _ P E) as (k1 & c1 & k2 & _ & H1 & E1 & _ & P2 & F).
  destruct (path_list_at _ _ [] h2 l2 P2 eq_refl) as (j1 & c2 & j2 & -> & H2 & E2 & _).
  assert (L : ccmp c1 c2 <> Gt) by (apply (proj1 (Forall_forall _ _) F); apply in_app_iff; right; left; reflexivity).
  exists c1, c2. repeat (split; [assumption|]).
  destruct c2 as [|n b _] using rev_ind.
  { exfalso. destruct c1; [congruence|]. apply L. reflexivity. }
  destruct (parents hs css T P _ (l1 ++ [h1]) h2 l2 b n eq_refl) as (a & d & e & D0 & D1 & D2); [rewrite E, <- app_assoc; reflexivity|assumption..|].
  assert (Eb : ecomps b) by (apply Forall_app in E2; apply E2).
  destruct e as [|e0 e] using rev_ind.
  - apply app_inj_tail in D0. destruct D0 as [-> ->]. left. split; [exact D1|]. exists n. f_equal. apply e_path_of_inj; congruence.
  - clear IHe. rewrite app_comm_cons, app_assoc in D0. apply app_inj_tail in D0. destruct D0 as [-> ->].
    assert (E' : hs = a ++ d :: (e ++ e0 :: h2 :: l2)) by (rewrite E, <- app_assoc; reflexivity).
    destruct (path_list_at _ _ _ _ _ P E') as (q1 & cd & q2 & _ & Hd & Ed & _ & Pd & Fd).
    destruct (path_list_at _ _ _ _ _ Pd eq_refl) as (q3 & c1' & q4 & -> & H1' & E1' & _).
    assert (c1' = c1) as -> by (apply e_path_of_inj; congruence). assert (cd = b) as -> by (apply e_path_of_inj; congruence).
    assert (L2 : ccmp b c1 <> Gt) by (apply (proj1 (Forall_forall _ _) Fd); apply in_app_iff; right; left; reflexivity).
    destruct (ccmp_between b c1 [n] L2 L) as (z & ->). destruct z as [|m z].
    + exfalso. rewrite app_nil_r in H1. rewrite E', map_app in ND. cbn [map] in ND. apply NoDup_remove_2 in ND. apply ND.
      rewrite map_app, !in_app_iff. cbn [map In]. right. right. left. congruence.
    + right. exists b, m, z, n. split; [reflexivity|]. split; [reflexivity|]. rewrite ccmp_app in L. cbn [ccmp] in L.
      destruct (bcmp m n) eqn:B; [|apply blt_of_lt; exact B|congruence]. exfalso. apply bcmp_eq in B. subst m.
      destruct z as [|z0 z]; [|apply L; reflexivity]. apply NE. congruence.
Qed.
Lemma all_linked its : (forall l1 h1 h2 l2, map fst its = l1 ++ h1 :: h2 :: l2 -> hdr_follows h1 h2) -> linked its.
Proof.
  induction its as [|[h c] its IH]; intros H; [exact I|]. apply linked_cons.
  - apply IH. intros l1 h1 h2 l2 E. apply (H (h :: l1) h1 h2 l2). cbn [map fst]. rewrite E. reflexivity.
  - destruct its as [|[h2 c2] its]; [exact I|]. apply (H [] h h2 (map fst its)). reflexivity.
Qed.
(** * A Writer accepts whatever is linked *)
Lemma linked_session o it its hist : hd_path (fst it) = bs "/" -> linked (it :: its) -> Forall good_item (it :: its) -> history_of (it :: its) hist ->
  exists r0 w res r1 r2 t, NewWriter (Sink o []) = (Ok r0, w) /\ wsession hist r0 = (res, r1) /\ all_ok hist res /\
    wr_Close r1 = (WOk, r2) /\ writable t /\ out (wr_sink r2) = o ++ nar t /\ items [] t = it :: its.
Proof.
  intros Hroot HL HG Hh.
  destruct (WriteString_perfect (Sink o []) narVersionMagic1 eq_refl) as (w & EN & PW).
  assert (EN' : NewWriter (Sink o []) = (Ok (WR w WFirst CWNil false), w)) by (unfold NewWriter; rewrite EN; reflexivity).
  assert (S : exists res r1 z h c, wsession hist (WR w WFirst CWNil false) = (res, r1) /\ all_ok hist res /\
     log_of hist res = it :: its /\ winv o z h c r1 /\ complete h c /\ plan (wr_sink r1) = []).
  { destruct it as [h0 c0]. inversion Hh as [|? [h ps] ? hist' [Hx1 [Hx2 Hx3]] Hh']; subst. cbn [fst snd] in *. subst h.
    inversion HG as [|? ? (G1 & [G2 GW] & G3 & G4) HG']; subst. cbn [fst snd] in *.
    destruct (NewWriter_ok _ _ _ EN') as [_ Hw0]. cbn [out] in Hw0.
    assert (E1 : exists r1, WriteHeader h0 (WR w WFirst CWNil false) = (WOk, r1) /\ plan (wr_sink r1) = []).
    { unfold WriteHeader. rewrite G2. cbn [wr_closed wr_gor wr_cw wr_sink]. rewrite Hroot. rewrite beq_refl. cbn [negb].
      destruct (emit_head_perfect h0 CWNil w PW) as (cw' & w' & -> & P). eauto. }
    destruct E1 as (r1 & E1 & P1). pose proof (first_ok _ _ _ _ G1 Hw0 E1) as Hi1.
    destruct (writes_succeed _ _ _ ps [] r1 Hi1 P1 Hx3 G3 G4) as (r2 & E2 & P2).
    pose proof (writes_ok _ _ _ _ _ _ _ _ Hi1 Hx3 E2) as Hi2. rewrite accepted_all in Hi2. cbn [app] in Hi2.
    destruct (rest_succeeds o its hist' _ _ _ _ Hh' HG' HL Hi2 G3 P2) as (res & r' & z' & h' & c' & E3 & A & Lg & Hi' & C' & P').
    exists ((WOk, map (fun p => (length p, WOk)) ps) :: res), r', z', h', c'. cbn [wsession]. rewrite E1, E2, E3.
    split; [reflexivity|]. split; [constructor; [auto|exact A]|]. split; [cbn [log_of]; rewrite accepted_all, Lg; reflexivity|].
    auto. }
  destruct S as (res & r1 & z & h & c & ES & A & Lg & Hi & HC & HP).
  assert (EC : exists r2, wr_Close r1 = (WOk, r2)).
  { destruct (cw_close_perfect _ _ _ _ _ Hi HC HP) as (cw & w2 & HCC & P2).
    destruct Hi as [Hg Ho _ _ _ _]. unfold wr_Close. rewrite Ho, Hg, HCC.
    destruct (finish_perfect (zup z) w2 P2) as (w3 & ->). eauto. }
  destruct EC as (r2 & EC).
  destruct (session_sound _ _ _ _ _ _ _ EN' ES (all_ok_WOk _ _ A) EC) as (t & T1 & T2 & T3).
  - eapply history_careful; eassumption.
  - eapply no_repeat_linked; eassumption.
  - exists (WR w WFirst CWNil false), w, res, r1, r2, t. rewrite Lg in T3. auto 10.
Qed.

(** * The copy of any stream *)
Lemma contents_fst hist : map fst (contents hist) = map fst hist.
Proof. unfold contents. rewrite map_map. reflexivity. Qed.
Lemma reader_gives s r s1 plans o r' : NewReader s = (Ok r, s1) -> session plans r = (o, r') ->
  tree_like (ok_headers o) /\ Forall hd_fields (ok_headers o) /\ exists css, path_list (ok_headers o) css /\ Forall short css.
Proof.
  intros HN HS. destruct (session_run _ _ _ _ HS) as (ops & l & Hc & HR & <-).
  destruct (NarReaderAny.new_inv _ _ _ HN) as (H1 & H2 & _).
  destruct (NarReaderAny.run_inv ops [] _ r l r' H1 H2 Hc HR) as ((_ & H3 & _) & _). split; [exact H3|].
  split; [exact (run_fields ops [] _ r l r' H1 H2 Hc HR)|]. eapply reported_short; eassumption.
Qed.
Definition reader_header (h : header) : Prop :=
  hd_fields h /\ exists cs, hd_path h = path_of cs /\ ecomps cs /\ short cs.
Lemma reader_headers s r s1 plans o r' : NewReader s = (Ok r, s1) -> session plans r = (o, r') ->
  Forall (fun x => reader_header (fst x)) (rewritten o).
Proof.
  intros HN HS. destruct (reader_gives _ _ _ _ _ _ HN HS) as (_ & F & css & (P1 & P2 & _) & Q).
  rewrite <- rewritten_headers in *. apply Forall_forall. intros x I.
  assert (I1 : In (fst x) (map fst (rewritten o))) by (apply in_map; exact I). split; [rewrite Forall_forall in F; apply F; exact I1|].
  assert (I2 : In (hd_path (fst x)) (map path_of css)) by (rewrite <- P1; apply in_map; exact I1).
  apply in_map_iff in I2. destruct I2 as (cs & E & I2). rewrite Forall_forall in P2, Q. exists cs. auto.
Qed.
Lemma reader_careful h : reader_header h -> careful h /\ go_header h.
Proof.
  intros (F & cs & E & C & S). split.
  - split; [exists cs; auto|]. unfold known_type. destruct F as [(A & B & _)|[(A & B & _)|(A & B & _)]]; rewrite B || idtac; (split; [tauto|]); lia.
  - split.
    + rewrite E, e_split_path_of by exact C. constructor; [reflexivity|]. destruct cs as [|c cs]; [constructor; [reflexivity|constructor]|].
      eapply Forall_impl; [|exact S]. intros x X. unfold lenN. cbn beta in X. lia.
    + destruct F as [(_ & _ & ->)|[(_ & _ & _ & L)|(_ & _ & _ & ->)]]; [reflexivity| |reflexivity]. eapply N.le_lt_trans; [exact L|reflexivity].
Qed.
Lemma reader_good h c : reader_header h -> (hd_type h = bs "symlink" -> hd_target h <> []) ->
  Forall writer_name (split_byte (hd_path h) "/"%byte) -> Z.of_nat (length c) = hd_size h -> good_item (h, c).
Proof.
  intros R T W L. pose proof R as (F & cs & E & C & S). unfold good_item. cbn [fst snd]. split; [apply reader_careful; exact R|].
  split; [split|split].
  - apply validate_header_exact. split; [rewrite E; eexists; reflexivity|]. split; [rewrite E; apply e_path_of_no_nul; exact C|].
    destruct F as [(A1 & A2 & A3)|[(A1 & A2 & A3 & A4)|(A1 & A2 & A3 & A4)]]; rewrite A1 in *; (split; [intros X|split; intros X]);
      try (destruct X as [X|X]; discriminate X); try discriminate X; auto.
  - exists cs. split; [exact E|]. split; [exact C|]. rewrite E in W. apply (comps_split _ _ C W).
  - unfold complete. intros _. unfold lenN. lia.
  - intros X. destruct F as [(A1 & _)|[(_ & A2 & _)|(_ & A2 & _)]]; [congruence| |]; rewrite A2 in L; destruct c; [reflexivity|discriminate L|reflexivity|discriminate L].
Qed.
Lemma history_contents hist : Forall (fun x => Forall (fun p => lenN p < 2 ^ 63)%N (snd x)) hist -> history_of (contents hist) hist.
Proof. induction 1 as [|x hist H _ IH]; constructor; [|exact IH]. cbn [fst snd]. split; [reflexivity|]. split; [reflexivity|exact H]. Qed.
Lemma copy_succeeds s r s1 plans o r' out0 : NewReader s = (Ok r, s1) -> session plans r = (o, r') -> buffers_ok plans ->
  copyable (rewritten o) ->
  exists r0 w res r1 r2 t, NewWriter (Sink out0 []) = (Ok r0, w) /\ wsession (rewritten o) r0 = (res, r1) /\ all_ok (rewritten o) res /\
    wr_Close r1 = (WOk, r2) /\ writable t /\ out (wr_sink r2) = out0 ++ nar t /\ items [] t = contents (rewritten o).
Proof.
  intros HN HS HB [C1 C2 C3 C4 C5]. pose proof (reader_headers _ _ _ _ _ _ HN HS) as RH. destruct (reader_gives _ _ _ _ _ _ HN HS) as (T & _ & css & P & _).
  pose proof (history_contents _ (chunks_small _ _ _ _ HB HS)) as H. rewrite <- rewritten_headers in T, P.
  assert (G : Forall good_item (contents (rewritten o))).
  { apply Forall_forall. intros it I. apply in_map_iff in I. destruct I as (x & <- & I). rewrite Forall_forall in *. apply reader_good; auto. }
  assert (L : linked (contents (rewritten o))).
  { apply all_linked. rewrite contents_fst. intros l1 h1 h2 l2 E. eapply neighbours; [exact T|exact P| |exact E].
    apply no_repeat_repeats. rewrite map_map. exact C2. }
  destruct (rewritten o) as [|x hist] eqn:EO; [congruence|]. cbn [contents map] in *. apply linked_session; [|exact L|exact G|exact H].
  cbn [fst]. apply T.
Qed.
Lemma copy_exact s r s1 plans o r' w0 r0 w res r1 r2 : NewReader s = (Ok r, s1) -> session plans r = (o, r') -> buffers_ok plans ->
  NewWriter w0 = (Ok r0, w) -> wsession (rewritten o) r0 = (res, r1) -> all_ok (rewritten o) res -> wr_Close r1 = (WOk, r2) ->
  (exists t, valid_tree t /\ go_sized t /\ out (wr_sink r2) = out w0 ++ nar t) <-> no_repeat (map (fun x => hd_path (fst x)) (rewritten o)).
Proof.
  intros HN HS HB EN ES A EC. apply (writer_exact w0 r0 w (rewritten o) res r1 r2 EN ES (all_ok_WOk _ _ A) EC).
  pose proof (reader_headers _ _ _ _ _ _ HN HS) as RH. pose proof (chunks_small _ _ _ _ HB HS) as CS.
  rewrite Forall_forall in *. intros x I. destruct (reader_careful _ (RH x I)). auto.
Qed.
Lemma copy_tree s r s1 plans o r' w0 r0 w res r1 r2 : NewReader s = (Ok r, s1) -> session plans r = (o, r') -> buffers_ok plans ->
  NewWriter w0 = (Ok r0, w) -> wsession (rewritten o) r0 = (res, r1) -> all_ok (rewritten o) res -> wr_Close r1 = (WOk, r2) ->
  no_repeat (map (fun x => hd_path (fst x)) (rewritten o)) ->
  exists t, writable t /\ out (wr_sink r2) = out w0 ++ nar t /\ items [] t = contents (rewritten o).
Proof.
  intros HN HS HB EN ES A EC NR.
  pose proof (reader_headers _ _ _ _ _ _ HN HS) as RH. pose proof (chunks_small _ _ _ _ HB HS) as CS.
  destruct (session_sound _ _ _ _ _ _ _ EN ES (all_ok_WOk _ _ A) EC) as (t & T1 & T2 & T3); [|exact NR|].
  - rewrite Forall_forall in *. intros x I. destruct (reader_careful _ (RH x I)). auto.
  - exists t. split; [exact T1|]. split; [exact T2|]. rewrite T3. apply log_all; [apply history_contents; exact CS|exact A].
Qed.
Lemma tree_copyable t hist : writable t -> items [] t = contents hist -> no_repeat (map (fun x => hd_path (fst x)) hist) ->
  copyable hist.
Proof.
  intros W E NR. pose proof (items_good t [] W (conj (Forall_nil _) (Forall_nil _))) as G. rewrite E in G.
  assert (G' : Forall (fun x => good_item (fst x, concat (snd x))) hist).
  { apply Forall_forall. intros x I. rewrite Forall_forall in G. apply G. apply in_map_iff. eauto. }
  split.
  - intros ->. destruct (items_head [] t) as (l & X). rewrite X in E. discriminate E.
  - exact NR.
  - eapply Forall_impl; [|exact G']. intros x (((_ & _) & K & S) & [V _] & C & D). cbn [fst snd] in *. unfold complete in C.
    apply validate_header_exact in V. destruct V as (_ & _ & _ & V & _). destruct K as [K|K].
    + specialize (C K). unfold lenN in C. lia.
    + destruct (V ltac:(tauto)) as [-> _]. rewrite D; [reflexivity|]. destruct K as [ -> | -> ]; discriminate.
  - eapply Forall_impl; [|exact G']. intros x (_ & [V _] & _) T. cbn [fst] in *. apply validate_header_exact in V. apply V. exact T.
  - eapply Forall_impl; [|exact G']. intros x (_ & [_ (b & Eb & Cb & Wb)] & _). cbn [fst] in *. change (hd_path (fst x)) with (hd_path (@fst header (list (list byte)) x)). rewrite Eb, e_split_path_of by exact Cb.
    constructor; [discriminate|]. destruct b; [constructor; [discriminate|constructor]|exact Wb].
Qed.
