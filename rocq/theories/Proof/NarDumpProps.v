(** DumpPath. *)
From Verif Require Import Base.Bytes Base.BytesFacts Model.GoIO Model.GoStd Model.Wire Model.Nar
  Model.NarWriter Model.NarDump Spec.WireSpec Spec.NarSpec Spec.NarWHist Spec.NarDumpSpec
  Proof.WireFacts Proof.NarPath Proof.EntryPath Proof.NarReaderFacts Proof.NarWriterSound Proof.NarWriterComplete.
Ltac Zify.zify_post_hook ::= idtac.

Lemma fs_ind2 (P : fs -> Prop) :
  (forall m s d, P (FReg m s d)) -> (forall m s e, P (FRegUnreadable m s e)) ->
  (forall t, P (FSym t)) -> (forall e, P (FSymUnreadable e)) ->
  (forall es, Forall (fun e => P (snd e)) es -> P (FDir es)) -> (forall e, P (FDirUnreadable e)) ->
  P FSpecial -> (forall e, P (FGone e)) -> forall f, P f.
Proof.
  intros H1 H2 H3 H4 H5 H6 H7 H8. fix IH 1. intros [m s d|m s e|t|e|es|e| |e];
    [apply H1|apply H2|apply H3|apply H4| |apply H6|apply H7|apply H8]. apply H5.
  induction es as [|[n t] es IHes]; constructor; [apply IH|exact IHes].
Qed.

(** * Sessions concatenate *)
Lemma wsession_app a : forall b r, wsession (a ++ b) r =
  (let '(x, r1) := wsession a r in let '(y, r2) := wsession b r1 in (x ++ y, r2)).
Proof.
  induction a as [|[h ps] a IH]; intros b r; cbn [app wsession].
  - destruct (wsession b r); reflexivity.
  - destruct (WriteHeader h r) as [x r1]. destruct (wr_writes ps r1) as [l r2]. rewrite IH.
    destruct (wsession a r2) as [y r3]. destruct (wsession b r3) as [z r4]. reflexivity.
Qed.
Lemma log_of_app a : forall b x y, length a = length x -> log_of (a ++ b) (x ++ y) = log_of a x ++ log_of b y.
Proof.
  induction a as [|[h ps] a IH]; intros b [|[w l] x] y H; try discriminate; [reflexivity|].
  cbn [app log_of]. rewrite IH by (injection H; auto). reflexivity.
Qed.
Lemma wsession_length a : forall r x r', wsession a r = (x, r') -> length a = length x.
Proof.
  induction a as [|[h ps] a IH]; intros r x r'; cbn [wsession]; [intros H; inversion H; reflexivity|].
  destruct (WriteHeader h r) as [w r1]. destruct (wr_writes ps r1) as [l r2].
  destruct (wsession a r2) as [y r3] eqn:E. intros H; inversion H; subst. cbn [length]. f_equal. eapply IH; eauto.
Qed.
Lemma wr_writes_app a : forall b r, wr_writes (a ++ b) r =
  (let '(x, r1) := wr_writes a r in let '(y, r2) := wr_writes b r1 in (x ++ y, r2)).
Proof.
  induction a as [|p a IH]; intros b r; cbn [app wr_writes].
  - destruct (wr_writes b r); reflexivity.
  - destruct (wr_Write p r) as [x r1]. rewrite IH. destruct (wr_writes a r1) as [y r2]. destruct (wr_writes b r2). reflexivity.
Qed.

(** * io.Copy *)
Definition short (p : bytes) : Prop := (lenN p < 2 ^ 63)%N.
Lemma src_read_pos n s b e s' : (0 < n < 2 ^ 63)%N -> src_read n s = (b, e, s') ->
  src_data s = b ++ src_data s' /\ fin s' = fin s /\ short b /\
  (e = None -> src_size s' < src_size s) /\ (forall er, e = Some er -> er = fin s /\ src_data s' = []).
Proof.
  intros Hn H. pose proof (src_read_spec _ _ _ _ _ H) as (F & L & E & Hnil & _).
  assert (src_data s = b ++ src_data s' /\ fin s = fin s') as [F1 F2] by (unfold flat in F; inversion F; auto).
  split; [exact F1|]. split; [auto|]. split; [unfold short; lia|]. split.
  - intros ->. unfold src_read in H. destruct (chunks s) as [|c cs] eqn:Ec; [discriminate|].
    unfold src_size. rewrite Ec.
    destruct (N.leb_spec (lenN c) n); inversion H; subst; cbn [chunks length]; unfold src_data; rewrite ?Ec; cbn [chunks concat].
    + rewrite app_length. lia.
    + rewrite !app_length, skipn_length. unfold lenN in *. lia.
  - intros er ->. destruct E as [E|(E & Ed & _)]; [discriminate|]. split; [congruence|exact Ed].
Qed.
Lemma src_read_32k s b e s' : src_read 32768%N s = (b, e, s') ->
  src_data s = b ++ src_data s' /\ fin s' = fin s /\ short b /\
  (e = None -> src_size s' < src_size s) /\ (forall er, e = Some er -> er = fin s /\ src_data s' = []).
Proof. apply src_read_pos. split; reflexivity. Qed.
Lemma copy_sound fuel : forall s n r n' r', io_copy fuel s n r = ((n', WOk), r') ->
  fin s = EEOF /\ exists ps l, Forall short ps /\ concat ps = src_data s /\ wr_writes ps r = (l, r') /\
    accepted ps l = concat ps /\ n' = (n + Z.of_nat (length (src_data s)))%Z.
Proof.
  induction fuel as [|f IH]; intros s n r n' r'; cbn [io_copy]; [discriminate|].
  destruct (src_read 32768%N s) as [[b e] s'] eqn:ER. destruct (src_read_32k _ _ _ _ ER) as (D & F & Sh & _ & Ee).
  set (M := match b with [] => _ | _ => _ end). destruct M as [ok [n1 r1]] eqn:EM.
  assert (W : ok = WOk -> exists ps l, Forall short ps /\ concat ps = b /\ wr_writes ps r = (l, r1) /\
     accepted ps l = concat ps /\ length ps = length l /\ n1 = (n + Z.of_nat (length b))%Z).
  { intros ->. subst M. destruct b as [|b0 b].
    - inversion EM; subst. exists [], []. repeat split; auto. cbn. lia.
    - destruct (wr_Write (b0 :: b) r) as [[k x] r2] eqn:EW. destruct x; try discriminate.
      destruct (Nat.eqb_spec k (length (b0 :: b))) as [Ek|]; [|discriminate]. inversion EM; subst n1 r2.
      exists [b0 :: b], [(k, WOk)]. split; [auto|]. split; [cbn [concat]; apply app_nil_r|]. cbn [wr_writes]. rewrite EW.
      split; [reflexivity|]. split; [cbn [accepted concat]; rewrite Ek, firstn_all; reflexivity|]. split; [reflexivity|]. rewrite Ek. reflexivity. }
  destruct ok; try discriminate. destruct (W eq_refl) as (ps & l & W1 & W2 & W3 & W4 & W5 & W6). clear W.
  destruct e as [er|].
  - destruct (Ee _ eq_refl) as [-> Es]. destruct (fin s) eqn:Ef; try discriminate.
    intros H; inversion H; subst n' r1. split; [reflexivity|]. exists ps, l. rewrite D, Es, app_nil_r. auto.
  - intros H. destruct (IH _ _ _ _ _ H) as (F' & ps' & l' & P1 & P2 & P3 & P4 & P5). split; [congruence|].
    exists (ps ++ ps'), (l ++ l'). split; [apply Forall_app; auto|]. split; [rewrite concat_app, W2, P2; auto|].
    split; [rewrite wr_writes_app, W3, P3; reflexivity|]. split.
    + rewrite concat_app, <- P4, <- W4. clear - W5. revert l W5. induction ps as [|p ps IHp]; intros [|[k x] l] W5; try discriminate; [reflexivity|].
      cbn [app accepted]. rewrite <- app_assoc, IHp by (injection W5; auto). reflexivity.
    + rewrite P5, W6, D, app_length. lia.
Qed.
Lemma copy_complete fuel : forall s, src_size s < fuel -> fin s = EEOF ->
  exists ps, Forall short ps /\ concat ps = src_data s /\
  forall n r r', wr_writes ps r = (map (fun p => (length p, WOk)) ps, r') ->
    io_copy fuel s n r = (((n + Z.of_nat (length (src_data s)))%Z, WOk), r').
Proof.
  induction fuel as [|f IH]; intros s Hf He; [lia|].
  cbn [io_copy]. destruct (src_read 32768%N s) as [[b e] s'] eqn:ER. destruct (src_read_32k _ _ _ _ ER) as (D & F & Sh & Sz & Ee).
  assert (R : exists ps', Forall short ps' /\ concat ps' = src_data s' /\
    forall n r r', wr_writes ps' r = (map (fun p => (length p, WOk)) ps', r') ->
     match e with None => io_copy f s' n r | Some EEOF => ((n, WOk), r) | Some er => ((n, WErr er), r) end =
     (((n + Z.of_nat (length (src_data s')))%Z, WOk), r')).
  { destruct e as [er|].
    - destruct (Ee _ eq_refl) as [-> Es]. rewrite He, Es. exists []. split; [constructor|]. split; [reflexivity|].
      intros n r r' H. cbn [wr_writes map] in H. inversion H; subst. cbn [length]. change (Z.of_nat 0) with 0%Z. rewrite Z.add_0_r. reflexivity.
    - destruct (IH s') as (ps' & P); [specialize (Sz eq_refl); lia|congruence|]. exists ps'. exact P. }
  destruct R as (ps' & P1 & P2 & P3). destruct b as [|b0 b].
  - exists ps'. rewrite D. cbn [app]. split; [exact P1|]. split; [exact P2|]. intros n r r' H. apply P3. exact H.
  - exists ((b0 :: b) :: ps'). split; [auto|]. split; [cbn [concat]; rewrite P2, D; reflexivity|].
    intros n r r' H. cbn [wr_writes map] in H. destruct (wr_Write (b0 :: b) r) as [x r1] eqn:EW.
    destruct (wr_writes ps' r1) as [l r2] eqn:E2. injection H as -> -> ->. rewrite Nat.eqb_refl.
    rewrite (P3 _ _ _ E2), D, app_length, Nat2Z.inj_add, Z.add_assoc. reflexivity.
Qed.

(** * The walk *)
Lemma exec_bit m : negb (N.eqb (N.land m S_IXUSR) 0) = N.testbit m 6.
Proof.
  change S_IXUSR with (2 ^ 6)%N. destruct (N.testbit m 6) eqn:E.
  - destruct (N.eqb_spec (N.land m (2 ^ 6)) 0) as [H|H]; [|reflexivity].
    apply (f_equal (fun x => N.testbit x 6)) in H. rewrite N.land_spec, N.pow2_bits_true, E in H. discriminate H.
  - destruct (N.eqb_spec (N.land m (2 ^ 6)) 0) as [H|H]; [reflexivity|]. exfalso. apply H.
    apply N.bits_inj. intros i. rewrite N.land_spec, N.bits_0, N.pow2_bits_eqb.
    destruct (N.eqb_spec 6 i) as [<-|]; [rewrite E; reflexivity|apply andb_false_r].
Qed.
Lemma rejected_kept flt root cs f : rejected flt root (path_of cs) f = negb (kept (keep_of flt) root cs f).
Proof.
  unfold rejected, kept, keep_of, full_path. destruct flt as [k|]; destruct f; reflexivity.
Qed.
Definition oitems (cs : list bytes) (t : option node) : list (header * bytes) :=
  match t with Some t => items cs t | None => [] end.
Definition hist_ok (hist : list (header * list bytes)) : Prop :=
  Forall (fun x => careful (fst x) /\ Forall (fun p => lenN p < 2 ^ 63)%N (snd x)) hist.

Section Walk.
Variable flt : option (bytes -> bytes -> bool).
Variable root : bytes.
Let keep := keep_of flt.
Definition dump_list (subpath : bytes) := fix loop (es : list (bytes * fs)) (r : wr) : wres * wr :=
  match es with
  | [] => (WOk, r)
  | (name, c) :: es' =>
      let '(x, r) := dumpPath flt root c (Join2 subpath name) r in
      match x with WOk => loop es' r | _ => (x, r) end
  end.
Definition sub_trees (cs : list bytes) (es : list (bytes * fs)) : list (bytes * node) :=
  concat (map (fun e => match tree_of keep root (cs ++ [fst e]) (snd e) with
                        | Some t => [(fst e, t)]
                        | None => []
                        end) es).
Lemma sub_items cs n f es : eitems cs (sub_trees cs ((n, f) :: es)) =
  oitems (cs ++ [n]) (tree_of keep root (cs ++ [n]) f) ++ eitems cs (sub_trees cs es).
Proof.
  unfold sub_trees. cbn [map concat fst snd]. fold (sub_trees cs es).
  destruct (tree_of keep root (cs ++ [n]) f); [|reflexivity]. reflexivity.
Qed.
Lemma one_header h x ps l r r1 r2 : WriteHeader h r = (WOk, r1) -> wr_writes ps r1 = (l, r2) ->
  careful h -> Forall short ps -> accepted ps l = x ->
  exists hist res, wsession hist r = (res, r2) /\ Forall (fun x => fst x = WOk) res /\ log_of hist res = [(h, x)] /\ hist_ok hist.
Proof.
  intros H1 H2 Hc Hp Hx. exists [(h, ps)], [(WOk, l)]. cbn [wsession]. rewrite H1, H2. split; [reflexivity|].
  split; [auto|]. split; [cbn [log_of]; rewrite Hx; reflexivity|]. constructor; [split; assumption|constructor].
Qed.
Lemma careful_intro cs ty tg sz ex : ecomps cs ->
  ty = TypeRegular \/ ty = TypeDirectory \/ ty = TypeSymlink -> (0 <= sz < 2 ^ 63)%Z ->
  careful (Header (path_of cs) ty tg sz ex).
Proof. intros H1 H2 H3. split; [exists cs; auto|]. split; [exact H2|exact H3]. Qed.
Lemma dump_sound f : forall cs r r', fs_ok f -> ecomps cs ->
  dumpPath flt root f (path_of cs) r = (WOk, r') ->
  intact keep root cs f /\
  exists hist res, wsession hist r = (res, r') /\ Forall (fun x => fst x = WOk) res /\
    log_of hist res = oitems cs (tree_of keep root cs f) /\ hist_ok hist.
Proof.
  induction f as [m s d|m s e|t|e|es IH|e| |e] using fs_ind2; intros cs r r' Hok Hcs; cbn [dumpPath];
    rewrite rejected_kept; fold keep; cbn [intact tree_of];
    (match goal with |- context [kept _ _ _ ?f] => destruct (kept keep root cs f) eqn:K end; cbn [negb];
     [|intros H; inversion H; subst; split; [exact I|]; exists [], []; repeat split; auto; constructor]).
  - destruct (WriteHeader _ r) as [x r1] eqn:E1. destruct x; try discriminate.
    destruct (io_copy _ d 0 r1) as [[n x] r2] eqn:E2. destruct x; try discriminate.
    destruct (Z.eqb_spec n s) as [->|]; [|discriminate]. intros H; inversion H; subst r2.
    destruct (copy_sound _ _ _ _ _ _ E2) as (F & ps & l & P1 & P2 & P3 & P4 & P5). inversion Hok; subst.
    split; [split; [exact F|]; lia|].
    destruct (one_header _ _ _ _ _ _ _ E1 P3 (careful_intro _ _ _ _ _ Hcs (or_introl eq_refl) H1) P1 eq_refl) as (hist & res & S1 & S2 & S3 & S4).
    exists hist, res. split; [exact S1|]. split; [exact S2|]. split; [|exact S4].
    rewrite S3, P4, P2, exec_bit. cbn [oitems items hdr_of content_of]. rewrite Z.add_0_l. reflexivity.
  - destruct (WriteHeader _ r) as [x r1]. destruct x; discriminate.
  - intros H. split.
    { unfold WriteHeader in H. destruct (hd_Validate _) as [[]| |] eqn:V; [|discriminate..].
      intros ->. apply NarUtilProps.validate_header_exact in V. destruct V as (_ & _ & _ & _ & V). apply V; reflexivity. }
    apply (one_header _ [] [] [] r r' r' H eq_refl); [|constructor|reflexivity].
    apply careful_intro; [exact Hcs|right; right; reflexivity|lia].
  - discriminate.
  - destruct (WriteHeader _ r) as [x r1] eqn:E1. destruct x; try discriminate. fold (dump_list (path_of cs)). intros HL.
    fold (sub_trees cs es).
    inversion Hok as [| | | |? O1 O2 O3| | |]; subst.
    assert (G : fold_right (fun e P => intact keep root (cs ++ [fst e]) (snd e) /\ P) True es /\
      exists hist res, wsession hist r1 = (res, r') /\ Forall (fun x => fst x = WOk) res /\
       log_of hist res = eitems cs (sub_trees cs es) /\ hist_ok hist).
    { clear E1 Hok K O2. revert r1 HL. induction es as [|[n f] es IHes]; intros r1 HL.
      - cbn [dump_list] in HL. inversion HL; subst. split; [exact I|]. exists [], []. repeat split; auto; constructor.
      - cbn [dump_list] in HL. inversion IH as [|? ? IHx IHr]; subst. inversion O1; subst. inversion O3; subst. cbn [fst snd] in *.
        rewrite e_Join_path_of in HL by assumption.
        destruct (dumpPath flt root f (path_of (cs ++ [n])) r1) as [x r2] eqn:E1. destruct x; try discriminate.
        apply IHx in E1; [|assumption|apply Forall_app; split; auto].
        destruct E1 as (I1 & h1 & q1 & A1 & A2 & A3 & A4).
        destruct (IHes IHr H2 H4 r2 HL) as (I2 & h2 & q2 & B1 & B2 & B3 & B4).
        split; [cbn [fold_right fst snd]; auto|]. exists (h1 ++ h2), (q1 ++ q2).
        split; [rewrite wsession_app, A1, B1; reflexivity|]. split; [apply Forall_app; auto|].
        split; [rewrite log_of_app by (eapply wsession_length; eauto); rewrite A3, B3, sub_items; reflexivity|].
        apply Forall_app; auto. }
    destruct G as (I1 & h1 & q1 & A1 & A2 & A3 & A4). split; [exact I1|].
    destruct (one_header _ [] [] [] r r1 r1 E1 eq_refl) as (h0 & q0 & B1 & B2 & B3 & B4); [|constructor|reflexivity|].
    { apply careful_intro; [exact Hcs|right; left; reflexivity|lia]. }
    exists (h0 ++ h1), (q0 ++ q1). split; [rewrite wsession_app, B1, A1; reflexivity|]. split; [apply Forall_app; auto|].
    split; [|apply Forall_app; auto].
    rewrite log_of_app by (eapply wsession_length; eauto). rewrite B3, A3. reflexivity.
  - destruct (WriteHeader _ r) as [x r1]. destruct x; discriminate.
  - discriminate.
  - discriminate.
Qed.

Lemma history_nil hist : history_of [] hist -> hist = [].
Proof. intros H; inversion H; reflexivity. Qed.
Lemma all_ok_app a b x y : length a = length x -> all_ok (a ++ b) (x ++ y) -> all_ok a x /\ all_ok b y.
Proof.
  revert x. induction a as [|h a IH]; intros [|q x] L H; try discriminate; cbn [app] in *.
  - split; [constructor|exact H].
  - inversion H; subst. destruct (IH x) as [A B]; [injection L; auto|assumption|]. split; [constructor; assumption|exact B].
Qed.
Lemma one_ok h ps r res r' : wsession [(h, ps)] r = (res, r') -> all_ok [(h, ps)] res ->
  exists r1, WriteHeader h r = (WOk, r1) /\ wr_writes ps r1 = (map (fun p => (length p, WOk)) ps, r').
Proof.
  cbn [wsession]. destruct (WriteHeader h r) as [x r1] eqn:E1. destruct (wr_writes ps r1) as [l r2] eqn:E2. cbn [wsession].
  intros H; inversion H; subst. intros HA. inversion HA as [|? ? ? ? [A1 A2] _]; subst. cbn [fst snd] in *. subst.
  exists r1. auto.
Qed.
Lemma dump_complete f : forall cs, fs_ok f -> ecomps cs -> intact keep root cs f ->
  exists hist, history_of (oitems cs (tree_of keep root cs f)) hist /\
  forall r res r', wsession hist r = (res, r') -> all_ok hist res ->
    dumpPath flt root f (path_of cs) r = (WOk, r').
Proof.
  induction f as [m s d|m s e|t|e|es IH|e| |e] using fs_ind2; intros cs Hok Hcs; cbn [dumpPath];
    rewrite rejected_kept; fold keep; cbn [intact tree_of];
    (match goal with |- context [kept _ _ _ ?f] => destruct (kept keep root cs f) eqn:K end; cbn [negb];
     [|intros _; exists []; split; [constructor|]; intros r res r' H _; inversion H; reflexivity]).
  - intros [F Hs]. destruct (copy_complete (S (src_size d)) d) as (ps & P1 & P2 & P3); [lia|exact F|].
    exists [(Header (path_of cs) TypeRegular [] s (N.testbit m 6), ps)]. split.
    + cbn [oitems items content_of hdr_of]. constructor; [|constructor]. cbn [fst snd]. rewrite Hs. split; [reflexivity|].
      split; assumption.
    + intros r res r' H HA. destruct (one_ok _ _ _ _ _ H HA) as (r1 & E1 & E2). rewrite exec_bit, E1.
      rewrite (P3 0%Z r1 r' E2). rewrite Z.add_0_l, Hs, Z.eqb_refl. reflexivity.
  - intros [].
  - intros Ht. exists [(Header (path_of cs) TypeSymlink t 0 false, [])]. split.
    + constructor; [|constructor]. split; [reflexivity|]. split; [reflexivity|constructor].
    + intros r res r' H HA. destruct (one_ok _ _ _ _ _ H HA) as (r1 & E1 & E2). cbn [wr_writes map] in E2. inversion E2; subst. exact E1.
  - intros [].
  - intros Hi. fold (sub_trees cs es). inversion Hok as [| | | |? O1 O2 O3| | |]; subst. fold (dump_list (path_of cs)).
    assert (G : exists hist, history_of (eitems cs (sub_trees cs es)) hist /\
      forall r res r', wsession hist r = (res, r') -> all_ok hist res -> dump_list (path_of cs) es r = (WOk, r')).
    { clear Hok K O2. induction es as [|[n f] es IHes].
      - exists []. split; [constructor|]. intros r res r' H _. inversion H; reflexivity.
      - inversion IH as [|? ? IHx IHr]; subst. inversion O1; subst. inversion O3; subst. cbn [fst snd fold_right] in *.
        destruct Hi as [Hi1 Hi2]. destruct (IHes IHr Hi2 H2 H4) as (h2 & B1 & B2).
        destruct (IHx (cs ++ [n])) as (h1 & A1 & A2); [assumption|apply Forall_app; split; auto|exact Hi1|].
        exists (h1 ++ h2). split; [rewrite sub_items; apply Forall2_app; assumption|].
        intros r res r' H HA. rewrite wsession_app in H. destruct (wsession h1 r) as [q1 r1] eqn:E1.
        destruct (wsession h2 r1) as [q2 r2] eqn:E2. injection H as <- <-.
        apply all_ok_app in HA; [|eapply wsession_length; eauto]. destruct HA as [HA1 HA2].
        cbn [dump_list]. rewrite e_Join_path_of by assumption. rewrite (A2 _ _ _ E1 HA1). apply (B2 _ _ _ E2 HA2). }
    destruct G as (h2 & B1 & B2). exists ([(Header (path_of cs) TypeDirectory [] 0 false, [])] ++ h2). split.
    + cbn [oitems items app]. constructor; [|exact B1]. split; [reflexivity|]. split; [reflexivity|constructor].
    + intros r res r' H HA. rewrite wsession_app in H.
      destruct (wsession [(Header (path_of cs) TypeDirectory [] 0 false, [])] r) as [q1 r1] eqn:E1.
      destruct (wsession h2 r1) as [q2 r2] eqn:E2. injection H as <- <-.
      apply all_ok_app in HA; [|eapply wsession_length; eauto]. destruct HA as [HA1 HA2].
      destruct (one_ok _ _ _ _ _ E1 HA1) as (r3 & E3 & E4). cbn [wr_writes map] in E4. inversion E4; subst r3.
      rewrite E3. apply (B2 _ _ _ E2 HA2).
  - intros [].
  - intros [].
  - intros [].
Qed.

(** The tree is valid. *)
Lemma blt_trans x y z : blt x y = true -> blt y z = true -> blt x z = true.
Proof.
  unfold blt. destruct (bcmp x y) eqn:E1; try discriminate. destruct (bcmp y z) eqn:E2; try discriminate.
  rewrite (bcmp_lt_trans _ _ _ E1 E2). reflexivity.
Qed.
Lemma sub_names cs es x : In x (map fst (sub_trees cs es)) -> In x (map fst es).
Proof.
  induction es as [|[n f] es IH]; [auto|]. unfold sub_trees. cbn [map concat fst snd]. fold (sub_trees cs es).
  rewrite map_app, in_app_iff. intros [H|H]; [|right; auto].
  destruct (tree_of _ _ _ _); [|destruct H]. destruct H as [<-|[]]. left. reflexivity.
Qed.
Lemma sorted_lt x l : names_sorted (x :: l) -> forall y, In y l -> blt x y = true.
Proof.
  revert x. induction l as [|z l IH]; intros x H y Hy; [destruct Hy|]. destruct H as [H1 H2].
  destruct Hy as [<-|Hy]; [exact H1|]. eapply blt_trans; [exact H1|]. apply IH; assumption.
Qed.
Lemma sorted_cons x l : names_sorted l -> (forall y, In y l -> blt x y = true) -> names_sorted (x :: l).
Proof. destruct l as [|y l]; [intros; exact I|]. intros H1 H2. split; [apply H2; left; reflexivity|exact H1]. Qed.
Lemma sub_sorted cs es : names_sorted (map fst es) -> names_sorted (map fst (sub_trees cs es)).
Proof.
  induction es as [|[n f] es IH]; intros H; [exact I|]. unfold sub_trees. cbn [map concat fst snd]. fold (sub_trees cs es).
  cbn [map fst] in H. specialize (IH (names_tl _ _ H)). destruct (tree_of _ _ _ _); [|exact IH].
  cbn [app map fst]. apply sorted_cons; [exact IH|]. intros y Hy. apply sub_names in Hy. eapply sorted_lt; eauto.
Qed.
Lemma tree_valid f : forall cs t, fs_ok f -> intact keep root cs f -> tree_of keep root cs f = Some t -> valid_tree t.
Proof.
  induction f as [m s d|m s e|t0|e|es IH|e| |e] using fs_ind2; intros cs t Hok; cbn [intact tree_of];
    destruct (kept _ _ _ _); try discriminate; intros Hi H; inversion H; subst; try (constructor; assumption).
  fold (sub_trees cs es). inversion Hok as [| | | |? O1 O2 O3| | |]; subst. constructor.
    + rewrite Forall_forall in *. intros [n x] Hin. cbn [fst].
      assert (Hn : In n (map fst es)) by (apply (sub_names cs); apply in_map_iff; exists (n, x); auto).
      apply in_map_iff in Hn. destruct Hn as ([n' f'] & E & Hn). cbn [fst] in E. subst n'. apply (O1 _ Hn).
    + apply sub_sorted. exact O2.
    + clear H O1 O2 Hok. induction es as [|[n f] es IHes]; [constructor|].
      inversion IH as [|? ? IHx IHr]; subst. inversion O3; subst. cbn [fst snd fold_right] in *. destruct Hi as [Hi1 Hi2].
      unfold sub_trees. cbn [map concat fst snd]. fold (sub_trees cs es). specialize (IHes IHr Hi2 H2).
      destruct (tree_of keep root (cs ++ [n]) f) eqn:E; [|exact IHes]. constructor; [|exact IHes]. cbn [snd].
      apply (IHx (cs ++ [n])); assumption.
Qed.
End Walk.

Lemma linked_paths its : linked its -> no_repeat (map (fun it => hd_path (fst it)) its).
Proof.
  induction its as [|[h c] its IH]; [intros; exact I|]. destruct its as [|[h2 c2] its]; [intros; exact I|].
  intros [H1 H2]. split; [|apply IH; exact H2]. cbn [fst].
  destruct H1 as (a & b & Ea & Eb & Ca & Cb & Hf). intros E. rewrite Ea, Eb in E.
  apply e_path_of_inj in E; [|assumption..]. destruct Hf as [(_ & n & Hf)|(d & m & s & n & -> & -> & Hlt)].
  - rewrite E in Hf. rewrite <- (app_nil_r b) in Hf at 1. apply app_inv_head in Hf. discriminate.
  - apply app_inv_head in E. injection E as -> _. unfold blt in Hlt. rewrite bcmp_refl in Hlt. discriminate.
Qed.
Lemma log_paths hist : forall res, length hist = length res -> hpaths hist = map (fun it => hd_path (fst it)) (log_of hist res).
Proof.
  induction hist as [|[h ps] hist IH]; intros [|[x l] res] H; try discriminate; [reflexivity|].
  cbn [hpaths map log_of fst]. f_equal. apply IH. injection H; auto.
Qed.
Lemma Close_first r w x : wr_Close (WR w WFirst CWNil false) = (x, r) -> x <> WOk.
Proof. cbn. intros H; inversion H; discriminate. Qed.

Lemma dump_success_w flt root w0 f w : fs_ok f -> DumpPathFilter flt root w0 f = (WOk, w) ->
  intact (keep_of flt) root [] f /\
  exists t, tree_of (keep_of flt) root [] f = Some t /\ writable t /\ out w = out w0 ++ nar t.
Proof.
  intros Hok. unfold DumpPathFilter. destruct (NewWriter w0) as [[r0|e|m] w1] eqn:EN; try discriminate.
  change (bs "/") with (path_of []).
  destruct (dumpPath flt root f (path_of []) r0) as [x r1] eqn:ED. destruct x; try discriminate.
  2:{ destruct (wr_Close r1) as [y r2]. discriminate. }
  destruct (wr_Close r1) as [y r2] eqn:EC. intros H; inversion H; subst y w.
  destruct (dump_sound flt root f [] r0 r1 Hok (Forall_nil _) ED) as (I1 & hist & res & S1 & S2 & S3 & S4).
  split; [exact I1|]. destruct (tree_of (keep_of flt) root [] f) as [t|] eqn:ET; cbn [oitems] in S3.
  - pose proof (tree_valid flt root f [] t Hok I1 ET) as Hv. exists t. split; [reflexivity|].
    destruct (session_sound w0 r0 w1 hist res r1 r2 EN S1 S2 EC S4) as (t' & V' & O' & L').
    + rewrite (log_paths hist res) by (eapply wsession_length; eauto). rewrite S3. apply linked_paths.
      rewrite <- (app_nil_r (items [] t)). apply items_linked; [exact Hv|constructor|exact I|exact I].
    + rewrite S3 in L'.
      destruct (items_inj t' t [] [] []) as [E _]; [apply writable_valid; exact V'|exact Hv|constructor|exact I|exact I|rewrite L'; reflexivity|].
      rewrite <- E. split; [exact V'|exact O'].
  - exfalso. assert (hist = []) as ->.
    { destruct hist as [|[h ps] hist]; [reflexivity|]. pose proof (wsession_length _ _ _ _ S1) as L.
      destruct res as [|[x l] res]; discriminate. }
    cbn [wsession] in S1. inversion S1; subst. apply NewWriter_ok in EN. destruct EN as [-> _].
    apply Close_first in EC. congruence.
Qed.

Lemma dump_success flt root w0 f w : fs_ok f -> DumpPathFilter flt root w0 f = (WOk, w) ->
  intact (keep_of flt) root [] f /\
  exists t, tree_of (keep_of flt) root [] f = Some t /\ out w = out w0 ++ nar t.
Proof. intros H D. destruct (dump_success_w flt root w0 f w H D) as (A & t & B & _ & C). eauto. Qed.
Lemma dump_perfect flt root o f : fs_ok f -> intact (keep_of flt) root [] f ->
  match tree_of (keep_of flt) root [] f with
  | Some t => writable t -> exists w, DumpPathFilter flt root (Sink o []) f = (WOk, w) /\ out w = o ++ nar t
  | None => exists e w, DumpPathFilter flt root (Sink o []) f = (WErr e, w)
  end.
Proof.
  intros Hok Hi. destruct (dump_complete flt root f [] Hok (Forall_nil _) Hi) as (hist & H1 & H2).
  destruct (tree_of (keep_of flt) root [] f) as [t|] eqn:ET; cbn [oitems] in H1.
  - intros Hw. destruct (writer_session o t hist Hw H1) as (r0 & w & res & r1 & r2 & E1 & E2 & E3 & E4 & E5).
    unfold DumpPathFilter. rewrite E1. change (bs "/") with (path_of []). rewrite (H2 _ _ _ E2 E3), E4. eauto.
  - apply history_nil in H1. subst hist. unfold DumpPathFilter.
    destruct (WriteString_perfect (Sink o []) narVersionMagic1 eq_refl) as (w & EN & PW).
    unfold NewWriter. rewrite EN. change (bs "/") with (path_of []).
    rewrite (H2 _ [] (WR w WFirst CWNil false) eq_refl (Forall2_nil _)). cbn. eauto.
Qed.
