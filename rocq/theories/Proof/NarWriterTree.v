(** Whatever headers a Writer accepts, its output is the serialisation of some
    tree; and it is a valid one only if no path came twice in a row (C36). *)
From Verif Require Import Base.Bytes Base.BytesFacts Model.GoIO Model.GoStd Model.Wire Model.Nar Model.NarWriter
  Spec.WireSpec Spec.NarSpec Spec.NarWHist Spec.PipelineSpec Spec.CopySpec Proof.PathFacts Proof.NarUtilProps Proof.EntryPath Proof.NarReaderFacts
  Proof.NarWriterSound Proof.NarWriterComplete Proof.PipelineProps.
Ltac Zify.zify_post_hook ::= idtac.

Definition bares (t : node) : list (header * bytes) := map bare (items [] t).
Lemma bare_hdr cs cs' t c : bare (hdr_of cs t, c) = bare (hdr_of cs' t, c).
Proof. destruct t; reflexivity. Qed.
Lemma bares_cs t : forall cs, map bare (items cs t) = bares t.
Proof.
  induction t as [e c|x|es IH] using node_ind2; intros cs; [reflexivity|reflexivity|].
  unfold bares. cbn [items map]. f_equal. rewrite !concat_map, !map_map. f_equal.
  apply map_ext_in. intros e He. rewrite Forall_forall in IH. rewrite !(IH e He). reflexivity.
Qed.
Lemma bares_snoc es n t : bares (Dir (es ++ [(n, t)])) = bares (Dir es) ++ bares t.
Proof. unfold bares. rewrite items_snoc, map_app, (bares_cs t). reflexivity. Qed.

(** All entry names of a tree. *)
Fixpoint all_names (t : node) : list bytes :=
  match t with Dir es => concat (map (fun e => fst e :: all_names (snd e)) es) | _ => [] end.
Lemma all_names_snoc es n t : all_names (Dir (es ++ [(n, t)])) = all_names (Dir es) ++ n :: all_names t.
Proof. cbn [all_names]. rewrite map_app, concat_app. cbn [map concat fst snd]. rewrite app_nil_r. reflexivity. Qed.

(** * The open directories: header, finished entries, name of the open one *)
Definition gzip := list (header * list (bytes * node) * bytes).
Definition gup (z : gzip) : list header := map (fun f => fst (fst f)) z.
Fixpoint gpre (o : bytes) (z : gzip) : bytes :=
  match z with
  | [] => o ++ str "nix-archive-1"
  | (_, es, n) :: z' => gpre o z' ++ head_of (Dir es) ++ body_of (Dir es) ++ entry_open n
  end.
Fixpoint glog (z : gzip) : list (header * bytes) :=
  match z with [] => [] | (_, es, _) :: z' => glog z' ++ bares (Dir es) end.
Fixpoint gnames (z : gzip) : list bytes :=
  match z with [] => [] | (_, es, n) :: z' => gnames z' ++ all_names (Dir es) ++ [n] end.
Definition pathless (h : header) : header := fst (bare (h, [])).
Definition gok (z : gzip) : Prop := Forall (fun f => pathless (fst (fst f)) = pathless (dirhdr [])) z.

Definition rel_name (P : list bytes) (n : bytes) : Prop :=
  exists a b, In a P /\ In b P /\ n = Rel_abs a b /\ goes_up n = false /\ IsValidNodeName n = true.
Definition paths_in (P : list bytes) (hs : list header) : Prop := Forall (fun h => In (hd_path h) P) hs.

Lemma pathless_type h h' : pathless h = pathless h' -> hd_type h = hd_type h'.
Proof. destruct h, h'. unfold pathless, bare. cbn. congruence. Qed.
Lemma ghandle o P z : forall t h0 h cw w cur' up' cw' w',
  gok z -> pathless h0 = pathless (hdr_of [] t) -> In (hd_path h) P -> paths_in P (h0 :: gup z) ->
  Forall (rel_name P) (gnames z ++ all_names t) ->
  out w = gpre o z ++ head_of t ++ body_of t ->
  handle h0 (gup z) h cw w = HWait cur' up' cw' w' ->
  cur' = h /\ exists z' w1, up' = gup z' /\ gok z' /\ glog z' = glog z ++ bares t /\ out w1 = gpre o z' /\
    emit_head h cw w1 = (None, (cw', w')) /\ paths_in P (gup z') /\ Forall (rel_name P) (gnames z') /\
    (forall n, In n (gnames z ++ all_names t) -> In n (gnames z')) /\
    (hd_path h0 = hd_path h -> canonical_path (hd_path h) -> In dot (gnames z')).
Proof.
  induction z as [|[[hd es] m] z IH]; intros t h0 h cw w cur' up' cw' w' Hz Ht Hp HP Hn Hout.
  all: rewrite handle_eq; destruct (PathIsLexicographicallyOrdered _ _) eqn:HL; cbn [negb]; [|discriminate];
    destruct (goes_up _) eqn:HG.
  all: try (unfold descend; destruct (beq (hd_type h0) TypeDirectory) eqn:Hd; cbn [negb]; [|discriminate];
    destruct (IsValidNodeName _) eqn:HV; cbn [negb]; [|discriminate];
    destruct (wstrs _ w) as [[e|] w1] eqn:EW; [discriminate|]; apply wstrs_none in EW;
    destruct (emit_head h cw w1) as [[e|] [cw2 w2]] eqn:EE; [discriminate|];
    intros H; inversion H; subst cur' up' cw2 w2; split; [reflexivity|];
    rewrite (pathless_type _ _ Ht) in Hd; destruct (hdr_of_dir _ _ Hd) as (es' & ->)).
  - destruct (WriteString w _) as [[e|] w1] eqn:E1; [discriminate|]. discriminate.
  - exists [(h0, es', Rel_abs (hd_path h0) (hd_path h))], w1. split; [reflexivity|]. split; [constructor; [exact Ht|exact Hz]|].
    split; [reflexivity|]. split; [rewrite EW, Hout; cbn [gpre map concat]; unfold entry_open, str; rewrite <- !app_assoc, app_nil_r; reflexivity|].
    split; [exact EE|]. split; [exact HP|]. cbn [gnames app] in *. split; [|split].
    + apply Forall_app. split; [exact Hn|]. constructor; [|constructor]. inversion HP; subst. eexists _, _. eauto 8.
    + intros n I. apply in_app_iff. left. exact I.
    + intros E (cs & C1 & C2). rewrite E, C2, Rel_self by exact C1. apply in_app_iff. right. left. reflexivity.
  - destruct (WriteString w _) as [[e|] w1] eqn:E1; [discriminate|]. cbn [gup map fst].
    destruct (WriteString w1 _) as [[e|] w2] eqn:E2; [discriminate|].
    apply WriteString_none in E1, E2. intros HH. inversion Hz as [|? ? Hf Hz']; subst. cbn [fst snd] in Hf.
    cbn [gup map fst] in HP. inversion HP as [|? ? _ HP']; subst. cbn [gnames] in Hn.
    fold (gup z) in HH, HP'. apply (IH (Dir (es ++ [(m, t)]))) in HH; auto.
    + destruct HH as (H1 & z' & w3 & H2 & H3 & H4 & H5 & H6 & H7 & H8 & H9 & H10). split; [exact H1|].
      exists z', w3. split; [exact H2|]. split; [exact H3|]. split; [rewrite H4; cbn [glog]; rewrite bares_snoc, app_assoc; reflexivity|].
      split; [exact H5|]. split; [exact H6|]. split; [exact H7|]. split; [exact H8|]. split.
      * intros n I. apply H9. cbn [gnames] in I. rewrite all_names_snoc. rewrite !in_app_iff in *. cbn [In] in *. tauto.
      * intros E (cs & C1 & C2). exfalso. rewrite E, C2, Rel_self in HG by exact C1. discriminate HG.
    + rewrite all_names_snoc. rewrite <- !app_assoc in Hn. exact Hn.
    + rewrite E2, E1, Hout. cbn [gpre]. rewrite body_snoc, (ser_split t). unfold str. rewrite <- !app_assoc. reflexivity.
  - exists ((h0, es', Rel_abs (hd_path h0) (hd_path h)) :: (hd, es, m) :: z), w1. split; [reflexivity|]. split; [constructor; [exact Ht|exact Hz]|].
    split; [reflexivity|]. split; [rewrite EW, Hout; cbn [gpre map concat]; unfold entry_open, str; rewrite <- !app_assoc, app_nil_r; reflexivity|].
    split; [exact EE|]. split; [exact HP|]. cbn [gnames] in *. split; [|split].
    + rewrite app_assoc. apply Forall_app. split; [exact Hn|]. constructor; [|constructor]. inversion HP; subst. eexists _, _. eauto 8.
    + intros n I. rewrite app_assoc. apply in_app_iff. left. exact I.
    + intros E (cs & C1 & C2). rewrite E, C2, Rel_self by exact C1. apply in_app_iff. right. apply in_app_iff. right. left. reflexivity.
Qed.

(** * The writer between two headers *)
Record ginv (o : bytes) (P : list bytes) (z : gzip) (h : header) (c : bytes) (r : wr) : Prop := {
  gi_gor : wr_gor r = WWait h (gup z);
  gi_open : wr_closed r = false;
  gi_z : gok z;
  gi_paths : paths_in P (h :: gup z);
  gi_names : Forall (rel_name P) (gnames z);
  gi_size : (0 <= hd_size h < 2 ^ 63)%Z;
  gi_body : exists head, shape h head /\
    out (wr_sink r) = gpre o z ++ head ++ c /\
    ((hd_type h = bs "regular" /\ wr_cw r = CWMain (BW (lenN c) (Z.to_N (hd_size h)) false) /\
      (lenN c <= Z.to_N (hd_size h))%N) \/
     (hd_type h <> bs "regular" /\ c = [] /\ exists b, wr_cw r = CWDummy (BW 0 0 false) b /\ plan b = []))
}.
Lemma gclose_ok o P z h c r cw w : ginv o P z h c r ->
  cw_close (wr_cw r) (wr_sink r) = (Some None, (cw, w)) ->
  exists t, pathless h = pathless (hdr_of [] t) /\ bares t = [bare (h, c)] /\ all_names t = [] /\
    out w = gpre o z ++ head_of t ++ body_of t.
Proof.
  intros [Hg Ho Hz Hp Hn Hs (head & Hsh & Hout & Hb)] HC. destruct h as [p ty tg sz ex].
  unfold shape in Hsh. cbn [hd_path hd_type hd_target hd_size hd_exec] in *.
  destruct Hb as [(T & Hcw & Hle)|(T & -> & b & Hcw & Hpl)]; rewrite Hcw in HC; cbn [cw_close] in HC.
  - destruct Hsh as [(T1 & Htg & Hhd)|[(T1 & _)|(T1 & _)]]; [|rewrite T in T1; discriminate T1..]. subst ty tg.
    unfold bw_close in HC. cbn [bw_padded bw_written bw_total] in HC.
    destruct (N.eqb_spec (lenN c) (Z.to_N sz)) as [E|E]; cbn [negb] in HC; [|discriminate].
    rewrite <- E in HC. destruct (writePadding _ _) as [[e|] w1] eqn:EP; [discriminate|].
    apply writePadding_none in EP. inversion HC; subst cw w1.
    assert (Hz2 : Z.of_nat (length c) = sz) by (unfold lenN in E; lia).
    exists (Reg ex c). split; [unfold pathless, bare; cbn; rewrite Hz2; reflexivity|]. split; [unfold bares, bare; cbn; rewrite Hz2; reflexivity|].
    split; [reflexivity|]. rewrite EP, Hout, Hhd, <- E. cbn [body_of]. unfold head_of. rewrite <- !app_assoc. reflexivity.
  - destruct Hsh as [(T1 & _)|[(T1 & Htg & Hsz & Hex & Hhd)|(T1 & Htg & Hsz & Hex & Hhd)]]; [congruence|..];
      cbn in HC; inversion HC; subst cw w; subst.
    + exists (Sym tg). split; [reflexivity|]. split; [reflexivity|]. split; [reflexivity|]. rewrite Hout. cbn [body_of]. rewrite !app_nil_r. reflexivity.
    + exists (Dir []). split; [reflexivity|]. split; [reflexivity|]. split; [reflexivity|]. rewrite Hout. reflexivity.
Qed.
Lemma gwrite_ok o P z h c r p n x r' : ginv o P z h c r -> (lenN p < 2 ^ 63)%N ->
  wr_Write p r = ((n, x), r') -> ginv o P z h (c ++ firstn n p) r'.
Proof.
  intros [Hg Ho Hz Hp Hn Hs (head & Hsh & Hout & Hb)] Hl HW. unfold wr_Write in HW.
  destruct Hb as [(T & Hcw & Hle)|(T & -> & b & Hcw & Hpl)]; rewrite Hcw in HW.
  - unfold bw_write in HW. cbn [bw_total bw_written bw_padded] in HW.
    assert (Hle' : (lenN c <= Z.to_N (hd_size h))%N) by exact Hle.
    rewrite N.mod_small in HW by lia.
    destruct (N.ltb_spec (Z.to_N (hd_size h)) (lenN c + lenN p)).
    { inversion HW; subst. cbn [firstn]. rewrite app_nil_r. split; auto. exists head. split; [exact Hsh|].
      split; [exact Hout|]. left. auto. }
    assert (W : exists k e w', wwrite p (wr_sink r) = (k, e, w') /\ k <= length p /\ out w' = out (wr_sink r) ++ firstn k p).
    { unfold wwrite. destruct (plan (wr_sink r)) as [|[k|] pl].
      - exists (length p), None. eexists. split; [reflexivity|]. rewrite firstn_all. auto.
      - eexists _, _, _. split; [reflexivity|]. split; [lia|]. reflexivity.
      - exists (length p), None. eexists. split; [reflexivity|]. rewrite firstn_all. auto. }
    destruct W as (k & e & w' & W & Hk & Wo). rewrite W in HW.
    assert (n = k) by congruence. subst k.
    assert (r' = WR w' (wr_gor r) (CWMain (BW ((lenN c + N.of_nat n) mod 2 ^ 64) (Z.to_N (hd_size h)) false)) (wr_closed r)) as -> by congruence.
    assert (Hlen : lenN (c ++ firstn n p) = (lenN c + N.of_nat n)%N).
    { unfold lenN. rewrite app_length, firstn_length. unfold lenN in *. lia. }
    split; auto. exists head. split; [exact Hsh|]. split.
    + cbn [wr_sink]. rewrite Wo, Hout, <- !app_assoc. reflexivity.
    + left. split; [exact T|]. cbn [wr_cw]. rewrite Hlen. unfold lenN in *. rewrite N.mod_small by lia. split; [reflexivity|]. lia.
  - assert (E : n = 0 \/ p = []).
    { unfold bw_write in HW. cbn [bw_total bw_written bw_padded] in HW.
      destruct p as [|b0 p]; [right; reflexivity|left]. rewrite N.mod_small in HW by lia.
      destruct (N.ltb_spec 0 (0 + lenN (b0 :: p))); [congruence|]. unfold lenN in *. cbn [length] in *. lia. }
    assert (F : firstn n p = []) by (destruct E; subst; [reflexivity|apply firstn_nil]). rewrite F, app_nil_r.
    assert (G : exists b', r' = WR (wr_sink r) (wr_gor r) (CWDummy (BW 0 0 false) b') (wr_closed r) /\ plan b' = []).
    { unfold bw_write in HW. cbn [bw_total bw_written bw_padded] in HW.
      destruct (N.ltb 0 ((0 + lenN p) mod 2 ^ 64)) eqn:EL.
      - exists b. split; [inversion HW; reflexivity|exact Hpl].
      - unfold wwrite in HW. rewrite Hpl in HW. exists (Sink (out b ++ p) []). split; [|reflexivity].
        destruct p as [|b0 p]; [|rewrite N.mod_small in EL by lia; unfold lenN in EL; cbn [length] in EL; lia].
        injection HW as _ _ <-. reflexivity. }
    destruct G as (b' & -> & Hpl'). split; auto. exists head. split; [exact Hsh|]. split; [exact Hout|].
    right. split; [exact T|]. split; [reflexivity|]. exists b'. auto.
Qed.
Lemma gwrites_ok o P z h ps : forall c r l r', ginv o P z h c r -> Forall (fun p => lenN p < 2 ^ 63)%N ps ->
  wr_writes ps r = (l, r') -> ginv o P z h (c ++ accepted ps l) r'.
Proof.
  induction ps as [|p ps IH]; intros c r l r' Hi Hps; cbn [wr_writes].
  - intros H; inversion H; subst. cbn [accepted]. rewrite app_nil_r. exact Hi.
  - inversion Hps; subst. destruct (wr_Write p r) as [[n x] r1] eqn:E1.
    destruct (wr_writes ps r1) as [l1 r2] eqn:E2. intros H; inversion H; subst.
    cbn [accepted]. rewrite app_assoc. eapply IH; [|assumption|exact E2]. eapply gwrite_ok; eauto.
Qed.
Lemma gnext_ok o P z h c r h1 r' : ginv o P z h c r -> known_type h1 -> (0 <= hd_size h1 < 2 ^ 63)%Z -> In (hd_path h1) P ->
  WriteHeader h1 r = (WOk, r') -> exists z', ginv o P z' h1 [] r' /\ glog z' = glog z ++ [bare (h, c)] /\
    (forall n, In n (gnames z) -> In n (gnames z')) /\
    (hd_path h = hd_path h1 -> canonical_path (hd_path h1) -> In dot (gnames z')).
Proof.
  intros Hi HT HS HP1. pose proof Hi as [Hg Ho Hz Hp Hn Hs _]. unfold WriteHeader.
  destruct (hd_Validate h1) as [[]| |] eqn:HV; [|discriminate..]. rewrite Ho, Hg.
  destruct (cw_close (wr_cw r) (wr_sink r)) as [[[e|]|] [cw w]] eqn:HC; [discriminate| |discriminate].
  destruct (gclose_ok _ _ _ _ _ _ _ _ Hi HC) as (t & Hh & Hit & Hnm & Hout).
  destruct (handle h (gup z) h1 cw w) as [e cw2 w2|cur' up' cw2 w2] eqn:HH; [discriminate|].
  intros H; inversion H; subst r'.
  apply (ghandle o P z t) in HH; auto.
  - destruct HH as (-> & z' & w1 & -> & Hz' & Hlog & Hout' & HE & HP' & Hn' & Hin & Hdot).
    destruct (emit_head_ok _ _ _ _ _ HV HT HS HE) as (head & Hsh & Hw & Hc).
    exists z'. split; [|split; [rewrite Hlog, Hit; reflexivity|split; [|exact Hdot]]].
    + split; auto; [constructor; assumption|]. exists head. split; [exact Hsh|]. cbn [wr_sink wr_cw]. rewrite Hw, Hout', app_nil_r. split; [reflexivity|].
      destruct Hc as [(T & ->)|(T & b & -> & Hpl)]; [left; split; [exact T|]; split; [reflexivity|cbn; lia]|right].
      split; [exact T|]. split; [reflexivity|]. eauto.
    + intros n I. apply Hin. apply in_app_iff. left. exact I.
  - rewrite Hnm, app_nil_r. exact Hn.
Qed.
Lemma gfirst_ok o P w h1 r' : known_type h1 -> (0 <= hd_size h1 < 2 ^ 63)%Z -> In (hd_path h1) P -> out w = o ++ str "nix-archive-1" ->
  WriteHeader h1 (WR w WFirst CWNil false) = (WOk, r') -> ginv o P [] h1 [] r'.
Proof.
  intros HT HS HP Hw. unfold WriteHeader.
  destruct (hd_Validate h1) as [[]| |] eqn:HV; [|discriminate..]. cbn [wr_closed wr_gor wr_cw wr_sink].
  destruct (beq_spec (hd_path h1) (bs "/")) as [E|E]; cbn [negb]; [|discriminate].
  destruct (emit_head h1 CWNil w) as [[e|] [cw2 w2]] eqn:HE; [discriminate|].
  intros H; inversion H; subst r'.
  destruct (emit_head_ok _ _ _ _ _ HV HT HS HE) as (head & Hsh & Hw2 & Hc).
  split; auto; [constructor|constructor; [exact HP|constructor]|constructor|]. exists head. split; [exact Hsh|]. cbn [wr_sink wr_cw gpre].
  rewrite Hw2, Hw, app_nil_r. split; [reflexivity|].
  destruct Hc as [(T & ->)|(T & b & -> & Hpl)]; [left; split; [exact T|]; split; [reflexivity|cbn; lia]|right].
  split; [exact T|]. split; [reflexivity|]. eauto.
Qed.
Lemma gfinish_ok o z : forall t w w',
  out w = gpre o z ++ head_of t ++ body_of t -> finish (gup z) w = (None, w') ->
  exists t', out w' = o ++ nar t' /\ bares t' = glog z ++ bares t /\ all_names t' = gnames z ++ all_names t.
Proof.
  induction z as [|[[hd es] m] z IH]; intros t w w' Hout; cbn [gup map finish];
    (destruct (WriteString w _) as [[e|] w1] eqn:E1; [discriminate|]); apply WriteString_none in E1.
  - intros H; inversion H; subst w1. exists t. split; [|split; reflexivity].
    rewrite E1, Hout. unfold nar. rewrite ser_split. cbn [gpre]. unfold str. rewrite <- !app_assoc. reflexivity.
  - destruct (WriteString w1 _) as [[e|] w2] eqn:E2; [discriminate|]. apply WriteString_none in E2.
    intros HF. destruct (IH (Dir (es ++ [(m, t)])) w2 w') as (t' & G1 & G2 & G3); auto.
    + rewrite E2, E1, Hout. cbn [gpre]. rewrite body_snoc, (ser_split t). unfold str. rewrite <- !app_assoc. reflexivity.
    + exists t'. split; [exact G1|]. split; [rewrite G2; cbn [glog]; rewrite bares_snoc, app_assoc; reflexivity|].
      rewrite G3, all_names_snoc. cbn [gnames]. rewrite <- !app_assoc. reflexivity.
Qed.
Lemma gClose_ok o P z h c r r' : ginv o P z h c r -> wr_Close r = (WOk, r') ->
  exists t, out (wr_sink r') = o ++ nar t /\ bares t = glog z ++ [bare (h, c)] /\ all_names t = gnames z.
Proof.
  intros Hi. pose proof Hi as [Hg Ho Hz Hp Hn Hs _]. unfold wr_Close. rewrite Ho, Hg.
  destruct (cw_close (wr_cw r) (wr_sink r)) as [[[e|]|] [cw w]] eqn:HC; [discriminate| |discriminate].
  destruct (gclose_ok _ _ _ _ _ _ _ _ Hi HC) as (t & Hh & Hit & Hnm & Hout).
  destruct (finish (gup z) w) as [[e|] w2] eqn:HF; [discriminate|]. intros H; inversion H; subst r'. cbn [wr_sink].
  destruct (gfinish_ok _ _ _ _ _ Hout HF) as (t' & G1 & G2 & G3). exists t'. rewrite G2, G3, Hit, Hnm, app_nil_r. auto.
Qed.

(** * Whole sessions *)
Fixpoint repeats (l : list bytes) : Prop :=
  match l with a :: (b :: _) as l' => a = b \/ repeats l' | _ => False end.
Lemma gsession P o hist : forall z h c r res r', ginv o P z h c r ->
  Forall (fun x => known_type (fst x) /\ (0 <= hd_size (fst x) < 2 ^ 63)%Z /\ Forall (fun p => lenN p < 2 ^ 63)%N (snd x)) hist ->
  (forall p, In p (hpaths hist) -> In p P) ->
  wsession hist r = (res, r') -> Forall (fun x => fst x = WOk) res ->
  exists z' h' c', ginv o P z' h' c' r' /\ glog z' ++ [bare (h', c')] = glog z ++ bare (h, c) :: map bare (log_of hist res) /\
    (forall n, In n (gnames z) -> In n (gnames z')) /\
    (Forall (fun x => canonical_path (hd_path (fst x))) hist -> repeats (hd_path h :: hpaths hist) -> In dot (gnames z')).
Proof.
  induction hist as [|[h1 ps] hist IH]; intros z h c r res r' Hi Hc Hp; cbn [wsession].
  - intros H; inversion H; subst. intros _. exists z, h, c. split; [exact Hi|]. split; [reflexivity|]. split; [auto|]. intros _ [].
  - destruct (WriteHeader h1 r) as [x r1] eqn:E1. destruct (wr_writes ps r1) as [l r2] eqn:E2.
    destruct (wsession hist r2) as [o3 r3] eqn:E3. intros H; inversion H; subst res r3. intros HA.
    inversion HA as [|? ? Hx HA']; subst. cbn [fst] in Hx. subst x.
    inversion Hc as [|? ? (Hc1 & Hc2 & Hc4) Hc3]; subst. cbn [fst snd] in *.
    destruct (gnext_ok _ _ _ _ _ _ _ _ Hi Hc1 Hc2 (Hp _ (or_introl eq_refl)) E1) as (z1 & Hi1 & L1 & N1 & D1).
    apply (gwrites_ok _ _ _ _ _ _ _ _ _ Hi1 Hc4) in E2. cbn [app] in E2.
    destruct (IH _ _ _ _ _ _ E2 Hc3 (fun p I => Hp p (or_intror I)) E3 HA') as (z' & h' & c' & Hi' & L' & N' & D').
    exists z', h', c'. split; [exact Hi'|]. split; [rewrite L', L1, <- app_assoc; reflexivity|]. split; [auto|].
    intros Q [R|R]; inversion Q as [|? ? Q1 Q2]; subst; auto.
Qed.
Lemma gsound w0 r0 w hist res r1 r2 :
  NewWriter w0 = (Ok r0, w) -> wsession hist r0 = (res, r1) -> Forall (fun x => fst x = WOk) res ->
  wr_Close r1 = (WOk, r2) ->
  Forall (fun x => known_type (fst x) /\ (0 <= hd_size (fst x) < 2 ^ 63)%Z /\ Forall (fun p => lenN p < 2 ^ 63)%N (snd x)) hist ->
  exists t, out (wr_sink r2) = out w0 ++ nar t /\ bares t = map bare (log_of hist res) /\
    Forall (rel_name (hpaths hist)) (all_names t) /\
    (Forall (fun x => canonical_path (hd_path (fst x))) hist -> repeats (hpaths hist) -> In dot (all_names t)).
Proof.
  intros HN HS HA HC Hc. apply NewWriter_ok in HN. destruct HN as [-> Hw].
  destruct hist as [|[h1 ps] hist]; cbn [wsession] in HS.
  { inversion HS; subst. discriminate HC. }
  destruct (WriteHeader h1 _) as [x ra] eqn:E1. destruct (wr_writes ps ra) as [l rb] eqn:E2.
  destruct (wsession hist rb) as [o3 r3] eqn:E3. inversion HS; subst res r3.
  inversion HA as [|? ? Hx HA']; subst. cbn [fst] in Hx. subst x.
  inversion Hc as [|? ? (Hc1 & Hc2 & Hc4) Hc3]; subst. cbn [fst snd] in *.
  apply (gfirst_ok _ (hpaths ((h1, ps) :: hist)) _ _ _ Hc1 Hc2 (or_introl eq_refl) Hw) in E1.
  apply (gwrites_ok _ _ _ _ _ _ _ _ _ E1 Hc4) in E2. cbn [app] in E2.
  destruct (gsession _ _ _ _ _ _ _ _ _ E2 Hc3 (fun p I => or_intror I) E3 HA') as (z' & h' & c' & Hi' & L' & _ & D').
  destruct (gClose_ok _ _ _ _ _ _ _ Hi' HC) as (t & T2 & T3 & T4). exists t. split; [exact T2|].
  split; [rewrite T3, L'; reflexivity|]. rewrite T4. split; [apply (gi_names _ _ _ _ _ _ Hi')|].
  intros Q R. inversion Q; subst. apply D'; assumption.
Qed.
