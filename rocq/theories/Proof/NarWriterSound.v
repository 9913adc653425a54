(** A successfully closed archive is the NAR of the tree its headers describe. *)
From Verif Require Import Base.Bytes Base.BytesFacts Model.GoIO Model.GoStd Model.Wire Model.Nar
  Model.NarWriter Spec.WireSpec Spec.NarSpec Spec.NarWHist
  Proof.WireFacts Proof.WireProps Proof.PathFacts Proof.NarUtilProps Proof.NarPath Proof.EntryPath.
Ltac Zify.zify_post_hook ::= idtac.

(** * What a successful write did to the output *)
Lemma wwrite_none p w w' : wwrite_ p w = (None, w') -> out w' = out w ++ p.
Proof.
  unfold wwrite_, wwrite. destruct (plan w) as [|[k|] pl]; intros H; inversion H; reflexivity.
Qed.
Lemma WriteUint64_none w n w' : WriteUint64 w n = (None, w') -> out w' = out w ++ le8 n.
Proof. unfold WriteUint64. intros H. apply wwrite_none in H. rewrite H, le8_le64. reflexivity. Qed.
Lemma writePadding_none w c w' : writePadding w (lenN c) = (None, w') ->
  out w' = out w ++ repeat x00 (pad_len (length c)).
Proof.
  unfold writePadding. pose proof (pad_N_nat c) as E.
  destruct (N.eqb_spec (lenN c mod 8) 0) as [Hz|Hz]; intros H.
  - inversion H; subst. rewrite (pad_N_zero _ Hz) in E.
    replace (pad_len (length c)) with 0 by lia. cbn. rewrite app_nil_r. reflexivity.
  - apply wwrite_none in H. rewrite H. rewrite (pad_N_nonzero _ Hz) in E. do 2 f_equal. lia.
Qed.
Lemma WriteString_none w x w' : WriteString w x = (None, w') -> out w' = out w ++ field x.
Proof.
  unfold WriteString, field.
  destruct (WriteUint64 w (lenN x)) as [[e|] w1] eqn:E1; [discriminate|].
  destruct (wwrite_ x w1) as [[e|] w2] eqn:E2; [discriminate|]. intros E3.
  apply WriteUint64_none in E1. apply wwrite_none in E2. apply writePadding_none in E3.
  rewrite E3, E2, E1, !app_assoc. reflexivity.
Qed.
Lemma WriteBytes_none w x w' : WriteBytes w x = (None, w') -> out w' = out w ++ field x.
Proof. exact (WriteString_none w x w'). Qed.
Lemma wstrs_none l : forall w w', wstrs l w = (None, w') -> out w' = out w ++ concat (map field l).
Proof.
  induction l as [|x l IH]; intros w w'; cbn [wstrs map concat].
  - intros H; inversion H. rewrite app_nil_r. reflexivity.
  - destruct (WriteString w x) as [[e|] w1] eqn:E; [discriminate|]. intros H.
    apply IH in H. apply WriteString_none in E. rewrite H, E, app_assoc. reflexivity.
Qed.

(** * The head of a node *)
Definition head_of (t : node) : bytes :=
  str "(" ++ str "type" ++
  match t with
  | Reg exec c => str "regular" ++ (if exec then str "executable" ++ str "" else []) ++ str "contents" ++ le8 (lenN c)
  | Sym target => str "symlink" ++ str "target" ++ field target
  | Dir _ => str "directory"
  end.
Definition body_of (t : node) : bytes :=
  match t with
  | Reg _ c => c ++ repeat x00 (pad_len (length c))
  | Sym _ => []
  | Dir es => concat (map (fun e => entry_open (fst e) ++ ser (snd e) ++ str ")") es)
  end.
Lemma ser_split t : ser t = head_of t ++ body_of t ++ str ")".
Proof.
  destruct t; cbn [ser body_of]; unfold head_of, field; rewrite <- ?app_assoc; reflexivity.
Qed.
(** What the header says about the node: all but content and entries. *)
Definition shape (h : header) (head : bytes) : Prop :=
  (hd_type h = bs "regular" /\ hd_target h = [] /\
   head = str "(" ++ str "type" ++ str "regular" ++ (if hd_exec h then str "executable" ++ str "" else []) ++
          str "contents" ++ le8 (Z.to_N (hd_size h))) \/
  (hd_type h = bs "symlink" /\ hd_target h <> [] /\ hd_size h = 0%Z /\ hd_exec h = false /\
   head = head_of (Sym (hd_target h))) \/
  (hd_type h = bs "directory" /\ hd_target h = [] /\ hd_size h = 0%Z /\ hd_exec h = false /\
   head = head_of (Dir [])).
Lemma u64_small z : (0 <= z < 2 ^ 63)%Z -> u64_of_Z z = Z.to_N z.
Proof. intros H. unfold u64_of_Z. rewrite Z.mod_small; [reflexivity|]. lia. Qed.

Lemma emit_head_ok h cw w cw' w' :
  hd_Validate h = Ok tt -> known_type h -> (0 <= hd_size h < 2 ^ 63)%Z ->
  emit_head h cw w = (None, (cw', w')) ->
  exists head, shape h head /\ out w' = out w ++ head /\
  ((hd_type h = bs "regular" /\ cw' = CWMain (BW 0 (Z.to_N (hd_size h)) false)) \/
   (hd_type h <> bs "regular" /\ exists b, cw' = CWDummy (BW 0 0 false) b /\ plan b = [])).
Proof.
  intros HV HT HS. apply validate_header_exact in HV. destruct HV as (_ & _ & V1 & V2 & V3).
  destruct h as [p t tg sz ex]. unfold known_type in HT. cbn [hd_path hd_type hd_target hd_size hd_exec] in *.
  unfold emit_head. cbn [hd_path hd_type hd_target hd_size hd_exec].
  destruct (wstrs _ w) as [[e|] w1] eqn:E1; [discriminate|]. apply wstrs_none in E1.
  cbn [map concat] in E1.
  destruct HT as [ -> | [ -> | -> ] ].
  - change (beq (bs "regular") TypeRegular) with true. cbv iota.
    set (M := if ex then _ else _). destruct M as [[e|] w2] eqn:E2; [discriminate|].
    assert (F2 : out w2 = out w1 ++ if ex then str "executable" ++ str "" else []).
    { subst M. destruct ex; [|inversion E2; rewrite app_nil_r; reflexivity].
      destruct (WriteString w1 _) as [[e|] w3] eqn:E3; [discriminate|].
      apply WriteString_none in E3. apply WriteBytes_none in E2. rewrite E2, E3, <- app_assoc. reflexivity. }
    destruct (WriteString w2 _) as [[e|] w3] eqn:E3; [discriminate|]. apply WriteString_none in E3.
    unfold NewBytesWriter. destruct (WriteUint64 w3 _) as [[e|] w4] eqn:E4; [discriminate|].
    apply WriteUint64_none in E4. intros H; inversion H; subst cw' w4.
    eexists. split; [left; split; [reflexivity|]; split; [auto|]; reflexivity|].
    rewrite u64_small in * by assumption. split; [|left; auto].
    rewrite E4, E3, F2, E1. cbn [hd_size hd_exec]. unfold str. rewrite <- !app_assoc. reflexivity.
  - change (beq (bs "directory") TypeRegular) with false. change (beq (bs "directory") TypeSymlink) with false.
    change (beq (bs "directory") TypeDirectory) with true. cbn [orb]. cbn.
    intros H; inversion H; subst cw' w1. eexists. destruct (V2 (or_introl eq_refl)).
    split; [right; right; repeat split; auto|]. split.
    + rewrite E1. reflexivity.
    + right. split; [discriminate|]. eexists. split; [reflexivity|reflexivity].
  - change (beq (bs "symlink") TypeRegular) with false. change (beq (bs "symlink") TypeSymlink) with true.
    cbn [orb]. cbv iota. destruct (wstrs [bs "target"; tg] w1) as [[e|] w2] eqn:E2; [discriminate|].
    apply wstrs_none in E2. cbn.
    intros H; inversion H; subst cw' w2. eexists. destruct (V2 (or_intror eq_refl)).
    split; [right; left; repeat split; auto|]. split.
    + rewrite E2, E1. cbn [map concat head_of]. unfold str. rewrite ?app_nil_r, <- !app_assoc. reflexivity.
    + right. split; [discriminate|]. eexists. split; [reflexivity|reflexivity].
Qed.

(** * Relative paths *)
Lemma drop_common_spec a : forall b u d, drop_common a b = (u, d) ->
  exists p, a = p ++ u /\ b = p ++ d /\
    (u = [] \/ d = [] \/ exists x y u' d', u = x :: u' /\ d = y :: d' /\ x <> y).
Proof.
  induction a as [|x a IH]; intros b u d; cbn [drop_common].
  - intros H; inversion H; subst. exists []. auto.
  - destruct b as [|y b]; [intros H; inversion H; subst; exists []; auto|].
    destruct (beq_spec x y) as [->|Hne].
    + intros H. destruct (IH _ _ _ H) as (p & -> & -> & Hp). exists (y :: p). auto.
    + intros H; inversion H; subst. exists []. split; [reflexivity|]. split; [reflexivity|].
      right; right. eauto 8.
Qed.
Lemma Rel_path_of a b : ecomps a -> ecomps b ->
  Rel_abs (path_of a) (path_of b) =
  (let '(u, d) := drop_common a b in
   match u, d with [], [] => dot | _, _ => join_byte (repeat dotdot (length u) ++ d) slash end).
Proof. intros Ha Hb. unfold Rel_abs. rewrite !e_clean_path_of by assumption. reflexivity. Qed.
Lemma drop_common_app p a b : drop_common (p ++ a) (p ++ b) = drop_common a b.
Proof. induction p as [|x p IH]; cbn [app drop_common]; [reflexivity|]. rewrite beq_refl. exact IH. Qed.
(** Below: the rest of the path. *)
Lemma Rel_below p b : ecomps (p ++ b) -> b <> [] -> Rel_abs (path_of p) (path_of (p ++ b)) = join_byte b slash.
Proof.
  intros H Hb. pose proof (proj1 (Forall_app _ _ _) H) as [Hp _].
  rewrite Rel_path_of by assumption.
  replace (drop_common p (p ++ b)) with (drop_common (p ++ []) (p ++ b)) by (rewrite app_nil_r; reflexivity).
  rewrite drop_common_app. cbn [drop_common]. destruct b; [congruence|]. reflexivity.
Qed.
Lemma Rel_self p : ecomps p -> Rel_abs (path_of p) (path_of p) = dot.
Proof.
  intros H. rewrite Rel_path_of by assumption.
  replace (drop_common p p) with (drop_common (p ++ []) (p ++ [])) by (rewrite app_nil_r; reflexivity).
  rewrite drop_common_app. reflexivity.
Qed.
(** Elsewhere: up. *)
Lemma Rel_beside p x a y b : ecomps (p ++ x :: a) -> ecomps (p ++ y :: b) -> x <> y ->
  goes_up (Rel_abs (path_of (p ++ x :: a)) (path_of (p ++ y :: b))) = true.
Proof.
  intros Ha Hb Hne. rewrite Rel_path_of by assumption. rewrite drop_common_app. cbn [drop_common].
  destruct (beq_spec x y); [congruence|].
  assert (Hr : exists t, repeat dotdot (length (x :: a)) ++ y :: b = dotdot :: t /\ t <> []).
  { cbn [length repeat app]. eexists. split; [reflexivity|]. destruct (length a); discriminate. }
  destruct Hr as (t & -> & Ht). destruct t as [|z t]; [congruence|]. reflexivity.
Qed.
(** A single clean component below. *)
Lemma IsValid_noslash n : IsValidNodeName n = true -> ~ In slash n /\ ~ In x00 n.
Proof.
  unfold IsValidNodeName. intros H. apply andb_prop in H. destruct H as [H1 H2].
  apply negb_true_iff in H1, H2. apply contains_byte_false in H1, H2. auto.
Qed.
Lemma join_two_slash a b c l : In c (join_byte (a :: b :: l) c).
Proof.
  change (join_byte (a :: b :: l) c) with (a ++ c :: join_byte (b :: l) c).
  apply in_or_app. right. left. reflexivity.
Qed.

(** * Order *)
Lemma ble_app p a b : ble (p ++ a) (p ++ b) = ble a b.
Proof.
  induction p as [|x p IH]; [reflexivity|]. cbn [app]. rewrite ble_cons. exact IH.
Qed.
Lemma bcmp_gt_app a : forall b r, bcmp a b = Gt -> bcmp (a ++ r) b = Gt.
Proof.
  induction a as [|x a IH]; intros [|y b] r H; cbn [bcmp app] in *; try discriminate; [reflexivity|].
  destruct (N.compare (b2n x) (b2n y)); [apply IH; exact H|discriminate|reflexivity].
Qed.
Lemma path_of_snoc d n : d <> [] -> path_of (d ++ [n]) = path_of d ++ slash :: n.
Proof. intros H. unfold path_of. change "/"%byte with slash. rewrite join_app by exact H. reflexivity. Qed.
Lemma lex_sibling d m n : ecomps (d ++ [m]) -> ecomps (d ++ [n]) ->
  PathIsLexicographicallyOrdered (path_of (d ++ [m])) (path_of (d ++ [n])) = true ->
  m = n \/ blt m n = true.
Proof.
  intros Hm Hn H. apply lex_ordered_exact in H. unfold blt.
  assert (G : bcmp m n <> Gt).
  { destruct H as [H|H].
    - assert (E : ble m n = true).
      { destruct d as [|x d]; [unfold path_of in H; cbn [app join_byte] in H; rewrite ble_cons in H; exact H|].
        rewrite !path_of_snoc, ble_app, ble_cons in H by discriminate. exact H. }
      unfold ble in E. destruct (bcmp m n); congruence.
    - apply (proj1 (e_component_le_path_of _ _ Hm Hn)) in H. rewrite ccmp_app in H. cbn [ccmp] in H.
      destruct (bcmp m n); congruence. }
  destruct (bcmp m n) eqn:E; [left; apply bcmp_eq; exact E|auto|congruence].
Qed.

(** * The open directories *)
(** A frame: the finished entries and the name of the open one, innermost first. *)
Definition zipper := list (list (bytes * node) * bytes).
Definition zcs (z : zipper) : list bytes := rev (map snd z).
Definition dirhdr (cs : list bytes) : header := Header (path_of cs) (bs "directory") [] 0 false.
Fixpoint zup (z : zipper) : list header :=
  match z with [] => [] | _ :: z' => dirhdr (zcs z') :: zup z' end.
Fixpoint zpre (o : bytes) (z : zipper) : bytes :=
  match z with
  | [] => o ++ str "nix-archive-1"
  | (es, n) :: z' => zpre o z' ++ head_of (Dir es) ++ body_of (Dir es) ++ entry_open n
  end.
Fixpoint zlog (z : zipper) : list (header * bytes) :=
  match z with [] => [] | (es, n) :: z' => zlog z' ++ items (zcs z') (Dir es) end.
Definition frame_ok (f : list (bytes * node) * bytes) : Prop :=
  Forall (fun e => entry_name (fst e) /\ writer_name (fst e)) (fst f) /\ Forall (fun e => writable (snd e)) (fst f) /\
  (entry_name (snd f) /\ writer_name (snd f)) /\ names_sorted (map fst (fst f) ++ [snd f]).
Definition zok (z : zipper) : Prop := Forall frame_ok z.
Lemma zcs_cons f z : zcs (f :: z) = zcs z ++ [snd f].
Proof. reflexivity. Qed.
Lemma zok_ecomps z : zok z -> ecomps (zcs z).
Proof.
  induction z as [|f z IH]; intros H; [constructor|]. inversion H as [|? ? Hf Hz]; subst.
  rewrite zcs_cons. apply Forall_app. split; [exact (IH Hz)|]. constructor; [|constructor]. apply Hf.
Qed.
Lemma zup_nil z : zup z = [] -> z = [].
Proof. destruct z; [reflexivity|discriminate]. Qed.
Lemma names_sorted_snoc l m n : names_sorted (l ++ [m]) -> blt m n = true -> names_sorted ((l ++ [m]) ++ [n]).
Proof.
  induction l as [|x l IH]; intros H Hb.
  - cbn [app names_sorted]. auto.
  - destruct l as [|y l].
    + cbn [app names_sorted] in *. tauto.
    + cbn [app names_sorted] in *. destruct H as [H1 H2]. split; [exact H1|]. apply IH; assumption.
Qed.
Lemma body_snoc es n t : body_of (Dir (es ++ [(n, t)])) = body_of (Dir es) ++ entry_open n ++ ser t ++ str ")".
Proof. cbn [body_of]. rewrite map_app, concat_app. cbn [map concat fst snd]. rewrite app_nil_r. reflexivity. Qed.
Lemma items_snoc cs es n t : items cs (Dir (es ++ [(n, t)])) = items cs (Dir es) ++ items (cs ++ [n]) t.
Proof.
  cbn [items]. rewrite map_app, concat_app. cbn [map concat fst snd]. rewrite app_nil_r. reflexivity.
Qed.

(** * handle *)
Definition descend (cur : header) (up : list header) (h : header) (cw : cwriter) (w : sink) : handled :=
  let name := Rel_abs (hd_path cur) (hd_path h) in
  if negb (beq (hd_type cur) TypeDirectory) then HErr (EMsg "received descending path") cw w
  else if negb (IsValidNodeName name) then HErr (EMsg "name is invalid") cw w
  else
    let '(e, w) := wstrs [bs "entry"; bs "("; bs "name"; name; bs "node"] w in
    match e with Some er => HErr er cw w | None =>
    let '(e, (cw, w)) := emit_head h cw w in
    match e with Some er => HErr er cw w | None => HWait h (cur :: up) cw w end
    end.
Lemma handle_eq cur up h cw w :
  handle cur up h cw w =
  if negb (PathIsLexicographicallyOrdered (hd_path cur) (hd_path h))
  then HErr (EMsg "isn't lexicographically greater") cw w
  else if goes_up (Rel_abs (hd_path cur) (hd_path h)) then
      let '(e, w) := WriteString w (bs ")") in
      match e with Some er => HErr er cw w | None =>
      match up with
      | [] => HErr (EMsg "additional header detected") cw w
      | p :: up' =>
          let '(e, w) := WriteString w (bs ")") in
          match e with Some er => HErr er cw w | None => handle p up' h cw w end
      end end
  else descend cur up h cw w.
Proof. destruct up; reflexivity. Qed.
Lemma hdr_of_path cs t : hd_path (hdr_of cs t) = path_of cs.
Proof. destruct t; reflexivity. Qed.
Lemma hdr_of_dir cs t : beq (hd_type (hdr_of cs t)) TypeDirectory = true -> exists es, t = Dir es.
Proof. destruct t; [discriminate|discriminate|eauto]. Qed.
(** A path above is out of order. *)
Lemma lex_above p u : ecomps (p ++ u) -> u <> [] ->
  PathIsLexicographicallyOrdered (path_of (p ++ u)) (path_of p) = false.
Proof.
  intros H Hu. destruct (PathIsLexicographicallyOrdered _ _) eqn:E; [|reflexivity]. exfalso.
  pose proof (proj1 (Forall_app _ _ _) H) as [Hp _].
  apply lex_ordered_exact in E. destruct E as [E|E].
  - destruct p as [|x p].
    + destruct u as [|y u]; [congruence|]. unfold path_of in E. cbn [app] in E. rewrite ble_cons in E.
      inversion H as [|? ? Hy _]; subst. destruct Hy as (Hy & _). destruct y as [|b y]; [congruence|].
      destruct u; discriminate E.
    + assert (F : exists r, path_of ((x :: p) ++ u) = path_of (x :: p) ++ slash :: r).
      { revert Hu. clear. induction u as [|y u IH] using rev_ind; [congruence|]. intros _.
        rewrite app_assoc, path_of_snoc by (destruct (x :: p) eqn:E; discriminate).
        destruct u as [|z u]; [rewrite app_nil_r; eauto|].
        destruct IH as (r & ->); [discriminate|]. rewrite <- app_assoc. eexists. reflexivity. }
      destruct F as (r & F). rewrite F in E. rewrite <- (app_nil_r (path_of (x :: p))) in E at 2.
      rewrite ble_app in E. discriminate E.
  - apply (proj1 (e_component_le_path_of _ _ H Hp)) in E. rewrite <- (app_nil_r p) in E at 2.
    rewrite ccmp_app in E. destruct u; [congruence|]. apply E. reflexivity.
Qed.

Lemma not_up_name n : entry_name n -> goes_up n = false -> writer_name n.
Proof.
  intros (E1 & E2 & E3 & _) G H. unfold goes_up in G. destruct n as [|a [|b [|c n]]]; try discriminate H.
  - apply E3. exact H.
  - cbn [firstn] in H. injection H as -> ->. discriminate G.
Qed.
Lemma descend_sound o z t cs h cw w cur' up' cw' w' :
  zok z -> writable t -> hd_path h = path_of cs -> ecomps cs -> cs <> zcs z ->
  PathIsLexicographicallyOrdered (path_of (zcs z)) (path_of cs) = true ->
  goes_up (Rel_abs (path_of (zcs z)) (path_of cs)) = false ->
  (forall es m x, t = Dir (es ++ [(m, x)]) ->
     PathIsLexicographicallyOrdered (path_of (zcs z ++ [m])) (path_of cs) = true /\ cs <> zcs z ++ [m]) ->
  out w = zpre o z ++ head_of t ++ body_of t ->
  descend (hdr_of (zcs z) t) (zup z) h cw w = HWait cur' up' cw' w' ->
  cur' = h /\ exists z' w1, up' = zup z' /\ zok z' /\ cs = zcs z' /\
    zlog z' = zlog z ++ items (zcs z) t /\ out w1 = zpre o z' /\ emit_head h cw w1 = (None, (cw', w')).
Proof.
  intros Hz Ht Hh Hcs Hne Hlex Hgu Hlast Hout. unfold descend.
  destruct (beq (hd_type _) TypeDirectory) eqn:Hd; cbn [negb]; [|discriminate].
  destruct (hdr_of_dir _ _ Hd) as (es & ->). rewrite hdr_of_path, Hh.
  pose proof (zok_ecomps _ Hz) as Hzc.
  assert (D : exists d, d <> [] /\ cs = zcs z ++ d).
  { destruct (drop_common (zcs z) cs) as [u d] eqn:E.
    destruct (drop_common_spec _ _ _ _ E) as (p & E1 & E2 & E3).
    destruct u as [|u1 u].
    - rewrite app_nil_r in E1. subst p. exists d. split; [|exact E2]. intros ->. rewrite app_nil_r in E2. congruence.
    - exfalso. destruct E3 as [E3|[E3|E3]]; [discriminate| |].
      + subst d. rewrite app_nil_r in E2. subst p. rewrite E1 in Hlex, Hzc.
        rewrite lex_above in Hlex; [discriminate|exact Hzc|discriminate].
      + destruct E3 as (x & y & u' & d' & Eu & -> & Hxy). injection Eu as -> ->.
        rewrite E1, E2 in Hgu. rewrite E1 in Hzc. rewrite E2 in Hcs.
        rewrite Rel_beside in Hgu by assumption. discriminate. }
  destruct D as (d & Hd0 & ->). rewrite Rel_below by assumption.
  destruct (IsValidNodeName _) eqn:HV; cbn [negb]; [|discriminate].
  destruct d as [|n [|n2 d]]; [congruence| |].
  2:{ exfalso. apply IsValid_noslash in HV. apply (proj1 HV). apply join_two_slash. }
  cbn [join_byte]. destruct (wstrs _ w) as [[e|] w1] eqn:EW; [discriminate|]. apply wstrs_none in EW.
  destruct (emit_head h cw w1) as [[e|] [cw2 w2]] eqn:EE; [discriminate|].
  intros H; inversion H; subst cur' up' cw2 w2. split; [reflexivity|].
  inversion Ht as [| |? Ht1 Ht2 Ht3]; subst.
  exists ((es, n) :: z), w1. cbn [zup]. split; [reflexivity|]. split.
  { constructor; [|exact Hz]. split; [exact Ht1|]. split; [exact Ht3|]. cbn [fst snd].
    split; [destruct (proj1 (Forall_app _ _ _) Hcs) as [_ Hn]; inversion Hn as [|? ? Hn1 _]; subst; split; [exact Hn1|apply not_up_name; [exact Hn1|]]; rewrite Rel_below in Hgu by assumption; exact Hgu|].
    destruct es as [|[m x] es' _] using rev_ind; [exact I|].
    destruct (Hlast _ _ _ eq_refl) as [L1 L2]. rewrite map_app in *. cbn [map fst] in *.
    apply names_sorted_snoc; [exact Ht2|].
    destruct (lex_sibling (zcs z) m n) as [->|B]; [|exact Hcs|exact L1|congruence|exact B].
    apply Forall_app. split; [exact Hzc|]. constructor; [|constructor].
    apply Forall_app in Ht1. destruct Ht1 as [_ Ht1]. inversion Ht1 as [|? ? [Hx _] _]; subst. exact Hx. }
  split; [reflexivity|]. split; [reflexivity|]. split; [|exact EE].
  rewrite EW, Hout. cbn [zpre map concat]. unfold entry_open, str. rewrite <- !app_assoc, app_nil_r. reflexivity.
Qed.

(** The node [t] is complete but for its closing parenthesis. *)
Lemma handle_sound o z : forall t cs h cw w cur' up' cw' w',
  zok z -> writable t -> hd_path h = path_of cs -> ecomps cs -> cs <> zcs z ->
  (forall es m x, t = Dir (es ++ [(m, x)]) ->
     PathIsLexicographicallyOrdered (path_of (zcs z ++ [m])) (path_of cs) = true /\ cs <> zcs z ++ [m]) ->
  out w = zpre o z ++ head_of t ++ body_of t ->
  handle (hdr_of (zcs z) t) (zup z) h cw w = HWait cur' up' cw' w' ->
  cur' = h /\ exists z' w1, up' = zup z' /\ zok z' /\ cs = zcs z' /\
    zlog z' = zlog z ++ items (zcs z) t /\ out w1 = zpre o z' /\ emit_head h cw w1 = (None, (cw', w')).
Proof.
  induction z as [|f z IH]; intros t cs h cw w cur' up' cw' w' Hz Ht Hh Hcs Hne Hlast Hout.
  all: rewrite handle_eq, hdr_of_path, Hh; destruct (PathIsLexicographicallyOrdered _ _) eqn:HL;
    cbn [negb]; [|discriminate]; destruct (goes_up _) eqn:HG; [|apply descend_sound; assumption];
    destruct (WriteString w _) as [[e|] w1] eqn:E1; [discriminate|]; cbn [zup].
  1: discriminate.
  destruct (WriteString w1 _) as [[e|] w2] eqn:E2; [discriminate|].
  apply WriteString_none in E1, E2. intros HH. destruct f as [es m]. inversion Hz as [|? ? Hf Hz']; subst.
  destruct Hf as (F1 & F2 & F3 & F4). cbn [fst snd] in *.
  change (dirhdr (zcs z)) with (hdr_of (zcs z) (Dir (es ++ [(m, t)]))) in HH.
  apply IH with (cs := cs) in HH; auto.
  - destruct HH as (H1 & z' & w3 & H2 & H3 & H4 & H5 & H6 & H7). split; [exact H1|].
    exists z', w3. repeat split; try assumption. rewrite H5. cbn [zlog]. rewrite items_snoc, app_assoc. reflexivity.
  - constructor; [apply Forall_app; auto|rewrite map_app; exact F4|apply Forall_app; auto].
  - intros ->. rewrite zcs_cons in HL. rewrite lex_above in HL; [discriminate| |discriminate].
    apply (zok_ecomps ((es, m) :: z)). exact Hz.
  - intros es' m' x E. injection E as E. apply app_inj_tail in E. destruct E as [-> E]. injection E as -> ->.
    split; [exact HL|exact Hne].
  - rewrite E2, E1, Hout. cbn [zpre]. rewrite body_snoc, (ser_split t). unfold str. rewrite <- !app_assoc. reflexivity.
Qed.

(** * The writer between two headers *)
Record winv (o : bytes) (z : zipper) (h : header) (c : bytes) (r : wr) : Prop := {
  wi_gor : wr_gor r = WWait h (zup z);
  wi_open : wr_closed r = false;
  wi_z : zok z;
  wi_path : hd_path h = path_of (zcs z);
  wi_size : (0 <= hd_size h < 2 ^ 63)%Z;
  wi_body : exists head, shape h head /\
    out (wr_sink r) = zpre o z ++ head ++ c /\
    ((hd_type h = bs "regular" /\ wr_cw r = CWMain (BW (lenN c) (Z.to_N (hd_size h)) false) /\
      (lenN c <= Z.to_N (hd_size h))%N) \/
     (hd_type h <> bs "regular" /\ c = [] /\ exists b, wr_cw r = CWDummy (BW 0 0 false) b /\ plan b = []))
}.
Definition one_item (cs : list bytes) (t : node) : Prop := items cs t = [(hdr_of cs t, content_of t)].

Lemma close_ok o z h c r cw w : winv o z h c r ->
  cw_close (wr_cw r) (wr_sink r) = (Some None, (cw, w)) ->
  exists t, writable t /\ hdr_of (zcs z) t = h /\ items (zcs z) t = [(h, c)] /\
    out w = zpre o z ++ head_of t ++ body_of t /\ (forall es m x, t <> Dir (es ++ [(m, x)])).
Proof.
  intros [Hg Ho Hz Hp Hs (head & Hsh & Hout & Hb)] HC. destruct h as [p ty tg sz ex].
  unfold shape in Hsh. cbn [hd_path hd_type hd_target hd_size hd_exec] in *.
  destruct Hb as [(T & Hcw & Hle)|(T & -> & b & Hcw & Hpl)]; rewrite Hcw in HC; cbn [cw_close] in HC.
  - destruct Hsh as [(T1 & Htg & Hhd)|[(T1 & _)|(T1 & _)]]; [|rewrite T in T1; discriminate T1..]. subst ty tg.
    unfold bw_close in HC. cbn [bw_padded bw_written bw_total] in HC.
    destruct (N.eqb_spec (lenN c) (Z.to_N sz)) as [E|E]; cbn [negb] in HC; [|discriminate].
    rewrite <- E in HC. destruct (writePadding _ _) as [[e|] w1] eqn:EP; [discriminate|].
    apply writePadding_none in EP. inversion HC; subst cw w1.
    assert (Hh : hdr_of (zcs z) (Reg ex c) = Header p (bs "regular") [] sz ex).
    { cbn [hdr_of]. rewrite Hp. f_equal. unfold lenN in E. lia. }
    exists (Reg ex c). split; [constructor; lia|]. split; [exact Hh|]. split; [cbn [items]; rewrite Hh; reflexivity|].
    split; [|discriminate]. rewrite EP, Hout, Hhd, <- E. cbn [body_of]. unfold head_of. rewrite <- !app_assoc. reflexivity.
  - destruct Hsh as [(T1 & _)|[(T1 & Htg & Hsz & Hex & Hhd)|(T1 & Htg & Hsz & Hex & Hhd)]]; [congruence|..];
      cbn in HC; inversion HC; subst cw w; subst.
    + exists (Sym tg). split; [constructor; exact Htg|]. split; [reflexivity|]. split; [reflexivity|].
      split; [|discriminate]. rewrite Hout. cbn [body_of]. rewrite !app_nil_r. reflexivity.
    + exists (Dir []). split; [repeat constructor|]. split; [reflexivity|]. split; [reflexivity|].
      split; [|intros es m x Ex; injection Ex as Ex; destruct es; discriminate].
      rewrite Hout. reflexivity.
Qed.

Lemma write_ok o z h c r p n x r' : winv o z h c r -> (lenN p < 2 ^ 63)%N ->
  wr_Write p r = ((n, x), r') -> winv o z h (c ++ firstn n p) r'.
Proof.
  intros [Hg Ho Hz Hp Hs (head & Hsh & Hout & Hb)] Hl HW. unfold wr_Write in HW.
  destruct Hb as [(T & Hcw & Hle)|(T & -> & b & Hcw & Hpl)]; rewrite Hcw in HW.
  - unfold bw_write in HW. cbn [bw_total bw_written bw_padded] in HW.
    assert (Hle' : (lenN c <= Z.to_N (hd_size h))%N) by exact Hle.
    rewrite N.mod_small in HW by lia.
    destruct (N.ltb_spec (Z.to_N (hd_size h)) (lenN c + lenN p)).
    { inversion HW; subst. cbn [firstn]. rewrite app_nil_r. split; auto. exists head. split; [exact Hsh|].
      split; [exact Hout|]. left. auto. }
    assert (W : exists k e w', wwrite p (wr_sink r) = (k, e, w') /\ k <= length p /\ out w' = out (wr_sink r) ++ firstn k p).
    { unfold wwrite. destruct (plan (wr_sink r)) as [|[k|] pl].
      - exists (length p), None. eexists. split; [reflexivity|]. rewrite firstn_all. auto.
      - eexists _, _, _. split; [reflexivity|]. split; [lia|]. reflexivity.
      - exists (length p), None. eexists. split; [reflexivity|]. rewrite firstn_all. auto. }
    destruct W as (k & e & w' & W & Hk & Wo). rewrite W in HW.
    assert (n = k) by congruence. subst k.
    assert (r' = WR w' (wr_gor r) (CWMain (BW ((lenN c + N.of_nat n) mod 2 ^ 64) (Z.to_N (hd_size h)) false)) (wr_closed r)) as -> by congruence.
    assert (Hlen : lenN (c ++ firstn n p) = (lenN c + N.of_nat n)%N).
    { unfold lenN. rewrite app_length, firstn_length. unfold lenN in *. lia. }
    split; auto. exists head. split; [exact Hsh|]. split.
    + cbn [wr_sink]. rewrite Wo, Hout, <- !app_assoc. reflexivity.
    + left. split; [exact T|]. cbn [wr_cw]. rewrite Hlen. unfold lenN in *. rewrite N.mod_small by lia. split; [reflexivity|]. lia.
  - assert (E : n = 0 \/ p = []).
    { unfold bw_write in HW. cbn [bw_total bw_written bw_padded] in HW.
      destruct p as [|b0 p]; [right; reflexivity|left]. rewrite N.mod_small in HW by lia.
      destruct (N.ltb_spec 0 (0 + lenN (b0 :: p))); [congruence|]. unfold lenN in *. cbn [length] in *. lia. }
    assert (F : firstn n p = []) by (destruct E; subst; [reflexivity|apply firstn_nil]). rewrite F, app_nil_r.
    assert (G : exists b', r' = WR (wr_sink r) (wr_gor r) (CWDummy (BW 0 0 false) b') (wr_closed r) /\ plan b' = []).
    { unfold bw_write in HW. cbn [bw_total bw_written bw_padded] in HW.
      destruct (N.ltb 0 ((0 + lenN p) mod 2 ^ 64)) eqn:EL.
      - exists b. split; [inversion HW; reflexivity|exact Hpl].
      - unfold wwrite in HW. rewrite Hpl in HW. exists (Sink (out b ++ p) []). split; [|reflexivity].
        destruct p as [|b0 p]; [|rewrite N.mod_small in EL by lia; unfold lenN in EL; cbn [length] in EL; lia].
        injection HW as _ _ <-. reflexivity. }
    destruct G as (b' & -> & Hpl'). split; auto. exists head. split; [exact Hsh|]. split; [exact Hout|].
    right. split; [exact T|]. split; [reflexivity|]. exists b'. auto.
Qed.
Lemma writes_ok o z h ps : forall c r l r', winv o z h c r -> Forall (fun p => lenN p < 2 ^ 63)%N ps ->
  wr_writes ps r = (l, r') -> winv o z h (c ++ accepted ps l) r'.
Proof.
  induction ps as [|p ps IH]; intros c r l r' Hi Hps; cbn [wr_writes].
  - intros H; inversion H; subst. cbn [accepted]. rewrite app_nil_r. exact Hi.
  - inversion Hps; subst. destruct (wr_Write p r) as [[n x] r1] eqn:E1.
    destruct (wr_writes ps r1) as [l1 r2] eqn:E2. intros H; inversion H; subst.
    cbn [accepted]. rewrite app_assoc. eapply IH; [|assumption|exact E2]. eapply write_ok; eauto.
Qed.

Lemma next_ok o z h c r h1 r' : winv o z h c r -> careful h1 -> hd_path h <> hd_path h1 ->
  WriteHeader h1 r = (WOk, r') -> exists z', winv o z' h1 [] r' /\ zlog z' = zlog z ++ [(h, c)].
Proof.
  intros Hi ((cs & Hcs & Hp1) & HT & HS) Hne. pose proof Hi as [Hg Ho Hz Hp Hs _]. unfold WriteHeader.
  destruct (hd_Validate h1) as [[]| |] eqn:HV; [|discriminate..]. rewrite Ho, Hg.
  destruct (cw_close (wr_cw r) (wr_sink r)) as [[[e|]|] [cw w]] eqn:HC; [discriminate| |discriminate].
  destruct (close_ok _ _ _ _ _ _ _ Hi HC) as (t & Ht & Hh & Hit & Hout & Hnd).
  destruct (handle h (zup z) h1 cw w) as [e cw2 w2|cur' up' cw2 w2] eqn:HH; [discriminate|].
  intros H; inversion H; subst r'. rewrite <- Hh in HH.
  apply (handle_sound o z t cs) in HH; auto.
  - destruct HH as (-> & z' & w1 & -> & Hz' & -> & Hlog & Hout' & HE).
    destruct (emit_head_ok _ _ _ _ _ HV HT HS HE) as (head & Hsh & Hw & Hc).
    exists z'. split; [|rewrite Hlog, Hit; reflexivity].
    split; auto. exists head. split; [exact Hsh|]. cbn [wr_sink wr_cw]. rewrite Hw, Hout', app_nil_r. split; [reflexivity|].
    destruct Hc as [(T & ->)|(T & b & -> & Hpl)]; [left; split; [exact T|]; split; [reflexivity|cbn; lia]|right].
    split; [exact T|]. split; [reflexivity|]. eauto.
  - intros ->. congruence.
  - intros es m x E. elim (Hnd _ _ _ E).
Qed.
Lemma first_ok o w h1 r' : careful h1 -> out w = o ++ str "nix-archive-1" ->
  WriteHeader h1 (WR w WFirst CWNil false) = (WOk, r') -> winv o [] h1 [] r'.
Proof.
  intros (_ & HT & HS) Hw. unfold WriteHeader.
  destruct (hd_Validate h1) as [[]| |] eqn:HV; [|discriminate..]. cbn [wr_closed wr_gor wr_cw wr_sink].
  destruct (beq_spec (hd_path h1) (bs "/")) as [E|E]; cbn [negb]; [|discriminate].
  destruct (emit_head h1 CWNil w) as [[e|] [cw2 w2]] eqn:HE; [discriminate|].
  intros H; inversion H; subst r'.
  destruct (emit_head_ok _ _ _ _ _ HV HT HS HE) as (head & Hsh & Hw2 & Hc).
  split; auto; [constructor|]. exists head. split; [exact Hsh|]. cbn [wr_sink wr_cw zpre].
  rewrite Hw2, Hw, app_nil_r. split; [reflexivity|].
  destruct Hc as [(T & ->)|(T & b & -> & Hpl)]; [left; split; [exact T|]; split; [reflexivity|cbn; lia]|right].
  split; [exact T|]. split; [reflexivity|]. eauto.
Qed.

Lemma finish_ok o z : forall t w w', zok z -> writable t ->
  out w = zpre o z ++ head_of t ++ body_of t -> finish (zup z) w = (None, w') ->
  exists t', writable t' /\ out w' = o ++ nar t' /\ items [] t' = zlog z ++ items (zcs z) t.
Proof.
  induction z as [|[es m] z IH]; intros t w w' Hz Ht Hout; cbn [zup finish];
    (destruct (WriteString w _) as [[e|] w1] eqn:E1; [discriminate|]); apply WriteString_none in E1.
  - intros H; inversion H; subst w1. exists t. split; [exact Ht|]. split; [|reflexivity].
    rewrite E1, Hout. unfold nar. rewrite ser_split. cbn [zpre]. unfold str. rewrite <- !app_assoc. reflexivity.
  - destruct (WriteString w1 _) as [[e|] w2] eqn:E2; [discriminate|]. apply WriteString_none in E2.
    intros HF. inversion Hz as [|? ? Hf Hz']; subst. destruct Hf as (F1 & F2 & F3 & F4). cbn [fst snd] in *.
    destruct (IH (Dir (es ++ [(m, t)])) w2 w' Hz') as (t' & G1 & G2 & G3); auto.
    + constructor; [apply Forall_app; auto|rewrite map_app; exact F4|apply Forall_app; auto].
    + rewrite E2, E1, Hout. cbn [zpre]. rewrite body_snoc, (ser_split t). unfold str. rewrite <- !app_assoc. reflexivity.
    + exists t'. split; [exact G1|]. split; [exact G2|]. rewrite G3. cbn [zlog]. rewrite items_snoc, app_assoc. reflexivity.
Qed.
Lemma Close_ok o z h c r r' : winv o z h c r -> wr_Close r = (WOk, r') ->
  exists t, writable t /\ out (wr_sink r') = o ++ nar t /\ items [] t = zlog z ++ [(h, c)].
Proof.
  intros Hi. pose proof Hi as [Hg Ho Hz Hp Hs _]. unfold wr_Close. rewrite Ho, Hg.
  destruct (cw_close (wr_cw r) (wr_sink r)) as [[[e|]|] [cw w]] eqn:HC; [discriminate| |discriminate].
  destruct (close_ok _ _ _ _ _ _ _ Hi HC) as (t & Ht & Hh & Hit & Hout & Hnd).
  destruct (finish (zup z) w) as [[e|] w2] eqn:HF; [discriminate|]. intros H; inversion H; subst r'. cbn [wr_sink].
  rewrite <- Hit. eapply finish_ok; eauto.
Qed.

(** * Whole sessions *)
Definition hpaths (hist : list (header * list bytes)) : list bytes := map (fun x => hd_path (fst x)) hist.
Lemma session_inv o hist : forall z h c r res r', winv o z h c r ->
  Forall (fun x => careful (fst x) /\ Forall (fun p => lenN p < 2 ^ 63)%N (snd x)) hist ->
  no_repeat (hd_path h :: hpaths hist) ->
  wsession hist r = (res, r') -> Forall (fun x => fst x = WOk) res ->
  exists z' h' c', winv o z' h' c' r' /\ zlog z' ++ [(h', c')] = zlog z ++ (h, c) :: log_of hist res.
Proof.
  induction hist as [|[h1 ps] hist IH]; intros z h c r res r' Hi Hc Hn; cbn [wsession].
  - intros H; inversion H; subst. intros _. exists z, h, c. auto.
  - destruct (WriteHeader h1 r) as [x r1] eqn:E1. destruct (wr_writes ps r1) as [l r2] eqn:E2.
    destruct (wsession hist r2) as [o3 r3] eqn:E3. intros H; inversion H; subst res r3. intros HA.
    inversion HA as [|? ? Hx HA']; subst. cbn [fst] in Hx. subst x.
    inversion Hc as [|? ? [Hc1 Hc2] Hc3]; subst. cbn [fst snd] in *.
    cbn [hpaths map fst] in Hn. destruct Hn as [Hn1 Hn2].
    destruct (next_ok _ _ _ _ _ _ _ Hi Hc1 Hn1 E1) as (z1 & Hi1 & L1).
    apply (writes_ok _ _ _ _ _ _ _ _ Hi1 Hc2) in E2. cbn [app] in E2.
    destruct (IH _ _ _ _ _ _ E2 Hc3 Hn2 E3 HA') as (z' & h' & c' & Hi' & L').
    exists z', h', c'. split; [exact Hi'|]. rewrite L', L1, <- app_assoc. reflexivity.
Qed.
Lemma NewWriter_ok w0 r w : NewWriter w0 = (Ok r, w) ->
  r = WR w WFirst CWNil false /\ out w = out w0 ++ str "nix-archive-1".
Proof.
  unfold NewWriter. destruct (WriteString w0 _) as [[e|] w1] eqn:E; [discriminate|].
  apply WriteString_none in E. intros H; inversion H; subst. auto.
Qed.
Lemma session_sound w0 r0 w hist res r1 r2 :
  NewWriter w0 = (Ok r0, w) -> wsession hist r0 = (res, r1) -> Forall (fun x => fst x = WOk) res ->
  wr_Close r1 = (WOk, r2) ->
  Forall (fun x => careful (fst x) /\ Forall (fun p => lenN p < 2 ^ 63)%N (snd x)) hist ->
  no_repeat (hpaths hist) ->
  exists t, writable t /\ out (wr_sink r2) = out w0 ++ nar t /\ items [] t = log_of hist res.
Proof.
  intros HN HS HA HC Hc Hn. apply NewWriter_ok in HN. destruct HN as [-> Hw].
  destruct hist as [|[h1 ps] hist]; cbn [wsession] in HS.
  { inversion HS; subst. discriminate HC. }
  destruct (WriteHeader h1 _) as [x ra] eqn:E1. destruct (wr_writes ps ra) as [l rb] eqn:E2.
  destruct (wsession hist rb) as [o3 r3] eqn:E3. inversion HS; subst res r3.
  inversion HA as [|? ? Hx HA']; subst. cbn [fst] in Hx. subst x.
  inversion Hc as [|? ? [Hc1 Hc2] Hc3]; subst. cbn [fst snd] in *.
  apply (first_ok _ _ _ _ Hc1 Hw) in E1. apply (writes_ok _ _ _ _ _ _ _ _ E1 Hc2) in E2. cbn [app] in E2.
  destruct (session_inv _ _ _ _ _ _ _ _ E2 Hc3 Hn E3 HA') as (z' & h' & c' & Hi' & L').
  destruct (Close_ok _ _ _ _ _ _ Hi' HC) as (t & T1 & T2 & T3). exists t. split; [exact T1|]. split; [exact T2|].
  rewrite T3, L'. reflexivity.
Qed.
