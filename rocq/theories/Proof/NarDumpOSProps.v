(** Dumping a file system that changes meanwhile. *)
From Verif Require Import Base.Bytes Base.BytesFacts Model.GoIO Model.GoStd Model.Wire Model.Nar
  Model.NarWriter Model.NarDump Model.NarDumpOS Spec.WireSpec Spec.NarSpec Spec.NarWHist Spec.NarDumpSpec Spec.NarDumpOSSpec
  Proof.NarPath Proof.EntryPath Proof.NarReaderFacts Proof.NarWriterSound Proof.NarWriterComplete Proof.NarDumpProps.
Ltac Zify.zify_post_hook ::= idtac.

Lemma names_of_map (es : list (bytes * fs)) : Forall entry_name (map fst es) -> Forall (fun e => entry_name (fst e)) es.
Proof. rewrite !Forall_forall. intros H e He. apply H. apply in_map. exact He. Qed.

Section OS.
Variable flt : option (bytes -> bytes -> bool).
Variable root : bytes.
Variable W : nat -> bytes -> os_answer.
Let keep := keep_of flt.

Definition os_list (fuel : nat) (subpath : bytes) :=
  fix loop (names : list bytes) (k : nat) (r : wr) : wres * (nat * wr) :=
    match names with
    | [] => (WOk, (k, r))
    | name :: names' =>
        let '(x, (k, r)) := dumpOS flt root W fuel (Join2 subpath name) k r in
        match x with WOk => loop names' k r | _ => (x, (k, r)) end
    end.
Lemma rejects_keep p ty : rejects flt p ty = negb (keep p ty).
Proof. unfold rejects, keep, keep_of. destruct flt; reflexivity. Qed.

Lemma rejects_val p ty b : keep p ty = b -> rejects flt p ty = negb b.
Proof. intros <-. apply rejects_keep. Qed.

(** A path and what was seen there, or that the filter rejects it. *)
Definition osees (i j : nat) (cs : list bytes) (o : option node) : Prop :=
  match o with
  | Some t => sees keep root W i j cs t
  | None => j = S i /\ exists ty, lstat_type (a_lstat (W i (full_path root cs))) = Some ty /\ keep (full_path root cs) ty = false
  end.
Lemma rejected_dump f cs r : kept keep root cs f = false -> dumpPath flt root f (path_of cs) r = (WOk, r).
Proof.
  intros K. destruct f; cbn [dumpPath]; rewrite rejected_kept; fold keep; rewrite K; reflexivity.
Qed.
Lemma rejected_tree f cs : kept keep root cs f = false -> tree_of keep root cs f = None.
Proof. intros K. destruct f; cbn [tree_of]; rewrite K; reflexivity. Qed.

Hypothesis HW : os_ok W.
Lemma os_sound fuel : forall cs k r k' r', ecomps cs ->
  dumpOS flt root W fuel (path_of cs) k r = (WOk, (k', r')) ->
  exists f, fs_ok f /\ dumpPath flt root f (path_of cs) r = (WOk, r') /\ osees k k' cs (tree_of keep root cs f).
Proof.
  induction fuel as [|fuel IH]; intros cs k r k' r' Hcs; cbn [dumpOS]; [discriminate|].
  fold (full_path root cs). destruct (HW k (full_path root cs)) as [HS _].
  destruct (a_lstat (W k (full_path root cs))) as [m s| | | |e] eqn:EL; try discriminate; rewrite rejects_keep.
  - specialize (HS _ _ eq_refl). change TypeRegular with (bs "regular") at 1.
    destruct (keep (full_path root cs) (bs "regular")) eqn:K; cbn [negb].
    + destruct (WriteHeader _ r) as [x r1] eqn:E1. destruct x; try discriminate.
      destruct (a_open _) as [d|e] eqn:EO; [|discriminate].
      destruct (io_copy _ d 0 r1) as [[n x] r2] eqn:E2. destruct x; try discriminate.
      destruct (Z.eqb_spec n s) as [Hn|]; [|discriminate]. intros H; inversion H; subst k' r2.
      assert (HK : kept keep root cs (FReg m s d) = true) by exact K.
      assert (HD : dumpPath flt root (FReg m s d) (path_of cs) r = (WOk, r')).
      { cbn [dumpPath]. rewrite rejected_kept. fold keep. rewrite HK. cbn [negb]. rewrite E1, E2, Hn, Z.eqb_refl. reflexivity. }
      exists (FReg m s d). split; [constructor; exact HS|]. split; [exact HD|].
      destruct (dump_sound flt root (FReg m s d) cs r r' (fo_reg _ _ _ HS) Hcs HD) as (I1 & _).
      cbn [intact] in I1. fold keep in I1. rewrite HK in I1. destruct I1 as [F1 F2].
      cbn [tree_of]. rewrite HK. cbn [osees]. econstructor; eauto.
    + intros H; inversion H; subst k' r'. exists (FReg m s (Src [] EEOF false)).
      split; [constructor; exact HS|]. split; [apply rejected_dump; exact K|]. rewrite rejected_tree by exact K.
      cbn [osees]. split; [reflexivity|]. exists (bs "regular"). rewrite EL. auto.
  - change TypeSymlink with (bs "symlink") at 1.
    destruct (keep (full_path root cs) (bs "symlink")) eqn:K; cbn [negb].
    + destruct (a_readlink _) as [t|e] eqn:EO; [|discriminate].
      destruct (WriteHeader _ r) as [x r1] eqn:E1. intros H; inversion H; subst x k' r1.
      assert (HK : kept keep root cs (FSym t) = true) by exact K.
      assert (HD : dumpPath flt root (FSym t) (path_of cs) r = (WOk, r')).
      { cbn [dumpPath]. rewrite rejected_kept. fold keep. rewrite HK. cbn [negb]. exact E1. }
      exists (FSym t). split; [constructor|]. split; [exact HD|].
      destruct (dump_sound flt root (FSym t) cs r r' (fo_sym _) Hcs HD) as (I1 & _).
      cbn [intact] in I1. fold keep in I1. rewrite HK in I1.
      cbn [tree_of]. rewrite HK. cbn [osees]. econstructor; eauto.
    + intros H; inversion H; subst k' r'. exists (FSym []).
      split; [constructor|]. split; [apply rejected_dump; exact K|]. rewrite rejected_tree by exact K.
      cbn [osees]. split; [reflexivity|]. exists (bs "symlink"). rewrite EL. auto.
  - change TypeDirectory with (bs "directory") at 1.
    destruct (keep (full_path root cs) (bs "directory")) eqn:K; cbn [negb].
    + destruct (WriteHeader _ r) as [x r1] eqn:E1. destruct x; try discriminate.
      destruct (a_readdir _) as [ns|e] eqn:EO; [|discriminate].
      fold (os_list fuel (path_of cs)). intros HL.
      destruct (HW (S k) (full_path root cs)) as [_ HN]. destruct (HN _ EO) as [N1 N2].
      assert (G : exists es, map fst es = ns /\ Forall (fun e => fs_ok (snd e)) es /\
        dump_list flt root (path_of cs) es r1 = (WOk, r') /\ lists keep root W (S (S k)) k' cs ns (sub_trees flt root cs es)).
      { clear EO HN N2 E1. revert HL. generalize (S (S k)). revert r1.
        induction ns as [|n ns IHn]; intros r1 k1 HL; cbn [os_list] in HL.
        - inversion HL; subst. exists []. repeat split; constructor.
        - inversion N1 as [|? ? Nn Nr]; subst. rewrite e_Join_path_of in HL by assumption.
          destruct (dumpOS flt root W fuel (path_of (cs ++ [n])) k1 r1) as [x [k2 r2]] eqn:E2. destruct x; try discriminate.
          apply IH in E2; [|apply Forall_app; split; auto]. destruct E2 as (f & F1 & F2 & F3).
          destruct (IHn Nr _ _ HL) as (es & G1 & G2 & G3 & G4).
          exists ((n, f) :: es). split; [cbn [map fst]; rewrite G1; reflexivity|]. split; [constructor; assumption|].
          split; [cbn [dump_list]; rewrite e_Join_path_of by assumption; rewrite F2; exact G3|].
          unfold sub_trees. cbn [map concat fst snd]. fold (sub_trees flt root cs es). fold keep.
          destruct (tree_of keep root (cs ++ [n]) f) as [t|]; cbn [osees app] in *.
          + econstructor; eassumption.
          + destruct F3 as (-> & ty & T1 & T2). econstructor; eassumption. }
      destruct G as (es & G1 & G2 & G3 & G4). exists (FDir es).
      split; [constructor; [|rewrite G1; exact N2|exact G2]|].
      { rewrite <- G1 in N1. apply names_of_map. exact N1. }
      assert (HK : kept keep root cs (FDir es) = true) by exact K.
      split.
      { cbn [dumpPath]. rewrite rejected_kept. fold keep. rewrite HK. cbn [negb]. rewrite E1. exact G3. }
      cbn [tree_of]. rewrite HK. cbn [osees]. fold (sub_trees flt root cs es). econstructor; eauto.
    + intros H; inversion H; subst k' r'. exists (FDir []).
      split; [constructor; [constructor|exact I|constructor]|]. split; [apply rejected_dump; exact K|]. rewrite rejected_tree by exact K.
      cbn [osees]. split; [reflexivity|]. exists (bs "directory"). rewrite EL. auto.
Qed.

Lemma os_success fuel w0 n w : DumpOS flt root W fuel w0 = (WOk, (n, w)) ->
  exists t, sees keep root W 0 n [] t /\ writable t /\ out w = out w0 ++ nar t.
Proof.
  unfold DumpOS. destruct (NewWriter w0) as [[r0|e|m] w1] eqn:EN; try discriminate.
  change (bs "/") with (path_of []).
  destruct (dumpOS flt root W fuel (path_of []) 0 r0) as [x [k r1]] eqn:ED. destruct x; try discriminate.
  2:{ destruct (wr_Close r1) as [y r2]. discriminate. }
  destruct (wr_Close r1) as [y r2] eqn:EC. intros H; inversion H; subst y w k.
  destruct (os_sound fuel [] 0 r0 n r1 (Forall_nil _) ED) as (f & F1 & F2 & F3).
  assert (HD : DumpPathFilter flt root w0 f = (WOk, wr_sink r2)).
  { unfold DumpPathFilter. rewrite EN. change (bs "/") with (path_of []). rewrite F2, EC. reflexivity. }
  destruct (dump_success_w flt root w0 f _ F1 HD) as (I1 & t & T1 & TW & T2).
  fold keep in T1, I1. rewrite T1 in F3. exists t. split; [exact F3|]. split; [exact TW|exact T2].
Qed.

(** * The other way *)
Scheme sees_mut := Minimality for sees Sort Prop
with lists_mut := Minimality for lists Sort Prop.

(** An observed tree as a file system tree the dump cannot tell apart. *)
Definition same_dump (i j : nat) (cs : list bytes) (f : fs) : Prop :=
  exists n0, forall fuel r r', n0 <= fuel -> dumpPath flt root f (path_of cs) r = (WOk, r') ->
    dumpOS flt root W fuel (path_of cs) i r = (WOk, (j, r')).
Lemma os_complete i j cs t : sees keep root W i j cs t -> ecomps cs ->
  exists f, fs_ok f /\ intact keep root cs f /\ tree_of keep root cs f = Some t /\ same_dump i j cs f.
Proof.
  intros H. revert i j cs t H.
  apply (sees_mut keep root W
    (fun i j cs t => ecomps cs -> exists f, fs_ok f /\ intact keep root cs f /\ tree_of keep root cs f = Some t /\ same_dump i j cs f)
    (fun i j cs ns es => ecomps cs -> Forall entry_name ns -> exists fe, map fst fe = ns /\ Forall (fun e => fs_ok (snd e)) fe /\
       fold_right (fun e P => intact keep root (cs ++ [fst e]) (snd e) /\ P) True fe /\ sub_trees flt root cs fe = es /\
       exists n0, forall fuel r r', n0 <= fuel -> dump_list flt root (path_of cs) fe r = (WOk, r') ->
         os_list fuel (path_of cs) ns i r = (WOk, (j, r')))).
  - intros i cs m s d EL EO F1 F2 K Hcs. destruct (HW i (full_path root cs)) as [HS _]. specialize (HS _ _ EL).
    assert (HK : kept keep root cs (FReg m s d) = true) by exact K.
    exists (FReg m s d). split; [constructor; exact HS|]. split; [cbn [intact]; rewrite HK; auto|].
    split; [cbn [tree_of]; rewrite HK; reflexivity|]. exists 1. intros [|fuel] r r' Hf; [lia|].
    cbn [dumpPath dumpOS]. rewrite rejected_kept. fold keep. rewrite HK. cbn [negb]. fold (full_path root cs).
    rewrite EL, EO. change (bs "regular") with TypeRegular in K. rewrite (rejects_val _ _ _ K). cbn [negb].
    destruct (WriteHeader _ r) as [x r1]. destruct x; try discriminate.
    destruct (io_copy _ d 0 r1) as [[n x] r2]. intros HH. congruence.
  - intros i cs t EL EO Ht K Hcs. assert (HK : kept keep root cs (FSym t) = true) by exact K.
    exists (FSym t). split; [constructor|]. split; [cbn [intact]; rewrite HK; auto|].
    split; [cbn [tree_of]; rewrite HK; reflexivity|]. exists 1. intros [|fuel] r r' Hf; [lia|].
    cbn [dumpPath dumpOS]. rewrite rejected_kept. fold keep. rewrite HK. cbn [negb]. fold (full_path root cs).
    rewrite EL, EO. change (bs "symlink") with TypeSymlink in K. rewrite (rejects_val _ _ _ K). cbn [negb].
    intros ->. reflexivity.
  - intros i j cs ns es EL EO K _ IH Hcs.
    destruct (HW (S i) (full_path root cs)) as [_ HN]. destruct (HN _ EO) as [N1 N2].
    destruct (IH Hcs N1) as (fe & F1 & F2 & F3 & F4 & n0 & F5).
    assert (HK : kept keep root cs (FDir fe) = true) by exact K.
    exists (FDir fe). split; [constructor; [rewrite <- F1 in N1; apply names_of_map; exact N1|rewrite F1; exact N2|exact F2]|].
    split; [cbn [intact]; rewrite HK; exact F3|].
    split; [cbn [tree_of]; rewrite HK; f_equal; f_equal; exact F4|]. exists (S n0). intros [|fuel] r r' Hf; [lia|].
    cbn [dumpPath dumpOS]. rewrite rejected_kept. fold keep. rewrite HK. cbn [negb]. fold (full_path root cs).
    rewrite EL, EO. change (bs "directory") with TypeDirectory in K. rewrite (rejects_val _ _ _ K). cbn [negb].
    destruct (WriteHeader _ r) as [x r1]. destruct x; try discriminate.
    fold (dump_list flt root (path_of cs)). fold (os_list fuel (path_of cs)). intros HL. apply F5; [lia|exact HL].
  - intros i cs Hcs _. exists []. split; [reflexivity|]. split; [constructor|]. split; [exact I|]. split; [reflexivity|].
    exists 0. intros fuel r r' _ H. cbn [dump_list] in H. cbn [os_list]. congruence.
  - intros i j k cs n ns t es _ IH1 _ IH2 Hcs Hn. inversion Hn as [|? ? Nn Nr]; subst.
    assert (Hcs' : ecomps (cs ++ [n])) by (apply Forall_app; split; auto).
    destruct (IH1 Hcs') as (f & A1 & A2 & A3 & n1 & A4). destruct (IH2 Hcs Nr) as (fe & B1 & B2 & B3 & B4 & n2 & B5).
    exists ((n, f) :: fe). split; [cbn [map fst]; congruence|]. split; [constructor; assumption|].
    split; [cbn [fold_right fst snd]; auto|].
    split; [unfold sub_trees; cbn [map concat fst snd]; fold (sub_trees flt root cs fe); fold keep; rewrite A3, B4; reflexivity|].
    exists (n1 + n2). intros fuel r r' Hf. cbn [dump_list os_list]. rewrite e_Join_path_of by assumption.
    destruct (dumpPath flt root f (path_of (cs ++ [n])) r) as [x r1] eqn:E1. destruct x; try discriminate.
    rewrite (A4 fuel _ _ ltac:(lia) E1). intros HL. apply B5; [lia|exact HL].
  - intros i k cs n ns ty es HT HK _ IH Hcs Hn. inversion Hn as [|? ? Nn Nr]; subst.
    destruct (IH Hcs Nr) as (fe & B1 & B2 & B3 & B4 & n2 & B5).
    assert (G : exists f, fs_ok f /\ kept keep root (cs ++ [n]) f = false /\
      forall fuel r, dumpOS flt root W (S fuel) (path_of (cs ++ [n])) i r = (WOk, (S i, r))).
    { destruct (HW i (full_path root (cs ++ [n]))) as [HS _].
      destruct (a_lstat (W i (full_path root (cs ++ [n])))) as [m s| | | |e] eqn:EL; cbn [lstat_type] in HT;
        try discriminate; injection HT as <-.
      - exists (FReg m s (Src [] EEOF false)). split; [constructor; apply (HS _ _ eq_refl)|]. split; [exact HK|].
        intros fuel r. cbn [dumpOS]. fold (full_path root (cs ++ [n])). rewrite EL. change (bs "regular") with TypeRegular in HK. rewrite (rejects_val _ _ _ HK). reflexivity.
      - exists (FSym []). split; [constructor|]. split; [exact HK|].
        intros fuel r. cbn [dumpOS]. fold (full_path root (cs ++ [n])). rewrite EL. change (bs "symlink") with TypeSymlink in HK. rewrite (rejects_val _ _ _ HK). reflexivity.
      - exists (FDir []). split; [constructor; [constructor|exact I|constructor]|]. split; [exact HK|].
        intros fuel r. cbn [dumpOS]. fold (full_path root (cs ++ [n])). rewrite EL. change (bs "directory") with TypeDirectory in HK. rewrite (rejects_val _ _ _ HK). reflexivity. }
    destruct G as (f & A1 & A2 & A3).
    exists ((n, f) :: fe). split; [cbn [map fst]; congruence|]. split; [constructor; assumption|].
    split; [cbn [fold_right fst snd]; split; [|exact B3]; destruct f; cbn [intact]; rewrite A2; exact I|].
    split; [unfold sub_trees; cbn [map concat fst snd]; fold (sub_trees flt root cs fe); fold keep; rewrite (rejected_tree _ _ A2), B4; reflexivity|].
    exists (S n2). intros [|fuel] r r' Hf; [lia|]. cbn [dump_list os_list]. rewrite e_Join_path_of by assumption.
    rewrite (rejected_dump _ _ _ A2), A3. intros HL. apply B5; [lia|exact HL].
Qed.

Lemma os_perfect o n t : sees keep root W 0 n [] t -> writable t ->
  exists n0, forall fuel, n0 <= fuel -> exists w, DumpOS flt root W fuel (Sink o []) = (WOk, (n, w)) /\ out w = o ++ nar t.
Proof.
  intros Hs Hw. destruct (os_complete 0 n [] t Hs (Forall_nil _)) as (f & F1 & F2 & F3 & n0 & F4). exists n0. intros fuel Hf.
  pose proof (dump_perfect flt root o f F1 F2) as HD. fold keep in HD. rewrite F3 in HD.
  destruct (HD Hw) as (w & E1 & E2). exists w. split; [|exact E2].
  unfold DumpPathFilter in E1. unfold DumpOS. destruct (NewWriter (Sink o [])) as [[r0|e|m] w1]; try discriminate.
  change (bs "/") with (path_of []) in *.
  destruct (dumpPath flt root f (path_of []) r0) as [x r1] eqn:ED. destruct x; try discriminate.
  2:{ destruct (wr_Close r1). discriminate. }
  rewrite (F4 fuel _ _ Hf ED). destruct (wr_Close r1) as [y r2]. congruence.
Qed.
End OS.

(** * A tree that does not change *)
Section Still.
Variable flt : option (bytes -> bytes -> bool).
Variable root : bytes.
Variable W : nat -> bytes -> os_answer.
Lemma still_dump f : forall cs, fs_ok f -> ecomps cs -> still root W cs f ->
  exists n0, forall fuel k r, n0 <= fuel ->
    exists k', dumpOS flt root W fuel (path_of cs) k r = (fst (dumpPath flt root f (path_of cs) r), (k', snd (dumpPath flt root f (path_of cs) r))).
Proof.
  induction f as [m s d|m s e|t|e|es IH|e| |e] using fs_ind2; intros cs Hok Hcs Hst; inversion Hst as [? ? HA HC]; subst;
    [exists 1|exists 1|exists 1|exists 1| |exists 1|exists 1|exists 1];
    try (intros [|fuel] k r Hf; [lia|]; pose proof (HA k) as H0; pose proof (HA (S k)) as H1; cbn [answers] in H0, H1;
         cbn [dumpPath dumpOS]; fold (full_path root cs);
         unfold rejected, node_type; fold (full_path root cs); unfold rejects;
         try (destruct H0 as [H0 H0']; destruct H1 as [H1 H1']; rewrite H1'); rewrite H0;
         destruct flt as [g|]; try destruct (g _ _); cbn [negb fst snd]; eauto;
         try (destruct (WriteHeader _ r) as [[]]; eauto);
         try (destruct (io_copy _ _ _ _) as [[? []]]; eauto); fail).
  specialize (HC es eq_refl). inversion Hok as [| | | |? O1 O2 O3| | |]; subst.
  assert (G : exists n0, forall fuel k r, n0 <= fuel ->
    exists k', os_list flt root W fuel (path_of cs) (map fst es) k r =
      (fst (dump_list flt root (path_of cs) es r), (k', snd (dump_list flt root (path_of cs) es r)))).
  { clear Hok O2 Hst HA. induction es as [|[n f] es IHes].
    - exists 0. intros fuel k r _. exists k. reflexivity.
    - inversion IH as [|? ? IHx IHr]; subst. inversion O1; subst. inversion O3; subst. inversion HC; subst. cbn [fst snd map] in *.
      destruct (IHx (cs ++ [n])) as (n1 & A); [assumption|apply Forall_app; split; auto|assumption|].
      destruct IHes as (n2 & B); [assumption..|].
      exists (n1 + n2). intros fuel k r Hf. cbn [os_list dump_list]. rewrite e_Join_path_of by assumption.
      destruct (A fuel k r ltac:(lia)) as (k1 & A1). rewrite A1.
      destruct (dumpPath flt root f (path_of (cs ++ [n])) r) as [x r1]. cbn [fst snd].
      destruct x; eauto. apply B. lia. }
  destruct G as (n0 & G). exists (S n0). intros [|fuel] k r Hf; [lia|].
  pose proof (HA k) as H0; pose proof (HA (S k)) as H1; cbn [answers] in H0, H1. destruct H0 as [H0 _], H1 as [_ H1].
  cbn [dumpPath dumpOS]. fold (full_path root cs). rewrite H0, H1. unfold rejected, node_type, rejects. fold (full_path root cs).
  fold (dump_list flt root (path_of cs)). fold (os_list flt root W fuel (path_of cs)).
  assert (HH : exists k', (let '(x, r0) := WriteHeader (Header (path_of cs) TypeDirectory [] 0 false) r in
     match x with WOk => os_list flt root W fuel (path_of cs) (map fst es) (S (S k)) r0 | _ => (x, (S k, r0)) end) =
     (fst (let '(x, r0) := WriteHeader (Header (path_of cs) TypeDirectory [] 0 false) r in
     match x with WOk => dump_list flt root (path_of cs) es r0 | _ => (x, r0) end),
     (k', snd (let '(x, r0) := WriteHeader (Header (path_of cs) TypeDirectory [] 0 false) r in
     match x with WOk => dump_list flt root (path_of cs) es r0 | _ => (x, r0) end)))).
  { destruct (WriteHeader _ r) as [x r1]. destruct x; cbn [fst snd]; eauto. apply G. lia. }
  destruct flt as [g|]; [destruct (g (full_path root cs) TypeDirectory); cbn [negb]|]; eauto.
Qed.
Lemma still_DumpOS f : fs_ok f -> still root W [] f ->
  exists n0, forall fuel w, n0 <= fuel -> exists k,
    DumpOS flt root W fuel w = (fst (DumpPathFilter flt root w f), (k, snd (DumpPathFilter flt root w f))).
Proof.
  intros Hok Hst. destruct (still_dump f [] Hok (Forall_nil _) Hst) as (n0 & G). exists n0. intros fuel w Hf.
  unfold DumpOS, DumpPathFilter. destruct (NewWriter w) as [[r0|e|m] w1]; cbn [fst snd]; eauto.
  destruct (G fuel 0 r0 Hf) as (k & E). change (bs "/") with (path_of []). rewrite E.
  destruct (dumpPath flt root f (path_of []) r0) as [x r1]. cbn [fst snd].
  destruct x; cbn [fst snd]; eauto; destruct (wr_Close r1); cbn [fst snd]; eauto.
Qed.
End Still.
