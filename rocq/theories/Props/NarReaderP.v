(** Properties C25, C26, C28, C30-C34 of /repo/pkg/nar. *)
From Verif Require Import Base.Bytes Base.BytesFacts Model.GoIO Model.GoStd Model.Wire Model.Nar
  Model.NarReader Spec.WireSpec Spec.WireHist Spec.NarSpec Spec.NarHist Spec.NarCut
  Proof.NarUtilProps Proof.NarPath Proof.NarReaderFacts Proof.NarSession Proof.NarReaderAny Proof.NarTrunc Proof.NarCut.
Ltac Zify.zify_post_hook ::= idtac.

(** C25: the function is the union of two orders, not the component order. *)
Theorem C25_path_order_partial : forall a b,
  PathIsLexicographicallyOrdered a b = true <-> ble a b = true \/ component_le a b.
Proof. exact lex_ordered_exact. Qed.
Print Assumptions C25_path_order_partial.
(** Missing: with ble a b = false only the right disjunct; the code accepts both
    directions for this pair, so it is not an order. *)
Theorem C25_path_order_refuted :
  PathIsLexicographicallyOrdered (bs "/foo-a") (bs "/foo/b") = true /\
  ~ component_le (bs "/foo-a") (bs "/foo/b") /\
  PathIsLexicographicallyOrdered (bs "/foo/b") (bs "/foo-a") = true.
Proof.
  split; [reflexivity|]. split; [|reflexivity]. unfold component_le. intros H. apply H. reflexivity.
Qed.
Print Assumptions C25_path_order_refuted.
(** Paths in component order are never rejected. *)
Theorem C25_component_order_accepted_partial : forall a b,
  component_le a b -> PathIsLexicographicallyOrdered a b = true.
Proof. intros a b H. apply lex_ordered_exact. auto. Qed.
Print Assumptions C25_component_order_accepted_partial.
Example C25_nonvacuous : component_le (bs "/foo/b") (bs "/foo-a") /\ ble (bs "/foo/b") (bs "/foo-a") = false.
Proof. split; [intros H; discriminate H|reflexivity]. Qed.

(** C26: Validate. *)
Theorem C26_validate_exact : forall h, hd_Validate h = Ok tt <->
  (exists p, hd_path h = "/"%byte :: p) /\ ~ In x00 (hd_path h) /\
  ((hd_type h = bs "regular" \/ hd_type h = bs "directory") -> hd_target h = []) /\
  ((hd_type h = bs "directory" \/ hd_type h = bs "symlink") -> hd_size h = 0%Z /\ hd_exec h = false) /\
  (hd_type h = bs "symlink" -> hd_target h <> []).
Proof. exact validate_header_exact. Qed.
Print Assumptions C26_validate_exact.
(** FileInfo for the three types: permission bits; IsDir; ModeSymlink. *)
Theorem C26_fileinfo_partial : forall h, fi_Size h = hd_size h /\ fi_Name h = hd_path h /\
  (fi_IsDir h = true <-> hd_type h = bs "directory") /\
  (hd_type h = bs "regular" -> N.land (fi_Mode h) 511 = (if hd_exec h then 365 else 292)%N /\
     N.land (fi_Mode h) (ModeDir + ModeSymlink) = 0%N) /\
  (hd_type h = bs "directory" -> N.land (fi_Mode h) 511 = 365%N) /\
  (hd_type h = bs "symlink" -> fi_Mode h = N.lor ModeSymlink 511).
Proof.
  intros h. split; [reflexivity|]. split; [reflexivity|]. split; [unfold fi_IsDir; destruct (beq_spec (hd_type h) TypeDirectory); [split; auto|split; [discriminate|contradiction]]|].
  unfold fi_Mode. split; [|split]; intros ->; try reflexivity. destruct (hd_exec h); split; reflexivity.
Qed.
Print Assumptions C26_fileinfo_partial.
(** Mode of a directory lacks the directory bit although IsDir is true. *)
Theorem C26_fileinfo_refuted : forall h, hd_type h = bs "directory" ->
  fi_IsDir h = true /\ N.land (fi_Mode h) ModeDir = 0%N.
Proof. intros h H. unfold fi_IsDir, fi_Mode. rewrite H. split; reflexivity. Qed.
Print Assumptions C26_fileinfo_refuted.
(** The Windows variant: the type bits are right for all three types, and no mode has the owner's write bit 0200. *)
Theorem C26_fileinfo_windows : forall h, N.land (fi_Mode_windows h) 128 = 0%N /\
  (hd_type h = bs "regular" -> fi_Mode_windows h = 383%N) /\
  (hd_type h = bs "directory" -> fi_Mode_windows h = ModeDir) /\
  (hd_type h = bs "symlink" -> fi_Mode_windows h = ModeSymlink).
Proof.
  intros h. split; [apply N.bits_inj; intros i; unfold fi_Mode_windows; rewrite N.land_spec, N.ldiff_spec, N.bits_0, <- andb_assoc; destruct (N.testbit 128 i); rewrite ?andb_false_r; reflexivity|].
  split; [|split]; intros H; unfold fi_Mode_windows; rewrite H; reflexivity.
Qed.
Print Assumptions C26_fileinfo_windows.
(** Validate accepts a negative size and unknown types. *)
Theorem C26_validate_refuted :
  hd_Validate (Header (bs "/") (bs "regular") [] (-1)%Z false) = Ok tt /\
  hd_Validate (Header (bs "/") (bs "whatever") (bs "x") 7%Z true) = Ok tt.
Proof. split; reflexivity. Qed.
Print Assumptions C26_validate_refuted.
Example C26_nonvacuous : hd_Validate (Header (bs "/a") (bs "symlink") (bs "b") 0 false) = Ok tt /\
  hd_type (Header (bs "/a") (bs "directory") [] 0 false) = bs "directory".
Proof. split; reflexivity. Qed.

(** C28: reading a canonical archive.  [reader_name] excludes only entries
    named ")". *)
Theorem C28_reads_the_tree_partial : forall t s rest e plans,
  wf_tree reader_name t -> flat s = (nar t ++ rest, e) ->
  exists r s1 o r', NewReader s = (Ok r, s1) /\ session plans r = (o, r') /\
    session_of (items [] t) plans o /\
    (nodes t < length plans -> flat (rd_src r') = (rest, e)).
Proof.
  intros t s rest e plans H1 H2. destruct (reader_session t s rest e plans H1 H2) as (r & s1 & o & r' & H).
  rewrite items_length in H. eauto 8.
Qed.
Print Assumptions C28_reads_the_tree_partial.
(** An entry named ")" ends the directory: the second entry is never reported. *)
Theorem C28_reads_the_tree_refuted :
  let t := Dir [(bs ")", Sym (bs "x")); (bs "a", Sym (bs "y"))] in
  wf_tree any_name t /\
  exists r s1 r', NewReader (Src [nar t] EEOF false) = (Ok r, s1) /\
    session [[]; []; []; []] r =
      ([(Ok (hdr_of [] t), []); (Ok (hdr_of [bs ")"] (Sym (bs "x"))), []);
        (Err EEOF, []); (Err EEOF, [])], r').
Proof.
  split.
  - constructor.
    + repeat (constructor; [split; [|exact I]; repeat split; try discriminate;
        try (intros [H|[]]; discriminate); cbn; lia|]). constructor.
    + split; [reflexivity|exact I].
    + repeat constructor; discriminate.
  - eexists _, _, _. split; [vm_compute; reflexivity|]. vm_compute. reflexivity.
Qed.
Print Assumptions C28_reads_the_tree_refuted.
Definition ex_tree : node :=
  Dir [(bs "bin", Dir [(bs "sh", Reg true (bs "#!interp"))]); (bs "empty", Reg false []); (bs "lib", Sym (bs "lib64"))].
Example C28_nonvacuous : wf_tree reader_name ex_tree /\
  flat (Src [firstn 100 (nar ex_tree); []; skipn 100 (nar ex_tree)] EEOF true) = (nar ex_tree ++ [], EEOF) /\
  map (fun p => hd_path (fst p)) (items [] ex_tree) = [bs "/"; bs "/bin"; bs "/bin/sh"; bs "/empty"; bs "/lib"].
Proof.
  assert (Hn : forall n, In n [bs "bin"; bs "sh"; bs "empty"; bs "lib"] -> name_ok n /\ reader_name n).
  { intros n Hin. repeat destruct Hin as [<-|Hin]; try destruct Hin; (split; [|discriminate]);
      repeat split; try discriminate; try (cbn; intuition discriminate); cbn; lia. }
  split; [|split; vm_compute; reflexivity].
  repeat (constructor; cbn [fst snd]); try (apply Hn; cbn; tauto); try discriminate; reflexivity.
Qed.

(** C30: a truncated archive whose stream ends in a visible error (anything but
    io.EOF) is never reported as complete, and only true headers are reported. *)
Theorem C30_truncation_partial : forall t s z r s1 plans o r',
  wf_tree reader_name t -> src_data s ++ z = nar t -> 7 < length z -> fin s <> EEOF ->
  NewReader s = (Ok r, s1) -> session plans r = (o, r') ->
  ~ In (Err EEOF) (map fst o) /\ prefix_of (ok_headers o) (map fst (items [] t)) /\
  (nodes t < length plans -> exists er, In (Err er) (map fst o)).
Proof. exact truncated_session. Qed.
Print Assumptions C30_truncation_partial.
(** Without those hypotheses it is false: an archive cut behind the root
    directory's header, on a stream that ends with io.EOF, looks complete... *)
Theorem C30_truncation_refuted :
  let t := Dir [(bs "a", Sym (bs "y"))] in
  let cut := firstn 80 (nar t) in
  exists r s1 r', cut ++ skipn 80 (nar t) = nar t /\ length (skipn 80 (nar t)) = 208 /\
    NewReader (Src [cut] EEOF false) = (Ok r, s1) /\
    session [[]; []] r = ([(Ok (hdr_of [] t), []); (Err EEOF, [])], r').
Proof. cbn zeta. eexists _, _, _. split; [apply firstn_skipn|]. split; [reflexivity|]. split; [vm_compute; reflexivity|]. vm_compute. reflexivity. Qed.
Print Assumptions C30_truncation_refuted.
(** ... and so does one cut in the padding of the last token, on any stream. *)
Theorem C30_padding_refuted :
  let t := Sym (bs "y") in
  let n := length (nar t) - 7 in
  exists r s1 r', NewReader (Src [firstn n (nar t)] (EMsg "broken pipe") false) = (Ok r, s1) /\
    session [[]; []] r = ([(Ok (hdr_of [] t), []); (Err EEOF, [])], r').
Proof. cbn zeta. eexists _, _, _. split; [vm_compute; reflexivity|]. vm_compute. reflexivity. Qed.
Print Assumptions C30_padding_refuted.
(** Exactly: the pieces are the archive... *)
Theorem C30_pieces_partial : forall t, concat (map piece_bytes (nar_pieces t)) = nar t.
Proof. intros t. unfold nar_pieces. cbn [map concat piece_bytes]. change (concat (map piece_bytes (pieces t))) with (pbytes (pieces t)). rewrite pieces_ser. reflexivity. Qed.
Print Assumptions C30_pieces_partial.
(** ... and a cut archive is taken for a complete one exactly if the cut looks complete (Spec/NarCut.v), for
    every archive, every cut, every stream and every consumer. *)
Theorem C30_exact_partial : forall t s z plans,
  wf_tree reader_name t -> src_data s ++ z = nar t -> nodes t < length plans ->
  (exists r s1 o r', NewReader s = (Ok r, s1) /\ session plans r = (o, r') /\ In (Err EEOF) (map fst o)) <->
  looks_complete (fin s) (nar_pieces t) (length (src_data s)).
Proof. intros t s z plans H1 H2 H3. exact (proj1 (cut_archive t s z plans H1 H2 H3)). Qed.
Print Assumptions C30_exact_partial.
(** On a stream that breaks with another error, exactly if no more than the last padding is missing. *)
Theorem C30_broken_stream_partial : forall t s z plans,
  wf_tree reader_name t -> src_data s ++ z = nar t -> nodes t < length plans -> fin s <> EEOF ->
  (exists r s1 o r', NewReader s = (Ok r, s1) /\ session plans r = (o, r') /\ In (Err EEOF) (map fst o)) <-> length z <= 7.
Proof. intros t s z plans H1 H2 H3 H4. rewrite (C30_exact_partial t s z plans H1 H2 H3). exact (broken_cut t s z H2 H4). Qed.
Print Assumptions C30_broken_stream_partial.
(** Wherever the cut is, only true headers are reported, in order, and then an error. *)
Theorem C30_cut_headers_partial : forall t s z plans r s1 o r',
  wf_tree reader_name t -> src_data s ++ z = nar t -> nodes t < length plans ->
  NewReader s = (Ok r, s1) -> session plans r = (o, r') ->
  prefix_of (ok_headers o) (map fst (items [] t)) /\ exists er, In (Err er) (map fst o).
Proof. intros t s z plans r s1 o r' H1 H2 H3. exact (proj2 (cut_archive t s z plans H1 H2 H3) r s1 o r'). Qed.
Print Assumptions C30_cut_headers_partial.
Example C30_exact_nonvacuous :
  let t := Reg false (bs "0123456789") in
  wf_tree reader_name t /\
  (* cut in the contents, in the length field behind "contents", in the padding of the contents *)
  looks_complete EEOF (nar_pieces t) 100 /\ ~ looks_complete EEOF (nar_pieces t) 90 /\ ~ looks_complete EEOF (nar_pieces t) 108 /\
  ~ looks_complete EUnexpectedEOF (nar_pieces t) 100 /\ looks_complete EUnexpectedEOF (nar_pieces t) (length (nar t) - 7).
Proof.
  cbn zeta. split; [constructor; reflexivity|]. unfold nar_pieces. cbn [pieces app looks_complete].
  repeat match goal with |- context [length ?x] => let n := eval vm_compute in (length x) in change (length x) with n end.
  cbn [Nat.sub]. repeat split; intuition (try discriminate; try lia).
Qed.
Example C30_nonvacuous :
  let s := Src [firstn 260 (nar ex_tree)] EUnexpectedEOF false in
  src_data s ++ skipn 260 (nar ex_tree) = nar ex_tree /\ 7 < length (skipn 260 (nar ex_tree)) /\
  exists r s1, NewReader s = (Ok r, s1) /\ ok_headers (fst (session [[]; []; []; []] r)) =
    [hdr_of [] ex_tree; hdr_of [bs "bin"] (Dir [])].
Proof.
  cbn zeta. split; [unfold src_data; cbn [chunks concat]; rewrite app_nil_r; apply firstn_skipn|].
  split; [apply Nat.ltb_lt; vm_compute; reflexivity|]. eexists _, _. split; [vm_compute; reflexivity|]. vm_compute. reflexivity.
Qed.

(** C31: errors are sticky. *)
Theorem C31_errors_sticky : forall r e r1 ops l r2,
  Next r = (Err e, r1) -> rd_run ops r1 = (l, r2) ->
  (forall y, In (SNext y) l -> y = Err e) /\ Next r2 = (Err e, r2).
Proof. intros r e r1 ops l r2. apply sticky. Qed.
Print Assumptions C31_errors_sticky.
Example C31_nonvacuous : exists r s1 r1, NewReader (Src [str "nix-archive-1"; [x01]] EEOF false) = (Ok r, s1) /\
  Next r = (Err EUnexpectedEOF, r1) /\ snd (rd_run [ORead 3; OClose; ONext] r1) <> r1.
Proof. eexists _, _, _. split; [vm_compute; reflexivity|]. split; [vm_compute; reflexivity|]. vm_compute. discriminate. Qed.

(** C32: for every stream the headers form a tree in order... *)
Theorem C32_headers_form_a_tree_partial : forall s r s1 ops l r',
  NewReader s = (Ok r, s1) -> no_close ops -> rd_run ops r = (l, r') ->
  tree_like (headers_of l) /\ in_order (headers_of l).
Proof.
  intros s r s1 ops l r' HN Hc HR. destruct (new_inv _ _ _ HN) as (H1 & H2 & _).
  destruct (run_inv ops [] _ r l r' H1 H2 Hc HR) as ((_ & H3 & H4 & _) & _). auto.
Qed.
Print Assumptions C32_headers_form_a_tree_partial.
(** The other fields of every header: a known type, a size and target only where they belong, within
    the limits. *)
Theorem C32_header_fields : forall s r s1 ops l r',
  NewReader s = (Ok r, s1) -> no_close ops -> rd_run ops r = (l, r') -> Forall hd_fields (headers_of l).
Proof.
  intros s r s1 ops l r' HN Hc HR. destruct (new_inv _ _ _ HN) as (H1 & H2 & _). exact (run_fields ops [] _ r l r' H1 H2 Hc HR).
Qed.
Print Assumptions C32_header_fields.
(** ... but the same path can be reported twice, and an entry can be called "..". *)
Theorem C32_distinct_refuted :
  let dup := Dir [(bs "a", Sym (bs "y")); (bs "a", Sym (bs "y")); (bs "..", Sym (bs "z"))] in
  exists r s1 o r', NewReader (Src [nar dup] EEOF false) = (Ok r, s1) /\
    session [[]; []; []; []] r = (o, r') /\
    map hd_path (ok_headers o) = [bs "/"; bs "/a"; bs "/a"] /\
  exists r2 s2 o2 r2', NewReader (Src [nar (Dir [(bs "..", Sym (bs "z"))])] EEOF false) = (Ok r2, s2) /\
    session [[]; []; []] r2 = (o2, r2') /\ map hd_path (ok_headers o2) = [bs "/"; bs "/"].
Proof.
  cbn zeta. eexists _, _, _, _. split; [vm_compute; reflexivity|]. split; [vm_compute; reflexivity|].
  split; [reflexivity|]. eexists _, _, _, _. split; [vm_compute; reflexivity|]. split; [vm_compute; reflexivity|].
  reflexivity.
Qed.
Print Assumptions C32_distinct_refuted.
Example C32_nonvacuous : exists r s1 l r', NewReader (Src [nar ex_tree] EEOF false) = (Ok r, s1) /\
  rd_run [ONext; ONext; ORead 4; ONext; ORead 4; ONext; ONext; ONext] r = (l, r') /\
  map hd_path (headers_of l) = [bs "/"; bs "/bin"; bs "/bin/sh"; bs "/empty"; bs "/lib"].
Proof. eexists _, _, _, _. split; [vm_compute; reflexivity|]. split; [vm_compute; reflexivity|]. reflexivity. Qed.

(** C33: at most one header per 24 bytes, and Next always returns (the parser's
    fuel is always enough: [run_all] obeys its own unrolling and never stops
    half-way). *)
Theorem C33_terminates : forall s r s1 ops l r',
  NewReader s = (Ok r, s1) -> no_close ops -> rd_run ops r = (l, r') ->
  24 * length (headers_of l) <= length (src_data s) /\ (forall w, ~ In (SNext (Panic w)) l).
Proof.
  intros s r s1 ops l r' HN Hc HR. destruct (new_inv _ _ _ HN) as (H1 & H2 & _).
  destruct (run_inv ops [] _ r l r' H1 H2 Hc HR) as ((H3 & _) & _ & H4). cbn [app] in H3. unfold dlen in H3.
  split; [lia|exact H4].
Qed.
Print Assumptions C33_terminates.
Theorem C33_next_returns : forall c st s,
  run_all c st s = match pstep1 c st s with PGo c' st' s' => run_all c' st' s' | r => r end /\
  match run_all c st s with PGo _ _ _ => False | _ => True end.
Proof. intros c st s. split; [apply run_all_step|apply run_all_not_go]. Qed.
Print Assumptions C33_next_returns.
Theorem C33_eventually_an_error : forall s r s1 plans o r',
  NewReader s = (Ok r, s1) -> session plans r = (o, r') -> length (src_data s) < 24 * length plans ->
  exists e, In (Err e) (map fst o).
Proof.
  intros s r s1 plans o r' HN HS Hl. destruct (new_inv _ _ _ HN) as (H1 & H2 & _).
  assert (G : forall plans hs r o r', rinv hs (dlen s) r -> rd_closed r = false -> session plans r = (o, r') ->
     (exists e, In (Err e) (map fst o)) \/ 24 * (length hs + length plans) <= dlen s).
  { clear. induction plans as [|ns plans IH]; intros hs r o r' Hi Hc HS; cbn [session] in HS.
    - right. destruct Hi as (Hi & _). cbn. lia.
    - destruct (Next r) as [x ra] eqn:EN. destruct (rd_reads ns ra) as [l rb] eqn:ER.
      destruct (session plans rb) as [o1 rc] eqn:ES. injection HS as <- <-.
      destruct (next_inv _ _ _ _ _ Hi EN) as (N1 & N2 & N3). destruct (N3 Hc) as [N4 N5].
      destruct x as [h|e|w]; [|left; exists e; left; reflexivity|elim (N5 w); reflexivity].
      specialize (N1 h eq_refl).
      assert (Hb : rinv (hs ++ [h]) (dlen s) rb /\ rd_closed rb = false).
      { clear - N1 N4 ER. revert ra l N1 N4 ER. induction ns as [|n ns IHn]; intros ra l N1 N4 ER; cbn [rd_reads] in ER.
        - injection ER as <- <-. auto.
        - destruct (rd_Read n ra) as [[b er] r3] eqn:E3. destruct (rd_reads ns r3) as [l3 r4] eqn:E4.
          injection ER as <- <-. destruct (read_inv _ _ _ _ _ _ _ N1 E3) as (J1 & J2 & _).
          apply (IHn r3 l3); [exact J1|congruence|exact E4]. }
      destruct Hb as [Hb Hbc]. destruct (IH _ _ _ _ Hb Hbc ES) as [(e & He)|Hle].
      + left. exists e. right. exact He.
      + right. rewrite app_length in Hle. cbn [length] in *. lia. }
  destruct (G plans [] r o r' H1 H2 HS) as [G1|G1]; [exact G1|]. unfold dlen in G1. cbn [length] in G1. lia.
Qed.
Print Assumptions C33_eventually_an_error.

(** C34: Close.  The parser goroutine terminates if Next was never called or
    the parser has already delivered its final error; calling Close again is
    harmless exactly after io.EOF. *)
Theorem C34_close_partial : forall s r s1 ops l r' x r'',
  NewReader s = (Ok r, s1) -> no_close ops -> rd_run ops r = (l, r') -> rd_Close r' = (x, r'') ->
  x = Ok tt /\
  (~ In ONext ops -> rd_gor r'' = GExit) /\
  (forall e, In (SNext (Err e)) l -> e <> EMsg "received header in the wrong order" -> rd_gor r'' = GExit) /\
  (In (SNext (Err EEOF)) l -> r'' = r' /\ rd_Close r'' = (Ok tt, r'')) /\
  (~ In (SNext (Err EEOF)) l -> exists w, rd_Close r'' = (Panic w, r'')).
Proof.
  intros s r s1 ops l r' x r'' HN Hc HR HC. destruct (new_inv _ _ _ HN) as (H1 & H2 & H3 & H4).
  destruct (run_inv ops [] _ r l r' H1 H2 Hc HR) as (H5 & H6 & _).
  split; [|split; [|split; [|split]]].
  - unfold rd_Close in HC. rewrite H6 in HC. destruct (rd_err r') as [[]|]; congruence.
  - intros Hno. destruct (first_run ops r l r' Hc Hno HR) as [Hg He]. rewrite H4 in Hg. rewrite H3 in He.
    unfold rd_Close in HC. rewrite He, H6, Hg in HC. injection HC as <- <-. reflexivity.
  - intros e Hin Hw. pose proof (seen_err ops r l r' e HR Hin) as He.
    assert (Hg : rd_gor r' = GExit).
    { eapply (einv_run ops r); [exact Hc| |exact HR|exact He|exact Hw]. intros ? Hx. congruence. }
    unfold rd_Close in HC. rewrite He, H6, Hg in HC. destruct e; injection HC as <- <-; first [exact Hg|reflexivity].
  - intros Hin. pose proof (seen_err ops r l r' EEOF HR Hin) as He. unfold rd_Close in HC. rewrite He in HC. injection HC as <- <-.
    split; [reflexivity|]. unfold rd_Close. rewrite He. reflexivity.
  - intros Hno. assert (He : rd_err r' <> Some EEOF).
    { intros X. exact (Hno (err_seen ops r l r' EEOF H2 Hc H3 HR X)). }
    assert (X : rd_closed r'' = true /\ rd_err r'' = rd_err r').
    { unfold rd_Close in HC. rewrite H6 in HC. cbv zeta in HC.
      destruct (rd_err r') as [[| | |]|]; try congruence;
        injection HC as <- <-; destruct (rd_gor r') as [|w0 st0| |]; try (split; reflexivity); destruct (run_all CRet st0 (rd_src r')); split; reflexivity. }
    destruct X as [X1 X2]. unfold rd_Close. rewrite X1, X2. destruct (rd_err r') as [[| | |]|]; try congruence; eexists; reflexivity.
Qed.
Print Assumptions C34_close_partial.
(** Otherwise, when headers were returned and no error yet, Close leaves the
    goroutine blocked for ever, and a second Close panics. *)
Theorem C34_close_refuted : forall s r s1 ops l r' x r'' h,
  NewReader s = (Ok r, s1) -> no_close ops -> rd_run ops r = (l, r') -> rd_Close r' = (x, r'') ->
  In (SNext (Ok h)) l -> (forall e, ~ In (SNext (Err e)) l) ->
  rd_gor r'' = GBlocked /\ exists w, rd_Close r'' = (Panic w, r'').
Proof.
  intros s r s1 ops l r' x r'' h HN Hc HR HC Hin Hno. destruct (new_inv _ _ _ HN) as (H1 & H2 & H3 & H4).
  destruct (run_inv ops [] _ r l r' H1 H2 Hc HR) as (H5 & H6 & _).
  pose proof (no_err_seen ops r l r' H2 Hc H3 HR Hno) as He.
  destruct H5 as (_ & _ & _ & H5). destruct (H5 He) as [_ H7]. destruct (H7 H6) as (H8 & H9 & H10).
  unfold rd_Close in HC. rewrite He, H6 in HC.
  destruct (rd_gor r') as [|w st| |]; try congruence.
  - cbn [gor_ok app] in H8. elim (headers_of_in _ _ Hin). exact H8.
  - injection HC as <- <-. unfold rd_Close.
    destruct (run_all CRet st (rd_src r')); cbn [rd_gor rd_err rd_closed]; (split; [reflexivity|]); try rewrite He; eauto.
Qed.
Print Assumptions C34_close_refuted.
Example C34_nonvacuous : exists r s1 l r', NewReader (Src [nar ex_tree] EEOF false) = (Ok r, s1) /\
  rd_run [ONext; ORead 1] r = (l, r') /\ exists h, l = [SNext (Ok h); SRead [] (Some EEOF)].
Proof. eexists _, _, _, _. split; [vm_compute; reflexivity|]. split; [vm_compute; reflexivity|]. eauto. Qed.
