(** Properties C27, C29, C35-C37 of /repo/pkg/nar (the Writer). *)
From Verif Require Import Base.Bytes Base.BytesFacts Model.GoIO Model.GoStd Model.Wire Model.Nar
  Model.NarReader Model.NarWriter Spec.WireSpec Spec.WireHist Spec.NarSpec Spec.NarHist Spec.NarWHist Spec.PipelineSpec
  Proof.NarReaderFacts Proof.NarSession Proof.NarWriterSound Proof.NarWriterComplete Proof.NarWriterHist
  Props.NarReaderP.
Ltac Zify.zify_post_hook ::= idtac.

(** C27: writing a tree.  [writable] excludes only names that begin with "..". *)
Theorem C27_writes_the_tree_partial : forall o t hist,
  writable t -> history_of (items [] t) hist ->
  exists r0 w res r1 r2, NewWriter (Sink o []) = (Ok r0, w) /\ wsession hist r0 = (res, r1) /\ all_ok hist res /\
    wr_Close r1 = (WOk, r2) /\ out (wr_sink r2) = o ++ nar t.
Proof. exact writer_session. Qed.
Print Assumptions C27_writes_the_tree_partial.
(** Missing: an entry named "..x" is valid in the format but refused. *)
Theorem C27_writes_the_tree_refuted :
  let t := Dir [(bs "..x", Sym (bs "y"))] in
  valid_tree t /\ exists r0 w r1 r2 e, NewWriter (Sink [] []) = (Ok r0, w) /\
    WriteHeader (hdr_of [] t) r0 = (WOk, r1) /\
    WriteHeader (hdr_of [bs "..x"] (Sym (bs "y"))) r1 = (WErr e, r2).
Proof.
  split.
  - constructor; [|exact I|]; repeat constructor; try discriminate; cbn [fst];
      intros H; repeat destruct H as [H|H]; try discriminate H; destruct H.
  - eexists _, _, _, _, _. split; [vm_compute; reflexivity|]. split; [vm_compute; reflexivity|]. vm_compute. reflexivity.
Qed.
Print Assumptions C27_writes_the_tree_refuted.
(** Exactly: a tree of the format can be written if and only if it has no name that begins with "..". *)
Theorem C27_exact : forall o t hist, valid_tree t -> go_sized t -> history_of (items [] t) hist ->
  (writable t <->
   exists r0 w res r1 r2, NewWriter (Sink o []) = (Ok r0, w) /\ wsession hist r0 = (res, r1) /\ all_ok hist res /\
     wr_Close r1 = (WOk, r2)).
Proof.
  intros o t hist Hv Hs Hh. split.
  - intros Hw. destruct (writer_session o t hist Hw Hh) as (r0 & w & res & r1 & r2 & E1 & E2 & E3 & E4 & _). eauto 9.
  - intros (r0 & w & res & r1 & r2 & E1 & E2 & E3 & E4). eapply only_writable; eassumption.
Qed.
Print Assumptions C27_exact.
Lemma ex_tree_writable : writable ex_tree.
Proof.
  assert (Hn : forall n, In n [bs "bin"; bs "sh"; bs "empty"; bs "lib"] -> entry_name n /\ writer_name n).
  { intros n Hin. repeat destruct Hin as [<-|Hin]; try destruct Hin; (split; [|discriminate]);
      repeat split; try discriminate; cbn; intuition discriminate. }
  repeat (constructor; cbn [fst snd]); try (apply Hn; cbn; tauto); try discriminate; reflexivity.
Qed.
Example C27_nonvacuous : writable ex_tree /\ go_sized ex_tree /\
  history_of (items [] ex_tree)
    (map (fun it => (fst it, match snd it with [] => [] | b :: c => [[b]; []; c] end)) (items [] ex_tree)).
Proof.
  split; [exact ex_tree_writable|]. split; [repeat constructor|]. unfold history_of. cbv [ex_tree items map concat app fst snd content_of hdr_of].
  repeat constructor.
Qed.

(** C29: the Writer's output read back. *)
Definition both_names (n : bytes) : Prop := reader_name n /\ writer_name n.
Lemma wf_weaken (X : bytes -> Prop) t : wf_tree both_names t -> (forall n, both_names n -> X n) -> wf_tree X t.
Proof.
  intros H HX. induction t as [e c|tg|es IH] using node_ind2; inversion H as [| |? W1 W2 W3]; subst; constructor; auto.
  - eapply Forall_impl; [|exact W1]. intros a [A B]. auto.
  - clear -IH W3. induction IH; [constructor|]. inversion W3; subst. constructor; auto.
Qed.
Lemma wf_writable t : wf_tree both_names t -> writable t.
Proof.
  intros H. induction t as [e c|tg|es IH] using node_ind2; inversion H as [| |? W1 W2 W3]; subst; constructor; auto.
  - eapply Forall_impl; [|exact W1]. intros a [A [_ B]]. split; [|exact B].
    destruct A as (A1 & A2 & A3 & A4 & A5 & _). repeat split; assumption.
  - clear -IH W3. induction IH; [constructor|]. inversion W3; subst. constructor; auto.
Qed.
Theorem C29_round_trip_partial : forall t hist e s plans,
  wf_tree both_names t -> history_of (items [] t) hist ->
  exists r0 w res r1 r2, NewWriter (Sink [] []) = (Ok r0, w) /\ wsession hist r0 = (res, r1) /\ all_ok hist res /\
    wr_Close r1 = (WOk, r2) /\
    (flat s = (out (wr_sink r2), e) ->
     exists rd0 s1 o rd1, NewReader s = (Ok rd0, s1) /\ session plans rd0 = (o, rd1) /\
       session_of (items [] t) plans o).
Proof.
  intros t hist e s plans Ht Hh.
  destruct (writer_session [] t hist (wf_writable t Ht) Hh) as (r0 & w & res & r1 & r2 & E1 & E2 & E3 & E4 & E5).
  exists r0, w, res, r1, r2. repeat (split; [assumption|]). rewrite E5. cbn [app]. intros F.
  destruct (reader_session t s [] e plans) as (r & s1 & o & r' & H1 & H2 & H3 & _).
  - apply wf_weaken; [exact Ht|]. intros n [A _]. exact A.
  - rewrite app_nil_r. exact F.
  - exists r, s1, o, r'. auto.
Qed.
Print Assumptions C29_round_trip_partial.
Example C29_nonvacuous : wf_tree both_names ex_tree.
Proof.
  assert (Hn : forall n, In n [bs "bin"; bs "sh"; bs "empty"; bs "lib"] -> name_ok n /\ both_names n).
  { intros n Hin. repeat destruct Hin as [<-|Hin]; try destruct Hin; (split; [|split; discriminate]);
      repeat split; try discriminate; try (cbn; intuition discriminate); cbn; lia. }
  repeat (constructor; cbn [fst snd]); try (apply Hn; cbn; tauto); try discriminate; reflexivity.
Qed.

(** C35: for every history of calls on every sink, a file that was followed by
    an accepted header is complete; ... *)
Theorem C35_earlier_files_complete : forall w0 r0 w ops l r l1 f l2,
  NewWriter w0 = (Ok r0, w) -> short_writes ops -> wr_run ops r0 = (l, r) ->
  files None l = l1 ++ f :: l2 -> l2 <> [] -> received_all f.
Proof. exact earlier_files. Qed.
Print Assumptions C35_earlier_files_complete.
(** ... Close returns nil, with no earlier WriteHeader error, only if all are; ... *)
Theorem C35_close_files_complete_partial : forall w0 r0 w ops l r r',
  NewWriter w0 = (Ok r0, w) -> short_writes ops -> wr_run ops r0 = (l, r) -> no_failed_header l ->
  wr_Close r = (WOk, r') -> Forall received_all (files None l).
Proof. exact close_files_done. Qed.
Print Assumptions C35_close_files_complete_partial.
(** ... and a Write beyond Size, or to a symlink or directory, changes nothing. *)
Theorem C35_too_long_rejected : forall w0 r0 w ops l r l1 h c p,
  NewWriter w0 = (Ok r0, w) -> short_writes ops -> wr_run ops r0 = (l, r) -> no_failed_header l ->
  files None l = l1 ++ [(h, c)] -> (lenN p < 2 ^ 63)%N ->
  (hd_type h = bs "regular" /\ (0 <= hd_size h < 2 ^ 63)%Z /\ (hd_size h < Z.of_nat (length c + length p))%Z) \/
  ((hd_type h = bs "symlink" \/ hd_type h = bs "directory") /\ p <> []) ->
  exists e, wr_Write p r = ((0, WErr e), r).
Proof. exact too_long. Qed.
Print Assumptions C35_too_long_rejected.
Definition ex_ops : list wr_op :=
  [WHeader (Header (bs "/") (bs "directory") [] 0 false); WBytes (bs "x");
   WHeader (Header (bs "/f") (bs "regular") [] 5 false); WBytes (bs "abc")].
(** Missing: the file is short, the next WriteHeader fails, and Close says nil. *)
Theorem C35_short_file_refuted : exists r0 w l r r',
  NewWriter (Sink [] []) = (Ok r0, w) /\
  wr_run (ex_ops ++ [WHeader (Header (bs "/g") (bs "symlink") (bs "f") 0 false)]) r0 = (l, r) /\
  files None l = [(Header (bs "/") (bs "directory") [] 0 false, []); (Header (bs "/f") (bs "regular") [] 5 false, bs "abc")] /\
  wr_Close r = (WOk, r').
Proof.
  eexists _, _, _, _, _. split; [vm_compute; reflexivity|]. split; [vm_compute; reflexivity|].
  split; [vm_compute; reflexivity|]. vm_compute. reflexivity.
Qed.
Print Assumptions C35_short_file_refuted.
Example C35_nonvacuous : exists r0 w l r,
  NewWriter (Sink [] []) = (Ok r0, w) /\ wr_run ex_ops r0 = (l, r) /\ no_failed_header l /\
  files None l = [(Header (bs "/") (bs "directory") [] 0 false, [])] ++ [(Header (bs "/f") (bs "regular") [] 5 false, bs "abc")] /\
  (exists e, wr_Write (bs "def") r = ((0, WErr e), r)) /\
  (exists r1 r2, wr_Write (bs "de") r = ((2, WOk), r1) /\ wr_Close r1 = (WOk, r2)).
Proof.
  eexists _, _, _, _. split; [vm_compute; reflexivity|]. split; [vm_compute; reflexivity|].
  split; [repeat constructor|]. split; [reflexivity|]. split; [eexists; vm_compute; reflexivity|].
  eexists _, _. split; [vm_compute; reflexivity|]. vm_compute. reflexivity.
Qed.

(** C36: whatever the sink does, if every WriteHeader and Close returned nil the
    output is the canonical NAR of a tree, namely the one with these headers
    and the accepted contents.  Asks for canonical paths, none twice in a row,
    and the three known types. *)
Theorem C36_closed_is_valid_partial : forall w0 r0 w hist res r1 r2,
  NewWriter w0 = (Ok r0, w) -> wsession hist r0 = (res, r1) -> Forall (fun x => fst x = WOk) res ->
  wr_Close r1 = (WOk, r2) ->
  Forall (fun x => careful (fst x) /\ Forall (fun p => lenN p < 2 ^ 63)%N (snd x)) hist ->
  no_repeat (map (fun x => hd_path (fst x)) hist) ->
  exists t, writable t /\ out (wr_sink r2) = out w0 ++ nar t /\ items [] t = log_of hist res.
Proof. exact session_sound. Qed.
Print Assumptions C36_closed_is_valid_partial.
Example C36_nonvacuous : exists r0 w res r1 r2,
  let hist := map (fun it => (fst it, [snd it])) (items [] ex_tree) in
  NewWriter (Sink [] [None; None]) = (Ok r0, w) /\ wsession hist r0 = (res, r1) /\ Forall (fun x => fst x = WOk) res /\
  wr_Close r1 = (WOk, r2) /\ no_repeat (map (fun x => hd_path (fst x)) hist).
Proof.
  eexists _, _, _, _, _. split; [vm_compute; reflexivity|]. split; [vm_compute; reflexivity|].
  split; [repeat constructor|]. split; [vm_compute; reflexivity|]. vm_compute.
  repeat split; discriminate.
Qed.
(** Missing: the same directory path twice gives an entry named "."; *)
Theorem C36_repeated_refuted : exists r0 w r1 r2,
  NewWriter (Sink [] []) = (Ok r0, w) /\
  wsession [(hdr_of [] (Dir []), []); (hdr_of [] (Dir []), [])] r0 = ([(WOk, []); (WOk, [])], r1) /\
  wr_Close r1 = (WOk, r2) /\ out (wr_sink r2) = nar (Dir [(bs ".", Dir [])]) /\ ~ valid_tree (Dir [(bs ".", Dir [])]).
Proof.
  eexists _, _, _, _. split; [vm_compute; reflexivity|]. split; [vm_compute; reflexivity|].
  split; [vm_compute; reflexivity|]. split; [vm_compute; reflexivity|].
  intros H. inversion H as [| |? H1 Ha Hb]; subst. inversion H1 as [|? ? H2 _]; subst. destruct H2 as (_ & H2 & _). apply H2. reflexivity.
Qed.
Print Assumptions C36_repeated_refuted.
(** paths that are not clean give unsorted entries; *)
Theorem C36_unclean_refuted : exists r0 w r1 r2,
  let t := Dir [(bs "b", Sym (bs "x")); (bs "a", Sym (bs "x"))] in
  NewWriter (Sink [] []) = (Ok r0, w) /\
  wsession [(hdr_of [] (Dir []), []); (Header (bs "/b") (bs "symlink") (bs "x") 0 false, []);
            (Header (bs "/c/../a") (bs "symlink") (bs "x") 0 false, [])] r0 = ([(WOk, []); (WOk, []); (WOk, [])], r1) /\
  wr_Close r1 = (WOk, r2) /\ out (wr_sink r2) = nar t /\ ~ valid_tree t.
Proof.
  eexists _, _, _, _. split; [vm_compute; reflexivity|]. split; [vm_compute; reflexivity|].
  split; [vm_compute; reflexivity|]. split; [vm_compute; reflexivity|].
  intros H. inversion H as [| |? Ha H1 Hb]; subst. cbn [map fst names_sorted] in H1. destruct H1 as [H1 _]. discriminate H1.
Qed.
Print Assumptions C36_unclean_refuted.
(** unknown types are written as they are. *)
Theorem C36_unknown_type_refuted : exists r0 w r1 r2 r3,
  let h := Header (bs "/x") (bs "socket") [] 0 false in
  NewWriter (Sink [] []) = (Ok r0, w) /\ WriteHeader (hdr_of [] (Dir [])) r0 = (WOk, r1) /\
  WriteHeader h r1 = (WOk, r2) /\ wr_Close r2 = (WOk, r3) /\
  out (wr_sink r3) = str "nix-archive-1" ++ str "(" ++ str "type" ++ str "directory" ++ entry_open (bs "x") ++
    str "(" ++ str "type" ++ str "socket" ++ str ")" ++ str ")" ++ str ")".
Proof.
  eexists _, _, _, _, _. split; [vm_compute; reflexivity|]. split; [vm_compute; reflexivity|].
  split; [vm_compute; reflexivity|]. split; [vm_compute; reflexivity|]. vm_compute. reflexivity.
Qed.
Print Assumptions C36_unknown_type_refuted.

(** C37: in every state, a call during which the sink fails reports an error. *)
Theorem C37_failure_reported_partial :
  (forall h r r', WriteHeader h r = (WOk, r') -> quiet (wr_sink r) (wr_sink r')) /\
  (forall p r n r', wr_Write p r = ((n, WOk), r') -> quiet (wr_sink r) (wr_sink r')) /\
  (forall r r', wr_Close r = (WOk, r') -> quiet (wr_sink r) (wr_sink r')).
Proof. split; [exact WriteHeader_quiet|]. split; [exact Write_quiet|exact Close_quiet]. Qed.
Print Assumptions C37_failure_reported_partial.
(** But after a failed WriteHeader, Close always returns nil and a further
    WriteHeader always blocks. *)
Theorem C37_after_failure_refuted : forall h r e r',
  wr_closed r = false -> hd_Validate h = Ok tt -> WriteHeader h r = (WErr e, r') ->
  wr_Close r' = (WOk, WR (wr_sink r') WGone (wr_cw r') true) /\
  forall h2, hd_Validate h2 = Ok tt -> WriteHeader h2 r' = (WBlocked, r').
Proof. exact dead_after_error. Qed.
Print Assumptions C37_after_failure_refuted.
Example C37_nonvacuous : exists r0 w e r1,
  NewWriter (Sink [] [None; None; None; None; Some 3]) = (Ok r0, w) /\
  WriteHeader (hdr_of [] (Dir [])) r0 = (WErr e, r1) /\ wr_closed r0 = false /\
  hd_Validate (hdr_of [] (Dir [])) = Ok tt.
Proof.
  eexists _, _, _, _. split; [vm_compute; reflexivity|]. split; [vm_compute; reflexivity|]. split; reflexivity.
Qed.
