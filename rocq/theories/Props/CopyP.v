(** Property C116: copying any archive; and what a Writer makes of any headers (C36). *)
From Verif Require Import Base.Bytes Base.BytesFacts Model.GoIO Model.GoStd Model.Wire Model.Nar Model.NarReader Model.NarWriter
  Spec.WireSpec Spec.NarSpec Spec.NarHist Spec.NarWHist Spec.NarBackSpec Spec.NarParenSpec Spec.PipelineSpec Spec.CopySpec
  Proof.EntryPath Proof.NarReaderAny Proof.NarWriterComplete Proof.NarExtract Proof.NarWriterTree Proof.NarWriterExact Proof.NarCopy Props.NarWriterP Props.BackP.
Ltac Zify.zify_post_hook ::= idtac.

(** * C32: the paths *)
(** Whatever the stream holds, every path is made of proper names of at most 255 bytes. *)
Theorem C32_paths : forall s r s1 ops l r',
  NewReader s = (Ok r, s1) -> no_close ops -> rd_run ops r = (l, r') ->
  Forall (fun h => exists cs, hd_path h = path_of cs /\ Forall name_ok cs) (headers_of l).
Proof.
  intros s r s1 ops l r' HN Hc HR. destruct (reported_short _ _ _ _ _ _ HN Hc HR) as (css & (P1 & P2 & _) & Q).
  apply Forall_forall. intros h I. assert (I2 : In (hd_path h) (map path_of css)) by (rewrite <- P1; apply in_map; exact I).
  apply in_map_iff in I2. destruct I2 as (cs & E & I2). rewrite Forall_forall in P2, Q. exists cs. split; [auto|].
  specialize (P2 cs I2). specialize (Q cs I2). apply Forall_forall. intros c Ic. unfold ecomps in P2. rewrite Forall_forall in P2. unfold short in Q. rewrite Forall_forall in Q.
  destruct (P2 c Ic) as (A & B & C & D & F). repeat split; auto.
Qed.
Print Assumptions C32_paths.

(** * C36: any headers *)
(** If a Writer accepts the headers - with any paths - and can be closed, the output is the serialisation of
    some tree whose nodes in depth-first order have the types, targets, sizes, executable bits and contents written. *)
Theorem C36_always_a_tree : forall w0 r0 w hist res r1 r2,
  NewWriter w0 = (Ok r0, w) -> wsession hist r0 = (res, r1) -> Forall (fun x => fst x = WOk) res ->
  wr_Close r1 = (WOk, r2) ->
  Forall (fun x => known_type (fst x) /\ (0 <= hd_size (fst x) < 2 ^ 63)%Z /\ Forall (fun p => lenN p < 2 ^ 63)%N (snd x)) hist ->
  exists t, out (wr_sink r2) = out w0 ++ nar t /\ map bare (items [] t) = map bare (log_of hist res).
Proof.
  intros w0 r0 w hist res r1 r2 H1 H2 H3 H4 H5. destruct (gsound w0 r0 w hist res r1 r2 H1 H2 H3 H4 H5) as (t & A & B & _). exists t. auto.
Qed.
Print Assumptions C36_always_a_tree.
(** With canonical paths it is a valid archive exactly if no path came twice in a row. *)
Theorem C36_exact : forall w0 r0 w hist res r1 r2,
  NewWriter w0 = (Ok r0, w) -> wsession hist r0 = (res, r1) -> Forall (fun x => fst x = WOk) res ->
  wr_Close r1 = (WOk, r2) ->
  Forall (fun x => careful (fst x) /\ go_header (fst x) /\ Forall (fun p => lenN p < 2 ^ 63)%N (snd x)) hist ->
  (exists t, valid_tree t /\ go_sized t /\ out (wr_sink r2) = out w0 ++ nar t) <-> no_repeat (map (fun x => hd_path (fst x)) hist).
Proof. exact writer_exact. Qed.
Print Assumptions C36_exact.
(** Both kinds of history occur: this one is accepted and repeats a path. *)
Definition twice : list (header * list bytes) :=
  [(hdr_of [] (Dir []), []); (hdr_of [bs "a"] (Dir []), []); (hdr_of [bs "a"] (Reg false (bs "hi")), [bs "h"; bs "i"])].
Example C36_exact_nonvacuous : exists r0 w res r1 r2, NewWriter (Sink [] []) = (Ok r0, w) /\ wsession twice r0 = (res, r1) /\
  Forall (fun x => fst x = WOk) res /\ wr_Close r1 = (WOk, r2) /\
  Forall (fun x => careful (fst x) /\ go_header (fst x) /\ Forall (fun p => lenN p < 2 ^ 63)%N (snd x)) twice /\
  ~ no_repeat (map (fun x => hd_path (fst x)) twice) /\
  out (wr_sink r2) = nar (Dir [(bs "a", Dir [(bs ".", Reg false (bs "hi"))])]).
Proof.
  eexists _, _, _, _, _. split; [vm_compute; reflexivity|]. split; [vm_compute; reflexivity|]. split; [repeat constructor|].
  split; [vm_compute; reflexivity|]. split; [|split; [intros (_ & H & _); apply H; reflexivity|vm_compute; reflexivity]].
  assert (A : NarSpec.entry_name (bs "a")) by (repeat split; try discriminate; intros [X|[]]; discriminate X).
  assert (C : forall cs t, Forall NarSpec.entry_name cs -> (0 <= hd_size (hdr_of cs t) < 2 ^ 63)%Z -> careful (hdr_of cs t)).
  { intros cs t E S. split; [exists cs; split; [exact E|destruct t; reflexivity]|]. split; [|exact S]. unfold known_type. destruct t; cbn [hdr_of hd_type]; tauto. }
  assert (G : forall h, forallb (fun c => (lenN c <? 2 ^ 63)%N) (split_byte (hd_path h) "/"%byte) = true -> hd_target h = [] -> go_header h).
  { intros h F T. split; [|rewrite T; reflexivity]. apply Forall_forall. intros c Ic. rewrite forallb_forall in F. apply N.ltb_lt. auto. }
  assert (Z : forall z, ((0 <=? z) && (z <? 2 ^ 63))%Z = true -> (0 <= z < 2 ^ 63)%Z) by (intros z H; apply andb_true_iff in H; destruct H as [H1 H2]; split; [apply Z.leb_le; exact H1|apply Z.ltb_lt; exact H2]).
  unfold twice. repeat (apply Forall_cons || apply Forall_nil); cbn [fst snd]; (split; [apply C; [first [exact (Forall_nil _)|exact (Forall_cons _ A (Forall_nil _))]|apply Z; vm_compute; reflexivity]|split; [apply G; vm_compute; reflexivity|repeat constructor]]).
Qed.

(** * C116 *)
(** Whatever the stream: if all that a Reader reported is written to a Writer, every call succeeds and no path was
    reported twice in a row, the output is the canonical archive of a valid tree with just these nodes. *)
Theorem C116_copy_partial : forall s r s1 plans o r' w0 r0 w res r1 r2,
  NewReader s = (Ok r, s1) -> session plans r = (o, r') -> buffers_ok plans ->
  NewWriter w0 = (Ok r0, w) -> wsession (rewritten o) r0 = (res, r1) -> all_ok (rewritten o) res -> wr_Close r1 = (WOk, r2) ->
  no_repeat (map (fun x => hd_path (fst x)) (rewritten o)) ->
  exists t, valid_tree t /\ out (wr_sink r2) = out w0 ++ nar t /\ items [] t = contents (rewritten o).
Proof.
  intros s r s1 plans o r' w0 r0 w res r1 r2 A B C D E F G H.
  destruct (copy_tree s r s1 plans o r' w0 r0 w res r1 r2 A B C D E F G H) as (t & W & X & Y). exists t. split; [apply writable_valid; exact W|auto].
Qed.
Print Assumptions C116_copy_partial.
(** That no path was reported twice in a row is needed, always: otherwise the copy is no valid archive. *)
Theorem C116_exact : forall s r s1 plans o r' w0 r0 w res r1 r2,
  NewReader s = (Ok r, s1) -> session plans r = (o, r') -> buffers_ok plans ->
  NewWriter w0 = (Ok r0, w) -> wsession (rewritten o) r0 = (res, r1) -> all_ok (rewritten o) res -> wr_Close r1 = (WOk, r2) ->
  (exists t, valid_tree t /\ go_sized t /\ out (wr_sink r2) = out w0 ++ nar t) <-> no_repeat (map (fun x => hd_path (fst x)) (rewritten o)).
Proof. exact copy_exact. Qed.
Print Assumptions C116_exact.
(** What can be copied: on a sink that does not fail, all calls succeed and the output is a valid archive exactly for
    the [copyable] reports. *)
Theorem C116_copyable_iff : forall s r s1 plans o r' out0,
  NewReader s = (Ok r, s1) -> session plans r = (o, r') -> buffers_ok plans ->
  (exists r0 w res r1 r2 t, NewWriter (Sink out0 []) = (Ok r0, w) /\ wsession (rewritten o) r0 = (res, r1) /\ all_ok (rewritten o) res /\
     wr_Close r1 = (WOk, r2) /\ valid_tree t /\ go_sized t /\ out (wr_sink r2) = out0 ++ nar t) <-> copyable (rewritten o).
Proof.
  intros s r s1 plans o r' out0 A B C. split.
  - intros (r0 & w & res & r1 & r2 & t & D & E & F & G & H & S & X).
    assert (N : no_repeat (map (fun x => hd_path (fst x)) (rewritten o))).
    { apply (proj1 (copy_exact s r s1 plans o r' _ r0 w res r1 r2 A B C D E F G)). exists t. auto. }
    destruct (copy_tree s r s1 plans o r' _ r0 w res r1 r2 A B C D E F G N) as (t' & W & _ & Y). exact (tree_copyable t' _ W Y N).
  - intros K. destruct (copy_succeeds s r s1 plans o r' out0 A B C K) as (r0 & w & res & r1 & r2 & t & D & E & F & G & W & X & Y).
    destruct (proj2 (copy_exact s r s1 plans o r' _ r0 w res r1 r2 A B C D E F G) (cp_paths _ K)) as (t' & V & S & Z).
    exists r0, w, res, r1, r2, t'. auto 10.
Qed.
Print Assumptions C116_copyable_iff.
(** Read again, the copy gives the same headers with the same contents, and then the end - with [k] closing tokens
    left unread, none if no path ends with "/)". *)
Theorem C116_read_again_partial : forall s r s1 plans o r' w0 r0 w res r1 r2 s2 rest e plans2,
  NewReader s = (Ok r, s1) -> session plans r = (o, r') -> buffers_ok plans ->
  NewWriter w0 = (Ok r0, w) -> wsession (rewritten o) r0 = (res, r1) -> all_ok (rewritten o) res -> wr_Close r1 = (WOk, r2) ->
  no_repeat (map (fun x => hd_path (fst x)) (rewritten o)) ->
  nothing_after_paren (map fst (rewritten o)) ->
  out w0 ++ fst (flat s2) = out (wr_sink r2) ++ rest -> snd (flat s2) = e ->
  exists rd0 s3 o2 rd1 k, NewReader s2 = (Ok rd0, s3) /\ session plans2 rd0 = (o2, rd1) /\
    session_of (contents (rewritten o)) plans2 o2 /\
    (length (rewritten o) < length plans2 -> flat (rd_src rd1) = (closers k ++ rest, e)) /\
    ((forall x q, In x (rewritten o) -> hd_path (fst x) <> q ++ bs "/)") -> k = 0).
Proof.
  intros s r s1 plans o r' w0 r0 w res r1 r2 s2 rest e plans2 A B C D E F G N P X Y.
  pose proof (reader_headers _ _ _ _ _ _ A B) as RH. pose proof (chunks_small _ _ _ _ C B) as CS.
  rewrite <- (log_all _ _ _ (history_contents _ CS) F).
  apply (C113_read_back_partial w0 r0 w (rewritten o) res r1 r2 s2 rest e plans2 D E (all_ok_WOk _ _ F) G); auto.
  - rewrite Forall_forall in *. intros x I. destruct (reader_careful _ (RH x I)). auto.
  - rewrite Forall_forall in *. intros x I. destruct (RH x I) as (Fd & cs & Ep & Ec & Es). split.
    + apply Forall_forall. intros c Ic. rewrite Ep, e_split_path_of in Ic by exact Ec.
      destruct Ic as [<-|Ic]; [cbn; lia|]. destruct cs as [|c0 cs]; [destruct Ic as [<-|[]]; cbn; lia|]. unfold short in Es. rewrite Forall_forall in Es. exact (Es c Ic).
    + destruct Fd as [(_ & _ & ->)|[(_ & _ & _ & L)|(_ & _ & _ & ->)]]; [cbn; lia|exact L|cbn; lia].
Qed.
Print Assumptions C116_read_again_partial.
(** The claim fails for an archive with the same directory twice: all calls succeed, and the copy has an entry called ".". *)
Definition doubled : node := Dir [(bs "a", Dir []); (bs "a", Dir [])].
Theorem C116_repeat_refuted : exists r s1 o r' r0 w res r1 r2,
  NewReader (Src [nar doubled] EEOF false) = (Ok r, s1) /\ session [[]; []; []; []] r = (o, r') /\ In (Err EEOF) (map fst o) /\
  NewWriter (Sink [] []) = (Ok r0, w) /\ wsession (rewritten o) r0 = (res, r1) /\ all_ok (rewritten o) res /\ wr_Close r1 = (WOk, r2) /\
  out (wr_sink r2) = nar (Dir [(bs "a", Dir [(bs ".", Dir [])])]) /\
  ~ exists t, valid_tree t /\ go_sized t /\ out (wr_sink r2) = nar t.
Proof.
  eexists _, _, _, _, _, _, _, _, _. split; [vm_compute; reflexivity|]. split; [vm_compute; reflexivity|]. split; [cbn; tauto|].
  split; [vm_compute; reflexivity|]. split; [vm_compute; reflexivity|]. split; [repeat constructor|]. split; [vm_compute; reflexivity|].
  split; [vm_compute; reflexivity|]. intros H.
  refine ((fun K => _) (proj1 (C116_exact (Src [nar doubled] EEOF false) _ _ [[]; []; []; []] _ _ (Sink [] []) _ _ _ _ _ ltac:(vm_compute; reflexivity) ltac:(vm_compute; reflexivity) ltac:(repeat constructor) ltac:(vm_compute; reflexivity) ltac:(vm_compute; reflexivity) ltac:(repeat constructor) ltac:(vm_compute; reflexivity)) H)).
  destruct K as (_ & K & _). apply K. reflexivity.
Qed.
Print Assumptions C116_repeat_refuted.
(** A damaged archive that can be copied: its end is missing, but all nodes are reported, and the copy is whole. *)
Definition ordinary : node := Dir [(bs "a", Dir [(bs "b", Reg true (bs "hello"))]); (bs "c", Sym (bs "/etc"))].
Example C116_nonvacuous : exists r s1 o r', NewReader (Src [firstn 650 (nar ordinary)] EEOF false) = (Ok r, s1) /\
  session [[]; []; [3; 3; 3]%N; []; []] r = (o, r') /\ length (nar ordinary) = 680 /\ last (map fst o) (Err EEOF) = Err EUnexpectedEOF /\
  contents (rewritten o) = items [] ordinary /\ copyable (rewritten o) /\ nothing_after_paren (map fst (rewritten o)).
Proof.
  eexists _, _, _, _. split; [vm_compute; reflexivity|]. split; [vm_compute; reflexivity|]. split; [vm_compute; reflexivity|].
  split; [vm_compute; reflexivity|]. split; [vm_compute; reflexivity|].
  unfold rewritten. cbn [map concat fst snd app]. split; [split|].
  - discriminate.
  - cbn. repeat split; discriminate.
  - repeat constructor.
  - repeat constructor; cbn [fst hd_type]; discriminate.
  - repeat constructor; cbn; discriminate.
  - assert (N : forall p : bytes, firstn 2 (rev p) <> bs ")/" -> ~ exists q, p = q ++ bs "/)").
    { intros p H (q & ->). apply H. rewrite rev_app_distr. reflexivity. }
    intros l1 h l2 E P. exfalso. assert (I : In h (l1 ++ h :: l2)) by (apply in_or_app; right; left; reflexivity). rewrite <- E in I. cbn [In] in I.
    revert P. repeat (destruct I as [<-|I]; [apply N; vm_compute; discriminate|]). destruct I.
Qed.
