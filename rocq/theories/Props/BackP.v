(** Property C113: whatever a Writer accepted, a Reader gives back. *)
From Verif Require Import Base.Bytes Base.BytesFacts Model.GoIO Model.GoStd Model.Wire Model.Nar
  Model.NarReader Model.NarWriter Spec.WireSpec Spec.NarSpec Spec.NarHist Spec.NarWHist Spec.NarBackSpec Spec.NarParenSpec
  Proof.NarReaderFacts Proof.NarSession Proof.NarBack Proof.NarParenLast Proof.NarParenPath Proof.NarReaderBad Proof.NarWriterComplete Props.NarReaderP Props.NarWriterP Props.NarListedP.
Ltac Zify.zify_post_hook ::= idtac.

(** A history of calls that all succeed, on any sink: the Reader, on the bytes written, however they arrive,
    reports the headers written, each with the bytes accepted for it, and then the end. *)
Theorem C113_read_back_partial : forall w0 r0 w hist res r1 r2 s rest e plans,
  NewWriter w0 = (Ok r0, w) -> wsession hist r0 = (res, r1) -> Forall (fun x => fst x = WOk) res ->
  wr_Close r1 = (WOk, r2) ->
  Forall (fun x => careful (fst x) /\ Forall (fun p => lenN p < 2 ^ 63)%N (snd x)) hist ->
  no_repeat (map (fun x => hd_path (fst x)) hist) ->
  Forall (fun x => within_sizes (fst x)) hist -> nothing_after_paren (map fst hist) ->
  out w0 ++ fst (flat s) = out (wr_sink r2) ++ rest -> snd (flat s) = e ->
  exists rd0 s1 o rd1 k, NewReader s = (Ok rd0, s1) /\ session plans rd0 = (o, rd1) /\
    session_of (log_of hist res) plans o /\
    (length hist < length plans -> flat (rd_src rd1) = (closers k ++ rest, e)) /\
    ((forall x q, In x hist -> hd_path (fst x) <> q ++ bs "/)") -> k = 0).
Proof.
  intros w0 r0 w hist res r1 r2 s rest e plans H1 H2 H3 H4 H5 H6 H7 HP H8 H9.
  destruct (C36_closed_is_valid_partial w0 r0 w hist res r1 r2 H1 H2 H3 H4 H5 H6) as (t & V & E & L).
  assert (G : Forall (fun it => within_sizes (fst it) /\ (hd_size (fst it) < 2 ^ 63)%Z) (log_of hist res)).
  { clear -H5 H7. revert res. induction hist as [|[h ps] hist IH]; intros [|[x l] res]; cbn [log_of]; try constructor.
    - inversion H5 as [|? ? [(_ & _ & _ & A) _] _]; inversion H7; subst. cbn [fst]. auto.
    - inversion H5; inversion H7; subst. auto. }
  rewrite <- L in G. pose proof (sized_tree t (writable_valid t V) [] (Forall_nil _) G) as W.
  assert (HM : map fst (log_of hist res) = map fst hist).
  { clear -H2. revert r0 res H2. induction hist as [|[h ps] hist IH]; intros r0 res H2; cbn [wsession] in H2; [reflexivity|].
    destruct (WriteHeader h r0) as [x ra]. destruct (wr_writes ps ra) as [l rb]. destruct (wsession hist rb) as [o rc] eqn:Eo.
    injection H2 as <- <-. cbn [log_of map fst]. f_equal. eapply IH. exact Eo. }
  assert (HL : exists k, paren_last t k /\ ((forall x q, In x hist -> hd_path (fst x) <> q ++ bs "/)") -> k = 0)).
  { destruct (bad t) eqn:B; [|exists 0; split; [apply reader_last; apply not_bad; assumption|reflexivity]].
    destruct (proj2 (listable_paths t W)) as (_ & k & Hk); [rewrite L, HM; exact HP|]. exists k. split; [exact Hk|]. intros Hq. exfalso.
    destruct (bad_in t B []) as (c & Hc & Ec). pose proof (cpaths_ok _ _ W [] (Forall_nil _)) as Ok. rewrite Forall_forall in Ok.
    apply endp_text in Ec; [|apply Ok; exact Hc]. destruct Ec as (q & Eq).
    assert (I : In (path_of c) (map (fun it => hd_path (fst it)) (items [] t))) by (rewrite items_cpaths; apply in_map; exact Hc).
    rewrite <- map_map, L, HM, map_map in I. apply in_map_iff in I. destruct I as (x & Ex & Hx). apply (Hq x q Hx). congruence. }
  destruct HL as (k & Hk & Hz).
  assert (F : flat s = (nar t ++ rest, e)).
  { rewrite E, <- app_assoc in H8. apply app_inv_head in H8. rewrite (surjective_pairing (flat s)), H8, H9. reflexivity. }
  destruct (C28_listed t k s rest e plans W Hk F) as (rd0 & s1 & o & rd1 & R1 & R2 & R3 & R4).
  exists rd0, s1, o, rd1, k. rewrite <- L. repeat (split; [assumption|]). split; [|exact Hz]. intros HL. apply R4.
  replace (nodes t) with (length hist); [exact HL|]. rewrite <- (items_length t []), L.
  clear -H2. revert r0 res H2. induction hist as [|[h ps] hist IH]; intros r0 res H2; cbn [wsession] in H2.
  - injection H2 as <- <-. reflexivity.
  - destruct (WriteHeader h r0) as [x ra]. destruct (wr_writes ps ra) as [l rb]. destruct (wsession hist rb) as [o rc] eqn:Eo.
    injection H2 as <- <-. cbn [log_of length]. f_equal. eapply IH. exact Eo.
Qed.
Print Assumptions C113_read_back_partial.

(** The limits are needed: the Writer does not know the Reader's.  A name of 256 bytes or a symlink target of
    4096 is written without complaint, and the archive cannot be read. *)
Definition written (its : list (header * list bytes)) : option bytes :=
  match NewWriter (Sink [] []) with
  | (Ok r0, _) => match wsession its r0 with
                  | (res, r1) => match wr_Close r1 with
                                 | (WOk, r2) => if forallb (fun x => match fst x with WOk => true | _ => false end) res then Some (out (wr_sink r2)) else None
                                 | _ => None
                                 end
                  end
  | _ => None
  end.
Definition read_all (d : bytes) (n : nat) : list (res header) :=
  match NewReader (Src [d] EEOF false) with
  | (Ok r, _) => map fst (fst (session (repeat [] n) r))
  | _ => []
  end.
Definition long_name := bs "/" ++ repeat "a"%byte 256.
Definition long_target := repeat "a"%byte 4096.
Definition root_hdr := Header (bs "/") (bs "directory") [] 0 false.
Definition name_case := [root_hdr; Header long_name (bs "symlink") (bs "x") 0 false].
Definition target_case := [Header (bs "/") (bs "symlink") long_target 0 false].
Definition archive_of (hs : list header) : bytes :=
  match written (map (fun h => (h, [])) hs) with Some d => d | None => [] end.
Lemma root_careful : careful root_hdr.
Proof. split; [|split; [right; left; reflexivity|cbn; lia]]. exists []. split; [constructor|reflexivity]. Qed.
Theorem C113_name_refuted : exists d e,
  written (map (fun h => (h, [])) name_case) = Some d /\ Forall careful name_case /\ no_repeat (map hd_path name_case) /\
  read_all d 3 = [Ok root_hdr; Err e; Err e] /\ e <> EEOF.
Proof.
  exists (archive_of name_case), (EMsg "content length exceeds maximum"). split; [vm_compute; reflexivity|]. split; [|split; [|split]].
  - constructor; [exact root_careful|constructor; [|constructor]]. split; [|split; [right; right; reflexivity|cbn; lia]].
    exists [repeat "a"%byte 256]. split; [|reflexivity]. constructor; [|constructor]. repeat split; try discriminate; apply contains_byte_false; vm_compute; reflexivity.
  - split; [discriminate|exact I].
  - vm_compute. reflexivity.
  - discriminate.
Qed.
Print Assumptions C113_name_refuted.
Theorem C113_target_refuted : exists d e,
  written (map (fun h => (h, [])) target_case) = Some d /\ Forall careful target_case /\ no_repeat (map hd_path target_case) /\
  read_all d 2 = [Err e; Err e] /\ e <> EEOF.
Proof.
  exists (archive_of target_case), (EMsg "content length exceeds maximum"). split; [vm_compute; reflexivity|]. split; [|split; [|split]].
  - constructor; [|constructor]. split; [|split; [right; right; reflexivity|cbn; lia]]. exists []. split; [constructor|reflexivity].
  - exact I.
  - vm_compute. reflexivity.
  - discriminate.
Qed.
Print Assumptions C113_target_refuted.
(** An entry called ")" is written, and read with the entries behind it missing, without an error. *)
Definition paren_case := [root_hdr; Header (bs "/)") (bs "symlink") (bs "x") 0 false; Header (bs "/a") (bs "symlink") (bs "y") 0 false].
Theorem C113_paren_refuted : exists d,
  written (map (fun h => (h, [])) paren_case) = Some d /\ Forall careful paren_case /\ no_repeat (map hd_path paren_case) /\
  read_all d 4 = [Ok root_hdr; Ok (Header (bs "/)") (bs "symlink") (bs "x") 0 false); Err EEOF; Err EEOF].
Proof.
  exists (archive_of paren_case). split; [vm_compute; reflexivity|]. split; [|split; [|vm_compute; reflexivity]].
  - constructor; [exact root_careful|].
    assert (K : forall c, entry_name [c] -> careful (Header ("/"%byte :: [c]) (bs "symlink") (bs "x") 0 false) /\ careful (Header ("/"%byte :: [c]) (bs "symlink") (bs "y") 0 false)).
    { intros c Hc. split; (split; [|split; [right; right; reflexivity|cbn; lia]]); exists [[c]]; (split; [constructor; [exact Hc|constructor]|reflexivity]). }
    constructor; [apply (K ")"%byte)|constructor; [apply (K "a"%byte)|constructor]];
      repeat split; try discriminate; apply contains_byte_false; reflexivity.
  - repeat split; discriminate.
Qed.
Print Assumptions C113_paren_refuted.
(** A history that meets the hypotheses of C113_read_back_partial, with content in two pieces and a last directory called ")". *)
Definition back_case : list (header * list bytes) :=
  [(root_hdr, []); (Header (bs "/!") (bs "regular") [] 3 true, [bs "xy"; bs "z"]); (Header (bs "/)") (bs "directory") [] 0 false, []);
   (Header (bs "/)/x") (bs "symlink") (bs "a") 0 false, [])].
Example C113_nonvacuous :
  written back_case <> None /\ Forall (fun x => careful (fst x)) back_case /\ Forall (fun x => within_sizes (fst x)) back_case /\
  nothing_after_paren (map fst back_case) /\ no_repeat (map (fun x => hd_path (fst x)) back_case) /\
  read_all (match written back_case with Some d => d | None => [] end) 5 = map (fun x => Ok (fst x)) back_case ++ [Err EEOF].
Proof.
  split; [vm_compute; discriminate|]. split; [|split; [|split; [|split; [repeat split; discriminate|vm_compute; reflexivity]]]].
  - assert (K : forall h cs, hd_path h = path_of cs -> forallb (fun c => negb (beq c []) && negb (beq c (bs ".")) && negb (beq c (bs "..")) && negb (contains_byte c "/"%byte) && negb (contains_byte c x00)) cs = true ->
      known_type h -> hd_size h = 0%Z \/ hd_size h = 3%Z -> careful h).
    { intros h cs E H Kn Z. split; [|split; [exact Kn|destruct Z as [-> | ->]; cbn; lia]]. exists cs. split; [|exact E]. apply Forall_forall. intros c Hc.
      rewrite forallb_forall in H. specialize (H c Hc). rewrite !andb_true_iff, !negb_true_iff in H. destruct H as ((((H1 & H2) & H3) & H4) & H5).
      apply beq_neq in H1, H2, H3. repeat split; try assumption; apply contains_byte_false; assumption. }
    constructor; [exact root_careful|]. constructor; [apply (K _ [bs "!"]); try reflexivity; [left; reflexivity|right; reflexivity]|].
    constructor; [apply (K _ [bs ")"]); try reflexivity; [right; left; reflexivity|left; reflexivity]|].
    constructor; [apply (K _ [bs ")"; bs "x"]); try reflexivity; [right; right; reflexivity|left; reflexivity]|constructor].
  - assert (K : forall h l, split_byte (hd_path h) "/"%byte = l -> forallb (fun c => length c <=? 255) l = true ->
      (lenN (hd_target h) <=? 4095)%N = true -> within_sizes h).
    { intros h l <- H1 H2. split; [|apply N.leb_le; exact H2]. apply Forall_forall. intros c Hc. rewrite forallb_forall in H1. apply H1 in Hc.
      apply Nat.leb_le in Hc. exact Hc. }
    repeat (constructor; [eapply K; [reflexivity|vm_compute; reflexivity|vm_compute; reflexivity]|]). constructor.
  - assert (N : forall p : bytes, firstn 2 (rev p) <> bs ")/" -> ~ exists q, p = q ++ bs "/)").
    { intros p H (q & ->). apply H. rewrite rev_app_distr. reflexivity. }
    intros l1 h l2 E P. unfold back_case in E. cbn [map fst] in E.
    do 4 (destruct l1 as [|? l1]; cbn [app] in E; [injection E as <- <-; cbn [hd_path] in P; first [exfalso; revert P; apply N; discriminate|constructor; [exists (bs "x"); reflexivity|constructor]|constructor]|injection E as _ E]).
    destruct l1; discriminate E.
Qed.
