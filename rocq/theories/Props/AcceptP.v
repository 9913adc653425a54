(** Property C110: what the nar Reader accepts as an archive. *)
From Verif Require Import Base.Bytes Base.BytesFacts Model.GoIO Model.GoStd Model.Wire Model.Nar Model.NarReader
  Spec.WireSpec Spec.NarSpec Spec.NarHist Spec.NarAccept
  Proof.WireFacts Proof.NarPath Proof.NarReaderFacts Proof.NarSession Proof.NarTrunc Proof.NarAcceptP.
Ltac Zify.zify_post_hook ::= idtac.

Lemma chained_in_order its : forall prev, chained prev its -> in_order (map fst its).
Proof.
  induction its as [|[h c] its IH]; intros prev H; [exact I|]. cbn [chained] in H. destruct H as [_ H].
  destruct its as [|[h2 c2] its]; [exact I|]. cbn [map fst]. split; [apply H|]. apply (IH (hd_path h)). exact H.
Qed.
Lemma in_order_chained its : forall h c, in_order (map fst ((h, c) :: its)) -> chained (hd_path h) its.
Proof.
  induction its as [|[h2 c2] its IH]; intros h c H; [exact I|]. cbn [map fst] in H. destruct H as [H1 H2].
  split; [exact H1|]. apply (IH h2 c2). exact H2.
Qed.
(** The first header is the root's. *)
Lemma root_first p its d d' : node_read p its d d' -> match its with (h, _) :: _ => hd_path h = p | [] => True end.
Proof. intros H. inversion H; subst; cbn; auto. Qed.

(** C110, and what is true of it: when Next has returned io.EOF, the bytes consumed are one archive of the
    Reader's own grammar - a header line, one node, properly nested - and the calls returned exactly the
    nodes this grammar gives; or else the stream just ended, with io.EOF, inside the archive.  MISSING: that
    the bytes are the NAR serialisation of the reported tree, see below. *)
Theorem C110_accepts_partial : forall s r s1 plans o r',
  NewReader s = (Ok r, s1) -> session plans r = (o, r') -> In (Err EEOF) (map fst o) ->
  (exists its, archive_read its (src_data s) (src_data (rd_src r')) /\ in_order (map fst its) /\ session_of its plans o) \/
  (fin s = EEOF /\ src_data (rd_src r') = []).
Proof.
  intros s r s1 plans o r' HN HS Hin. apply NewReader_data in HN. destruct HN as [-> HE].
  apply expect_takes in HE. destruct HE as [T F].
  assert (R : ready (RD s1 GFirst None [] None false)) by (repeat split).
  destruct (session_sound plans _ o r' R HS Hin) as [(its & HA & Hc & Ho)|G];
    cbn [rd_src rd_gor rd_content rd_prev accG] in *.
  - left. exists its. split; [exists (src_data s1); split; [exact T|apply Acc_root; exact HA]|].
    split; [eapply chained_in_order; exact Hc|exact Ho].
  - right. destruct G. split; congruence.
Qed.
Print Assumptions C110_accepts_partial.

(** Conversely everything in this grammar whose paths are in order is accepted, gives exactly these nodes, and
    the Reader stops right behind it. *)
Theorem C110_accepts_all : forall s its rest plans,
  archive_read its (src_data s) rest -> in_order (map fst its) ->
  exists r s1 o r', NewReader s = (Ok r, s1) /\ session plans r = (o, r') /\ session_of its plans o /\
    (length its < length plans -> src_data (rd_src r') = rest /\ fin (rd_src r') = fin s).
Proof.
  intros s its rest plans (d1 & T & HR) Ho.
  destruct (takes_expect _ _ _ (fin s) s eq_refl T ltac:(reflexivity)) as (s1 & R & F).
  exists (RD s1 GFirst None [] None false), s1.
  destruct (session_items its plans rest (fin s) (RD s1 GFirst None [] None false)) as (o & r' & H1 & H2 & H3).
  - split; [reflexivity|]. split; [reflexivity|]. cbn [rd_prev rd_gor rd_content rd_src resume fst snd].
    split; [|split; [|left; reflexivity]].
    + pose proof (root_first _ _ _ _ HR) as Hp. destruct its as [|[h c] its]; [exact I|]. cbn [chained].
      split; [rewrite Hp; reflexivity|]. apply (in_order_chained _ _ c). exact Ho.
    + eapply Acc_serves; [apply Acc_root; exact HR|exact F].
  - exists o, r'. split; [unfold NewReader; change narVersionMagic1 with (bs "nix-archive-1"); rewrite R; reflexivity|].
    split; [exact H1|]. split; [exact H2|]. intros L. apply flat_data. auto.
Qed.
Print Assumptions C110_accepts_all.

(** The grammar contains the canonical archives. *)
Lemma takes_field x d : takes x (field x ++ d) d.
Proof.
  exists (repeat x00 (pad_len (length x)) ++ d). split; [unfold field; rewrite <- !app_assoc; reflexivity|].
  rewrite <- (repeat_length x00 (pad_len (length x))) at 2. symmetry. rewrite repeat_length.
  replace (pad_len (length x)) with (length (repeat x00 (pad_len (length x)))) at 1 by apply repeat_length.
  apply skipn_length_app.
Qed.
Lemma takes_all_fields xs : forall d, takes_all xs (concat (map field xs) ++ d) d.
Proof.
  induction xs as [|x xs IH]; intros d; cbn [map concat app takes_all]; [reflexivity|].
  exists (concat (map field xs) ++ d). split; [rewrite <- app_assoc; apply takes_field|apply IH].
Qed.
Lemma ser_read t : wf_tree reader_name t -> forall cs d, comps_ok cs ->
  node_read (path_of cs) (items cs t) (ser t ++ d) d.
Proof.
  induction t as [x c|tg|es IH] using node_ind2; intros Hwf cs d Hcs.
  - inversion Hwf as [? ? Hc| |]; subst. cbn [items hdr_of content_of].
    apply (nr_reg _ x c _ (str ")" ++ d)); [exact Hc| |apply takes_field].
    set (xs := toks _ ++ _). replace (ser (Reg x c) ++ d) with (concat (map field xs) ++ field c ++ str ")" ++ d).
    + apply takes_all_fields.
    + unfold xs, toks, str. destruct x; cbn [ser map concat app]; rewrite <- ?app_assoc; reflexivity.
  - inversion Hwf as [|? Ht1 Ht2|]; subst. cbn [items hdr_of content_of]. apply nr_sym; [exact Ht2|].
    set (xs := toks _ ++ _). replace (ser (Sym tg) ++ d) with (concat (map field xs) ++ d).
    + apply takes_all_fields.
    + unfold xs, toks, str. cbn [ser map concat app]. rewrite <- ?app_assoc. reflexivity.
  - inversion Hwf as [| |? Hnames Hsort Hts]; subst. cbn [items hdr_of content_of].
    apply (nr_dir _ _ _ (concat (map (fun e => entry_open (fst e) ++ ser (snd e) ++ str ")") es) ++ str ")" ++ d)).
    + set (xs := toks _). replace (ser (Dir es) ++ d) with (concat (map field xs) ++
        concat (map (fun e => entry_open (fst e) ++ ser (snd e) ++ str ")") es) ++ str ")" ++ d).
      * apply takes_all_fields.
      * unfold xs, toks, str. cbn [ser map concat app]. rewrite <- ?app_assoc. reflexivity.
    + clear Hsort Hwf. induction es as [|[n t] es IHes]; cbn [map concat app fst snd].
      * constructor. apply takes_field.
      * inversion IH as [|? ? IHt IHrest]; subst. inversion Hnames as [|? ? [Hn Hr] Hnames']; subst.
        inversion Hts as [|? ? Ht Hts']; subst. cbn [fst snd] in *.
        set (tl := concat (map _ es) ++ str ")" ++ d) in IHes.
        eapply (er_entry _ n _ _ _ (ser t ++ str ")" ++ tl) (str ")" ++ tl) tl).
        -- apply Hn.
        -- apply Hn.
        -- destruct Hn as (_ & _ & _ & _ & _ & Hl). unfold lenN. lia.
        -- exact Hr.
        -- set (xs := toks _ ++ _).
           replace ((_ ++ concat _) ++ str ")" ++ d) with (concat (map field xs) ++ ser t ++ str ")" ++ tl).
           ++ apply takes_all_fields.
           ++ unfold xs, tl, toks, str, entry_open. cbn [ser map concat app]. rewrite <- ?app_assoc. reflexivity.
        -- rewrite Join_path_of by assumption. apply IHt; [exact Ht|].
           apply Forall_app; split; [exact Hcs|constructor; [exact Hn|constructor]].
        -- apply takes_field.
        -- apply IHes; assumption.
Qed.
Theorem C110_canonical : forall t rest, wf_tree reader_name t -> archive_read (items [] t) (nar t ++ rest) rest.
Proof.
  intros t rest H. exists (ser t ++ rest). split; [unfold nar, str; rewrite <- app_assoc; apply takes_field|].
  apply (ser_read t H [] rest). constructor.
Qed.
Print Assumptions C110_canonical.

(** The claim is FALSE of the code: the 72 bytes "nix-archive-1 ( type )" hold no node at all, and are read
    to the end without an error. *)
Definition blank : bytes := str "nix-archive-1" ++ str "(" ++ str "type" ++ str ")".
Theorem C110_exact_refuted :
  ~ (forall s r s1 plans o r', NewReader s = (Ok r, s1) -> session plans r = (o, r') -> In (Err EEOF) (map fst o) ->
       fin s <> EEOF -> exists t, src_data s = nar t ++ src_data (rd_src r')).
Proof.
  intros H. set (s := Src [blank] (EIo 5) false).
  destruct (C110_accepts_all s [] [] [[]]) as (r & s1 & o & r' & H1 & H2 & H3 & H4).
  - change (src_data s) with (blank ++ []). unfold blank. rewrite app_nil_r. eexists. split; [apply takes_field|].
    constructor. rewrite <- (app_nil_r (_ ++ _)). apply (takes_all_fields (toks ["("; "type"; ")"]%string) []).
  - exact I.
  - destruct (H4 ltac:(cbn; lia)) as [H5 _]. inversion H3; subst.
    destruct (H s r s1 [[]] _ r' H1 H2 ltac:(left; reflexivity) ltac:(discriminate)) as (t & Ht). rewrite H5, app_nil_r in Ht.
    change (src_data s) with (blank ++ []) in Ht. rewrite app_nil_r in Ht. unfold blank, nar in Ht.
    apply app_inv_head in Ht. destruct t as [x c|tg|es]; cbn [ser] in Ht;
      apply app_inv_head in Ht; apply app_inv_head in Ht; discriminate Ht.
Qed.
Print Assumptions C110_exact_refuted.

(** Different bytes give the same archive: the padding of the tokens is not looked at, and the entries of a
    directory may be mixed with other tokens. *)
Definition padded (b : byte) : bytes :=
  str "nix-archive-1" ++ str "(" ++ str "type" ++ str "directory" ++ le8 1 ++ bs ")" ++ repeat b 7.
Definition mixed (x : bytes) : bytes :=
  str "nix-archive-1" ++ str "(" ++ str "type" ++ str "directory" ++ field x ++ str ")".
Definition dir_items : list (header * bytes) := [(Header (bs "/") (bs "directory") [] 0 false, [])].
Lemma padded_read b : archive_read dir_items (padded b) [].
Proof.
  eexists. split; [apply takes_field|]. eapply nr_dir.
  - exact (takes_all_fields (toks ["("; "type"; "directory"]%string) (le8 1 ++ bs ")" ++ repeat b 7)).
  - constructor. exists (repeat b 7). split; reflexivity.
Qed.
Lemma mixed_read x : x <> bs "entry" -> x <> bs ")" -> (lenN x <= 32)%N -> archive_read dir_items (mixed x) [].
Proof.
  intros H1 H2 H3. eexists. split; [apply takes_field|]. eapply nr_dir.
  - exact (takes_all_fields (toks ["("; "type"; "directory"]%string) (field x ++ str ")")).
  - eapply er_junk; [exact H1|exact H2|exact H3|apply takes_field|]. constructor. rewrite <- (app_nil_r (str ")")).
    apply takes_field.
Qed.
Theorem C110_unique_refuted :
  ~ (forall its d1 d2, archive_read its d1 [] -> archive_read its d2 [] -> d1 = d2).
Proof.
  intros H. specialize (H _ _ _ (padded_read x00) (padded_read "a"%byte)).
  apply (f_equal (@rev byte)) in H. vm_compute in H. discriminate.
Qed.
Print Assumptions C110_unique_refuted.

(** The cases above are reachable. *)
Definition calls (d : bytes) : option (list (res header * list (bytes * option error))) :=
  match NewReader (Src [d] (EIo 5) false) with
  | (Ok r, _) => Some (fst (session [[]; []] r))
  | _ => None
  end.
Example C110_blank : calls blank = Some [(Err EEOF, []); (Err EEOF, [])].
Proof. vm_compute. reflexivity. Qed.
Example C110_mixed : calls (mixed (bs "nonsense")) =
  Some [(Ok (Header (bs "/") (bs "directory") [] 0 false), []); (Err EEOF, [])].
Proof. vm_compute. reflexivity. Qed.
Example C110_padded : calls (padded "a"%byte) =
  Some [(Ok (Header (bs "/") (bs "directory") [] 0 false), []); (Err EEOF, [])].
Proof. vm_compute. reflexivity. Qed.
(** A tree with a directory and a link meets the hypotheses of [C110_canonical]. *)
Example C110_tree : wf_tree reader_name (Dir [(bs "a", Reg true (bs "hello")); (bs "b", Sym (bs "a")); (bs "c", Dir [])]).
Proof.
  assert (N : forall n, In n [bs "a"; bs "b"; bs "c"] -> name_ok n /\ reader_name n).
  { intros n Hn. split.
    - repeat split; try (intros ->; cbn in Hn; intuition discriminate).
      + intros Hs. destruct Hn as [<-|[<-|[<-|[]]]]; destruct Hs as [Hs|[]]; discriminate.
      + intros Hs. destruct Hn as [<-|[<-|[<-|[]]]]; destruct Hs as [Hs|[]]; discriminate.
      + destruct Hn as [<-|[<-|[<-|[]]]]; cbn; lia.
    - intros ->. cbn in Hn. intuition discriminate. }
  constructor.
  - repeat constructor; apply N; cbn; auto.
  - repeat split.
  - repeat constructor; try discriminate.
Qed.
