(** Every schedule of the two goroutines of the nar Reader gives what the
    coroutine model gives. *)
From Coq Require Import Lia Relations.Relation_Operators.
From Verif Require Import Base.Bytes Model.GoIO Model.GoStd Model.Wire Model.Nar Model.NarReader Spec.NarHist Model.NarConc Spec.ConcSpec Proof.NarReaderFacts Proof.NarReaderAny.
Ltac Zify.zify_post_hook ::= idtac.

(** * Control *)
Definition live (g : gor) : Prop := match g with GFirst | GWait _ _ => True | _ => False end.
Definition closers (p : pthread) (hc ec : bool) : Prop :=
  (p = TCloseH /\ hc = false /\ ec = false) \/ (p = TCloseE /\ hc = true /\ ec = false) \/ p = TDone.
Definition wrong_order : error := EMsg "received header in the wrong order".
Definition ctl (c : conf) : Prop :=
  match cf_par c with
  | TRecv g | TGo g => live g /\ cf_headers_closed c = false /\ cf_errors_closed c = false
  | TRun _ _ | TSendH _ _ _ | TSendE _ => cf_headers_closed c = false /\ cf_errors_closed c = false
  | TCloseH => cf_headers_closed c = false /\ cf_errors_closed c = false
  | TCloseE => cf_headers_closed c = true /\ cf_errors_closed c = false
  | TDone => True
  end /\
  match cf_main c with
  | MIdle => cf_next_closed c = false ->
      (exists g, cf_par c = TRecv g) \/
      (cf_err c <> None /\ closers (cf_par c) (cf_headers_closed c) (cf_errors_closed c))
  | MSend => (exists ops, cf_ops c = ONext :: ops) /\ cf_err c = None /\
      (cf_next_closed c = true \/ exists g, cf_par c = TRecv g)
  | MSelect => (exists ops, cf_ops c = ONext :: ops) /\ cf_err c = None /\ cf_next_closed c = false /\
      match cf_par c with TGo _ | TRun _ _ | TSendH _ _ _ | TSendE _ => True | _ => False end
  | MPanicked _ => True
  end /\
  (forall e, cf_err c = Some e -> e <> wrong_order ->
      match cf_par c with TCloseH | TCloseE | TDone => True | _ => False end) /\
  (forall e, In (SNext (Err e)) (cf_seen c) -> cf_err c = Some e).

Lemma go_live g ct s p' ct' s' : live g -> go_step g ct s = (p', ct', s') ->
  match p' with TRun _ _ | TSendE _ => True | _ => False end.
Proof.
  destruct g as [|w st| |]; cbn [live go_step]; intros L H; try contradiction.
  - injection H as <- <- <-. exact I.
  - destruct w as [| |p]; [| |injection H as <- <- <-; exact I].
    + destruct ct as [br|].
      * destruct (br_close br s) as [e [br' s1]]. destruct e; [injection H as <- <- <-; exact I|].
        destruct (tok s1 tokenLenMax) as [[t|er] s2]; [|injection H as <- <- <-; exact I].
        unfold close_paren in H. destruct (beq t (bs ")")); injection H as <- <- <-; exact I.
      * destruct (tok s tokenLenMax) as [[t|er] s2]; [|injection H as <- <- <-; exact I].
        unfold close_paren in H. destruct (beq t (bs ")")); injection H as <- <- <-; exact I.
    + destruct (tok s tokenLenMax) as [[t|er] s2]; [|injection H as <- <- <-; exact I].
      unfold close_paren in H. destruct (beq t (bs ")")); injection H as <- <- <-; exact I.
Qed.
Ltac fields := cbn [cf_ops cf_main cf_par cf_src cf_content cf_err cf_prev cf_next_closed cf_headers_closed cf_errors_closed cf_seen] in *.
Lemma in_snoc (x y : rd_seen) l : In x (l ++ [y]) -> In x l \/ x = y.
Proof. intros H. apply in_app_or in H. destruct H as [H|[<-|[]]]; auto. Qed.

Ltac snocs := 
  repeat match goal with
  | H : In (SNext (Err _)) (_ ++ [_]) |- _ => apply in_snoc in H; destruct H as [H|H]
  end.
Lemma ctl_step c c' : ctl c -> cstep c c' -> ctl c'.
Proof.
  intros (HP & HM & HE & HS) St. destruct St; unfold ctl; fields.
  - repeat split; auto. intros e0 H. snocs; [auto|]. congruence.
  - repeat split; auto; try discriminate; [eexists; reflexivity|].
    destruct nc; [left; reflexivity|right]. destruct (HM eq_refl) as [H|[H _]]; [exact H|contradiction].
  - repeat split; auto. intros e0 H. snocs; [auto|discriminate].
  - destruct HM as (_ & -> & _). repeat split; auto; try tauto. eexists; reflexivity.
  - destruct HM as (_ & -> & -> & _). destruct (PathIsLexicographicallyOrdered pv (hd_path h)); fields.
    + split; [cbn [live]; tauto|]. split; [intros _; left; eexists; reflexivity|]. split; [discriminate|].
      intros e0 H. snocs; [auto|discriminate].
    + split; [cbn [live]; tauto|]. split; [intros _; left; eexists; reflexivity|]. split.
      * intros e0 [= <-] H. contradiction H; reflexivity.
      * intros e0 H. snocs; [specialize (HS _ H); discriminate|]. congruence.
  - destruct HM as (_ & -> & -> & _). split; [exact HP|]. split; [|split].
    + intros _. right. split; [discriminate|]. left. tauto.
    + auto.
    + intros e0 H. snocs; [specialize (HS _ H); discriminate|]. congruence.
  - destruct HM as (_ & -> & -> & HM). exfalso. destruct p; try contradiction; intuition discriminate.
  - destruct HM as (_ & -> & -> & HM). exfalso. destruct p; try contradiction; intuition discriminate.
  - repeat split; auto. intros e0 H1. snocs; [auto|discriminate].
  - repeat split; auto. intros e0 H1. snocs; [auto|discriminate].
  - repeat split; auto; try discriminate. intros e0 H1. snocs; [auto|discriminate].
  - repeat split; auto. intros e0 H1. snocs; [auto|discriminate].
  - split; [exact I|]. split; [|split; [auto|exact HS]].
    destruct m; [discriminate|..|exact I].
    + destruct HM as (A & B & _). auto.
    + destruct HM as (_ & _ & H & _). discriminate H.
  - split; [tauto|]. split; [|split; [|exact HS]].
    + destruct m; [discriminate|..|exact I].
      * destruct HM as (A & B & _). auto.
      * destruct HM as (_ & _ & H & _). discriminate.
    + intros e H1 H2. exact (HE e H1 H2).
  - destruct HP as (L & HP). pose proof (go_live _ _ _ _ _ _ L H) as G.
    split; [destruct p'; try contradiction; tauto|]. split; [|split; [|exact HS]].
    + destruct m; auto.
      * intros E. destruct (HM E) as [[g' D]|[_ [(D&_)|[(D&_)|D]]]]; discriminate.
      * destruct HM as (A & B & [C|[g' C]]); [auto|discriminate].
      * destruct HM as (A & B & C & D). destruct p'; try contradiction; auto.
    + intros e H1 H2. destruct (HE e H1 H2).
  - split; [exact HP|]. split; [|split; [|exact HS]].
    + destruct m; auto.
      * intros E. destruct (HM E) as [[g' D]|[_ [(D&_)|[(D&_)|D]]]]; discriminate.
      * destruct HM as (A & B & [C|[g' C]]); [auto|discriminate].
    + intros e H1 H2. destruct (HE e H1 H2).
  - split; [exact HP|]. split; [|split; [|exact HS]].
    + destruct m; auto.
      * intros E. destruct (HM E) as [[g' D]|[_ [(D&_)|[(D&_)|D]]]]; discriminate.
      * destruct HM as (A & B & [C|[g' C]]); [auto|discriminate].
    + intros e H1 H2. destruct (HE e H1 H2).
  - split; [exact HP|]. split; [|split; [|exact HS]].
    + destruct m; auto.
      * intros E. destruct (HM E) as [[g' D]|[_ [(D&_)|[(D&_)|D]]]]; discriminate.
      * destruct HM as (A & B & [C|[g' C]]); [auto|discriminate].
    + intros e0 H1 H2. destruct (HE e0 H1 H2).
  - split; [tauto|]. split; [|split; [|exact HS]].
    + destruct m; auto.
      * intros E. destruct (HM E) as [[g' D]|[D _]]; [discriminate|]. right. split; [exact D|]. right. left. tauto.
      * destruct HM as (A & B & [C|[g' C]]); [auto|discriminate].
    + exact HE.
  - split; [tauto|]. split; [|split; [|exact HS]].
    + destruct m; auto.
      * intros E. destruct (HM E) as [[g' D]|[D _]]; [discriminate|]. right. split; [exact D|]. right. right. reflexivity.
      * destruct HM as (A & B & [C|[g' C]]); [auto|discriminate].
    + exact HE.
Qed.
Lemma ctl_start ops s : ctl (conc_start ops s).
Proof.
  unfold ctl, conc_start. fields. repeat split; auto; try discriminate; try contradiction.
  intros _. left. eexists. reflexivity.
Qed.
Lemma exec_inv (I : conf -> Prop) : (forall c c', I c -> cstep c c' -> I c') -> forall c c', I c -> execution c c' -> I c'.
Proof. intros H c c' Hc E. induction E as [|a b d St E IH]; [exact Hc|]. apply IH. eapply H; eauto. Qed.

(** * Progress *)
Lemma ctl_progress c : ctl c -> cf_ops c <> [] -> (forall w, cf_main c <> MPanicked w) -> exists c', cstep c c'.
Proof.
  destruct c as [ops m p s ct er pv nc hc ec seen]. unfold ctl. fields. intros (HP & HM & _ & _) Ho Hm.
  destruct m as [| | |w].
  - destruct ops as [|op ops]; [contradiction Ho; reflexivity|]. destruct op as [|n|].
    + destruct er; eexists; [apply s_next_err|apply s_next_send].
    + destruct (match ct with
      | None => ([], Some EEOF, (None, s))
      | Some br => let '(b, e, (br', s')) := br_read n br s in (b, e, (Some br', s'))
      end) as [[b e] [ct' s']] eqn:E. eexists. eapply s_read. exact E.
    + destruct er as [er|]; [destruct er|]; try (eexists; apply s_close_eof);
        destruct nc; eexists; first [apply s_close; discriminate|apply s_close_panic; discriminate].
  - destruct HM as ([o ->] & -> & [->|[g ->]]); [eexists; apply s_send_panic|].
    destruct nc; eexists; [apply s_send_panic|apply s_send].
  - destruct HM as ([o ->] & -> & -> & HM). destruct p as [g|g|c st|h w st|e| | |]; try contradiction.
    + destruct (go_step g ct s) as [[p' ct'] s'] eqn:E. eexists. eapply s_go. exact E.
    + destruct (pstep1 c st s) eqn:E; eexists; [eapply s_run_go|eapply s_run_yield|eapply s_run_stop]; exact E.
    + eexists. eapply s_header.
    + eexists. eapply s_error.
  - exfalso. exact (Hm w eq_refl).
Qed.

(** * Termination *)
Definition main_rank (m : mthread) : nat := match m with MIdle => 3 | MSend => 2 | MSelect => 1 | MPanicked _ => 0 end.
Definition par_rank (p : pthread) (s : src) : nat :=
  match p with
  | TRecv (GWait _ st) | TGo (GWait _ st) => dlen s + length st + 9
  | TRecv _ | TGo _ => dlen s + 9
  | TRun _ st => dlen s + length st + 8
  | TSendH _ _ _ | TSendE _ => 7
  | TCloseH => 3 | TCloseE => 2 | TDone => 0
  end.
(** The order in which every step goes down. *)
Definition down (c' c : conf) : Prop :=
  length (cf_ops c') < length (cf_ops c) \/
  length (cf_ops c') = length (cf_ops c) /\
   (main_rank (cf_main c') < main_rank (cf_main c) \/
    main_rank (cf_main c') = main_rank (cf_main c) /\ par_rank (cf_par c') (cf_src c') < par_rank (cf_par c) (cf_src c)).
Lemma down_acc : forall a b n c, length (cf_ops c) = a -> main_rank (cf_main c) = b -> par_rank (cf_par c) (cf_src c) = n -> Acc down c.
Proof.
  induction a as [a IA] using lt_wf_ind. induction b as [b IB] using lt_wf_ind. induction n as [n IN] using lt_wf_ind.
  intros c Ha Hb Hn. constructor. intros c' [H|[H1 [H|[H2 H3]]]].
  - eapply IA; [|reflexivity|reflexivity|reflexivity]. lia.
  - eapply IB; [|lia|reflexivity|reflexivity]. lia.
  - eapply IN; [|lia|lia|reflexivity]. lia.
Qed.
Lemma go_rank g ct s p' ct' s' : go_step g ct s = (p', ct', s') -> par_rank p' s' < par_rank (TGo g) s.
Proof.
  destruct g as [|w st| |]; cbn [go_step]; intros H.
  - injection H as <- <- <-. cbn [par_rank length]. lia.
  - destruct w as [| |p]; [| |injection H as <- <- <-; cbn [par_rank]; lia].
    + destruct ct as [br|].
      * destruct (br_close br s) as [e [br' s1]] eqn:E. apply br_close_fwd in E. apply fwd_len in E.
        destruct e as [er|]; [injection H as <- <- <-; cbn [par_rank]; lia|].
        destruct (tok s1 tokenLenMax) as [t s2] eqn:T. apply tok_any in T. destruct T as (F & _). apply fwd_len in F.
        destruct t as [t|er]; [|injection H as <- <- <-; cbn [par_rank]; lia].
        unfold close_paren in H. destruct (beq t (bs ")")); injection H as <- <- <-; cbn [par_rank]; lia.
      * destruct (tok s tokenLenMax) as [t s2] eqn:T. apply tok_any in T. destruct T as (F & _). apply fwd_len in F.
        destruct t as [t|er]; [|injection H as <- <- <-; cbn [par_rank]; lia].
        unfold close_paren in H. destruct (beq t (bs ")")); injection H as <- <- <-; cbn [par_rank]; lia.
    + destruct (tok s tokenLenMax) as [t s2] eqn:T. apply tok_any in T. destruct T as (F & _). apply fwd_len in F.
      destruct t as [t|er]; [|injection H as <- <- <-; cbn [par_rank]; lia].
      unfold close_paren in H. destruct (beq t (bs ")")); injection H as <- <- <-; cbn [par_rank]; lia.
  - injection H as <- <- <-. cbn [par_rank]. lia.
  - injection H as <- <- <-. cbn [par_rank]. lia.
Qed.
Lemma step_down c c' : cstep c c' -> down c' c.
Proof.
  intros St. destruct St; unfold down; fields; cbn [length main_rank]; try (left; lia); try (right; split; [reflexivity|left; lia]);
    try (right; split; [reflexivity|right; split; [reflexivity|]]).
  - left. destruct (PathIsLexicographicallyOrdered pv (hd_path h)); fields; lia.
  - cbn [par_rank]. lia.
  - cbn [par_rank]. lia.
  - exact (go_rank _ _ _ _ _ _ H).
  - apply pstep1_go in H. cbn [par_rank]. lia.
  - cbn [par_rank]. lia.
  - cbn [par_rank]. lia.
  - cbn [par_rank]. lia.
  - cbn [par_rank]. lia.
Qed.
Lemma no_infinite (f : nat -> conf) : ~ forall n, cstep (f n) (f (S n)).
Proof.
  intros H. assert (A : Acc down (f 0)) by (eapply down_acc; reflexivity).
  assert (G : forall c, Acc down c -> forall k, f k <> c).
  { intros c Hc. induction Hc as [c _ IH]. intros k E. subst c. exact (IH _ (step_down _ _ (H k)) (S k) eq_refl). }
  exact (G _ A 0 eq_refl).
Qed.

(** * Simulation *)
(** What the parser will send. *)
Definition sent (p : pthread) (ct : option bytes_reader) (s : src) : pstep * option bytes_reader :=
  match p with
  | TGo g => resume g ct s
  | TRun c st => (run_all c st s, ct)
  | TSendH h w st => (PYield h w st ct s, ct)
  | TSendE e => (PStop e s, ct)
  | _ => (PStop (EMsg "unreachable") s, ct)
  end.
(** The same for the caller: after a header the content reader is the new one. *)
Definition same_sent (a b : pstep * option bytes_reader) : Prop :=
  fst a = fst b /\ match fst a with PYield _ _ _ _ _ => True | _ => snd a = snd b end.
Lemma same_refl a : same_sent a a.
Proof. split; [reflexivity|]. destruct (fst a); auto. Qed.
Lemma same_trans a b c : same_sent a b -> same_sent b c -> same_sent a c.
Proof.
  intros [H1 H2] [H3 H4]. split; [congruence|]. rewrite H1 in *. destruct (fst b); auto; congruence.
Qed.
Definition has_content (g : gor) (ct : option bytes_reader) : Prop :=
  match g with GWait WReg _ => ct <> None | _ => True end.
Lemma sent_go g ct s p' ct' s' : live g -> has_content g ct -> go_step g ct s = (p', ct', s') ->
  sent p' ct' s' = resume g ct s.
Proof.
  destruct g as [|w st| |]; cbn [live go_step]; intros L HC H; try contradiction.
  - injection H as <- <- <-. reflexivity.
  - destruct w as [| |p]; [| |injection H as <- <- <-; reflexivity].
    + destruct ct as [br|]; [|contradiction HC; reflexivity]. cbn [resume].
      destruct (br_close br s) as [e [br' s1]]. destruct e as [er|]; [injection H as <- <- <-; reflexivity|].
      destruct (tok s1 tokenLenMax) as [[t|er] s2]; [|injection H as <- <- <-; reflexivity].
      unfold close_paren in *. destruct (beq t (bs ")")); injection H as <- <- <-; reflexivity.
    + cbn [resume]. 
      destruct (tok s tokenLenMax) as [[t|er] s2]; [|injection H as <- <- <-; reflexivity].
      unfold close_paren in *. destruct (beq t (bs ")")); injection H as <- <- <-; reflexivity.
Qed.
Lemma yield_content c st s h st' ct s' : pstep1 c st s = PYield h WReg st' ct s' -> ct <> None.
Proof.
  destruct c as [p|p|]; cbn [pstep1]; unfold parse_head, close_paren; intros H;
    repeat match type of H with
    | context [let '(_, _) := ?x in _] => destruct x
    | context [match ?x with _ => _ end] => destruct x
    end; try discriminate; injection H; intros; subst; discriminate.
Qed.

Definition sim (tot : list rd_seen) (c : conf) : Prop :=
  match cf_main c with
  | MPanicked _ => cf_seen c = tot
  | m => exists r, tot = cf_seen c ++ until_panic (fst (rd_run (cf_ops c) r)) /\
      cf_err c = rd_err r /\ cf_prev c = rd_prev r /\ cf_next_closed c = rd_closed r /\
      no_read_after_close (cf_ops c) /\
      if rd_closed r then forall n, ~ In (ORead n) (cf_ops c)
      else match m with
           | MSelect => same_sent (sent (cf_par c) (cf_content c) (cf_src c)) (resume (rd_gor r) (rd_content r) (rd_src r)) /\
               match cf_par c with TGo g => has_content g (cf_content c) | TSendH _ w st => has_content (GWait w st) (cf_content c) | _ => True end
           | _ => cf_src c = rd_src r /\ cf_content c = rd_content r /\
               (forall g, cf_par c = TRecv g -> rd_gor r = g /\ has_content g (cf_content c))
           end
  end.
Lemma nrac_tail op ops : no_read_after_close (op :: ops) -> no_read_after_close ops.
Proof. intros H l1 l2 n E. apply (H (op :: l1) l2 n). cbn. congruence. Qed.
Lemma run_cons op ops r x r' : rd_step op r = (x, r') -> fst (rd_run (op :: ops) r) = x :: fst (rd_run ops r').
Proof. intros H. cbn [rd_run]. rewrite H. destruct (rd_run ops r'). reflexivity. Qed.
Lemma sim_snoc op ops r x r' seen : rd_step op r = (x, r') -> is_panic x = false ->
  seen ++ until_panic (fst (rd_run (op :: ops) r)) = (seen ++ [x]) ++ until_panic (fst (rd_run ops r')).
Proof. intros H P. rewrite (run_cons _ _ _ _ _ H). cbn [until_panic]. rewrite P, <- app_assoc. reflexivity. Qed.
Lemma sim_panic op ops r x r' seen : rd_step op r = (x, r') -> is_panic x = true ->
  seen ++ [x] = seen ++ until_panic (fst (rd_run (op :: ops) r)).
Proof. intros H P. rewrite (run_cons _ _ _ _ _ H). cbn [until_panic]. rewrite P. reflexivity. Qed.
Lemma no_read_tail op ops : (forall n, ~ In (ORead n) (op :: ops)) -> forall n, ~ In (ORead n) ops.
Proof. intros H n I. apply (H n). right. exact I. Qed.

Lemma sim_step tot c c' : ctl c -> sim tot c -> cstep c c' -> sim tot c'.
Proof.
  intros (HP & HM & _ & _) HS St. destruct St; unfold sim in *; fields;
    try (destruct HS as (r & Ht & He & Hv & Hc & Hn & HS)).
  - (* next, stored error *)
    assert (E : rd_step ONext r = (SNext (Err e), r)) by (cbn [rd_step]; unfold Next; rewrite <- He; reflexivity).
    exists r. rewrite Ht, (sim_snoc _ _ _ _ _ _ E eq_refl). repeat split; auto; [exact (nrac_tail _ _ Hn)|].
    destruct (rd_closed r); [exact (no_read_tail _ _ HS)|exact HS].
  - (* next, about to send *)
    exists r. repeat split; auto.
  - (* closed *)
    destruct HM as (_ & -> & _).
    assert (E : rd_step ONext r = (SNext (Panic "send on closed channel"), r))
      by (cbn [rd_step]; unfold Next; rewrite <- He, <- Hc; reflexivity).
    rewrite Ht. apply (sim_panic _ _ _ _ _ _ E eq_refl).
  - (* rendezvous *)
    exists r. repeat split; auto. rewrite <- Hc in *. destruct HS as (-> & -> & HS). destruct (HS g eq_refl) as [-> HC].
    split; [apply same_refl|exact HC].
  - (* header *)
    destruct HM as (_ & -> & -> & _). rewrite <- Hc in HS. destruct HS as [[Y _] HC]. cbn [sent fst] in Y.
    destruct (resume (rd_gor r) (rd_content r) (rd_src r)) as [y ct0] eqn:R. cbn [fst] in Y. subst y.
    destruct (PathIsLexicographicallyOrdered pv (hd_path h)) eqn:L; fields.
    + assert (E : rd_step ONext r = (SNext (Ok h), RD s (GWait w st) None (hd_path h) ct false))
        by (cbn [rd_step]; unfold Next; rewrite <- He, <- Hc, R, <- Hv, L; reflexivity).
      eexists. rewrite Ht, (sim_snoc _ _ _ _ _ _ E eq_refl). cbn [rd_err rd_prev rd_closed rd_src rd_content rd_gor].
      do 7 (split; [auto; try exact (nrac_tail _ _ Hn)|]). intros g G. try discriminate G. injection G as <-. split; [reflexivity|exact HC].
    + assert (E : rd_step ONext r = (SNext (Err wrong_order), RD s (GWait w st) (Some wrong_order) pv ct false))
        by (cbn [rd_step]; unfold Next; rewrite <- He, <- Hc, R, <- Hv, L; reflexivity).
      eexists. rewrite Ht, (sim_snoc _ _ _ _ _ _ E eq_refl). cbn [rd_err rd_prev rd_closed rd_src rd_content rd_gor].
      do 7 (split; [auto; try exact (nrac_tail _ _ Hn)|]). intros g G. try discriminate G. injection G as <-. split; [reflexivity|exact HC].
  - (* error *)
    destruct HM as (_ & -> & -> & _). rewrite <- Hc in HS. destruct HS as [[Y Y2] HC]. cbn [sent fst snd] in Y, Y2.
    destruct (resume (rd_gor r) (rd_content r) (rd_src r)) as [y ct0] eqn:R. cbn [fst snd] in Y, Y2. subst y ct0.
    assert (E : rd_step ONext r = (SNext (Err e), RD s GExit (Some e) pv ct false))
        by (cbn [rd_step]; unfold Next; rewrite <- He, <- Hc, R, <- Hv; reflexivity).
    eexists. rewrite Ht, (sim_snoc _ _ _ _ _ _ E eq_refl). cbn [rd_err rd_prev rd_closed rd_src rd_content rd_gor].
      do 7 (split; [auto; try exact (nrac_tail _ _ Hn)|]). intros g G. discriminate G.
  - destruct HM as (_ & -> & -> & HM). exfalso. destruct p; try contradiction; intuition discriminate.
  - destruct HM as (_ & -> & -> & HM). exfalso. destruct p; try contradiction; intuition discriminate.
  - (* read *)
    destruct (rd_closed r) eqn:C; [exfalso; apply (HS n); left; reflexivity|]. destruct HS as (-> & -> & HS).
    assert (E : rd_step (ORead n) r = (SRead b e, RD s' (rd_gor r) (rd_err r) (rd_prev r) ct' false)).
    { cbn [rd_step]. unfold rd_Read. destruct (rd_content r) as [br|] eqn:CT.
      - destruct (br_read n br (rd_src r)) as [[b0 e0] [br0 s0]]. injection H as <- <- <- <-. rewrite C. reflexivity.
      - injection H as <- <- <- <-. destruct r; cbn in *; subst; reflexivity. }
    eexists. rewrite Ht, (sim_snoc _ _ _ _ _ _ E eq_refl). cbn [rd_err rd_prev rd_closed rd_src rd_content rd_gor].
    do 7 (split; [auto; try exact (nrac_tail _ _ Hn)|]).
    intros g G. destruct (HS g G) as [<- HC]. split; [reflexivity|].
    destruct (rd_gor r) as [|[| |]| |]; cbn [has_content] in *; auto. intros D. apply HC. destruct (rd_content r); [|reflexivity].
    destruct (br_read n b0 (rd_src r)) as [[? ?] [? ?]]. injection H as _ _ <- _. discriminate.
  - (* close after the end *)
    assert (E : rd_step OClose r = (SClosed (Ok tt), r)) by (cbn [rd_step]; unfold rd_Close; rewrite <- He; reflexivity).
    exists r. rewrite Ht, (sim_snoc _ _ _ _ _ _ E eq_refl). repeat split; auto; [exact (nrac_tail _ _ Hn)|].
    destruct (rd_closed r); [exact (no_read_tail _ _ HS)|exact HS].
  - (* close *)
    rewrite <- Hc in HS. destruct HS as (-> & -> & HS).
    assert (E : exists r', rd_step OClose r = (SClosed (Ok tt), r') /\ rd_err r' = rd_err r /\ rd_prev r' = rd_prev r /\ rd_closed r' = true).
    { cbn [rd_step]. unfold rd_Close. rewrite <- Hc.
      destruct (rd_err r) as [[]|]; try congruence;
      (eexists; split; [reflexivity|]); destruct (rd_gor r); try destruct (run_all CRet st (rd_src r)); repeat split. }
    destruct E as (r' & E & E1 & E2 & E3). exists r'.
    rewrite Ht, (sim_snoc _ _ _ _ _ _ E eq_refl), E1, E2, E3. repeat split; auto; [exact (nrac_tail _ _ Hn)|].
    intros n. apply (Hn [] ops n eq_refl).
  - (* close of closed *)
    assert (E : rd_step OClose r = (SClosed (Panic "close of closed channel"), r)).
    { cbn [rd_step]. unfold rd_Close. rewrite <- Hc. destruct (rd_err r) as [[]|]; try congruence; reflexivity. }
    rewrite Ht. apply (sim_panic _ _ _ _ _ _ E eq_refl).
  - destruct m; auto; destruct HS as (r & Ht & He & Hv & Hc & Hn & HS); exists r; rewrite <- Hc in *; repeat split; auto.
  - destruct m; auto; destruct HS as (r & Ht & He & Hv & Hc & Hn & HS); exists r; rewrite <- Hc in *; repeat split; auto.
  - assert (nc = true \/ m = MSelect \/ exists w, m = MPanicked w) as N
      by (destruct m; eauto; [destruct nc; auto; destruct (HM eq_refl) as [[g' D]|[_ [(D&_)|[(D&_)|D]]]]; discriminate
         |destruct HM as (_ & _ & [C|[g' C]]); [auto|discriminate]]).
    destruct m; auto; destruct HS as (r & Ht & He & Hv & Hc & Hn & HS); exists r; do 5 (split; [assumption|]);
      (destruct (rd_closed r) eqn:C; [exact HS|]); try (exfalso; destruct N as [N|[N|[w N]]]; congruence).
    destruct HS as [Y HC]. destruct HP as (L & _). pose proof (go_live _ _ _ _ _ _ L H) as G.
    split; [|destruct p'; try contradiction; exact I].
    rewrite (sent_go _ _ _ _ _ _ L HC H). exact Y.
  - assert (nc = true \/ m = MSelect \/ exists w, m = MPanicked w) as N
      by (destruct m; eauto; [destruct nc; auto; destruct (HM eq_refl) as [[g' D]|[_ [(D&_)|[(D&_)|D]]]]; discriminate
         |destruct HM as (_ & _ & [C|[g' C]]); [auto|discriminate]]).
    destruct m; auto; destruct HS as (r & Ht & He & Hv & Hc & Hn & HS); exists r; do 5 (split; [assumption|]);
      (destruct (rd_closed r) eqn:C; [exact HS|]); try (exfalso; destruct N as [N|[N|[w N]]]; congruence).
    destruct HS as [Y _]. split; [|exact I]. eapply same_trans; [|exact Y]. cbn [sent].
    rewrite (run_all_step c st s), H. apply same_refl.
  - assert (nc = true \/ m = MSelect \/ exists w, m = MPanicked w) as N
      by (destruct m; eauto; [destruct nc; auto; destruct (HM eq_refl) as [[g' D]|[_ [(D&_)|[(D&_)|D]]]]; discriminate
         |destruct HM as (_ & _ & [C|[g' C]]); [auto|discriminate]]).
    destruct m; auto; destruct HS as (r & Ht & He & Hv & Hc & Hn & HS); exists r; do 5 (split; [assumption|]);
      (destruct (rd_closed r) eqn:C; [exact HS|]); try (exfalso; destruct N as [N|[N|[w0 N]]]; congruence).
    destruct HS as [Y _]. split; [|destruct w; cbn [has_content]; auto; exact (yield_content _ _ _ _ _ _ _ H)].
    eapply same_trans; [|exact Y]. cbn [sent]. rewrite (run_all_step c st s), H. split; [reflexivity|exact I].
  - assert (nc = true \/ m = MSelect \/ exists w, m = MPanicked w) as N
      by (destruct m; eauto; [destruct nc; auto; destruct (HM eq_refl) as [[g' D]|[_ [(D&_)|[(D&_)|D]]]]; discriminate
         |destruct HM as (_ & _ & [C|[g' C]]); [auto|discriminate]]).
    destruct m; auto; destruct HS as (r & Ht & He & Hv & Hc & Hn & HS); exists r; do 5 (split; [assumption|]);
      (destruct (rd_closed r) eqn:C; [exact HS|]); try (exfalso; destruct N as [N|[N|[w0 N]]]; congruence).
    destruct HS as [Y _]. split; [|exact I].
    eapply same_trans; [|exact Y]. cbn [sent]. rewrite (run_all_step c st s), H. apply same_refl.
  - destruct m; auto; destruct HS as (r & Ht & He & Hv & Hc & Hn & HS); exists r; do 5 (split; [assumption|]);
      (destruct (rd_closed r) eqn:C; [exact HS|]).
    + destruct HS as (A & B & _). repeat split; auto; discriminate.
    + destruct HS as (A & B & _). repeat split; auto; discriminate.
  - destruct m; auto; destruct HS as (r & Ht & He & Hv & Hc & Hn & HS); exists r; do 5 (split; [assumption|]);
      (destruct (rd_closed r) eqn:C; [exact HS|]).
    + destruct HS as (A & B & _). repeat split; auto; discriminate.
    + destruct HS as (A & B & _). repeat split; auto; discriminate.
Qed.

Definition new_rd (s : src) : rd := RD s GFirst None [] None false.
Lemma sim_start ops s : no_read_after_close ops -> sim (until_panic (fst (rd_run ops (new_rd s)))) (conc_start ops s).
Proof.
  intros H. unfold sim, conc_start. fields. exists (new_rd s). do 5 (split; [reflexivity || exact H|]).
  cbn [rd_closed new_rd rd_src rd_content rd_gor]. do 2 (split; [reflexivity|]). intros g G. assert (g = GFirst) by congruence. subst g. split; [reflexivity|exact I].
Qed.
Lemma both_exec tot c c' : ctl c /\ sim tot c -> execution c c' -> ctl c' /\ sim tot c'.
Proof.
  intros H E. refine (exec_inv (fun c => ctl c /\ sim tot c) _ _ _ H E).
  intros a b [H1 H2] St. split; [exact (ctl_step _ _ H1 St)|exact (sim_step _ _ _ H1 H2 St)].
Qed.
Lemma new_is s0 r s : NewReader s0 = (Ok r, s) -> r = new_rd s.
Proof.
  unfold NewReader. destruct (expectString s0 narVersionMagic1) as [[[]|] s']; try discriminate. intros [= <- <-]. reflexivity.
Qed.

(** * Given schedules, to build examples *)
Definition main_step (c : conf) : option conf :=
  let '(Conf ops m p s ct er pv nc hc ec seen) := c in
  match m, ops with
  | MIdle, ONext :: ops' =>
      match er with
      | Some e => Some (Conf ops' MIdle p s ct (Some e) pv nc hc ec (seen ++ [SNext (Err e)]))
      | None => Some (Conf ops MSend p s ct None pv nc hc ec seen)
      end
  | MIdle, ORead n :: ops' =>
      let '(b, e, (ct', s')) := match ct with
        | None => ([], Some EEOF, (None, s))
        | Some br => let '(b, e, (br', s')) := br_read n br s in (b, e, (Some br', s'))
        end in Some (Conf ops' MIdle p s' ct' er pv nc hc ec (seen ++ [SRead b e]))
  | MIdle, OClose :: ops' =>
      match er with
      | Some EEOF => Some (Conf ops' MIdle p s ct er pv nc hc ec (seen ++ [SClosed (Ok tt)]))
      | _ => if nc then None else Some (Conf ops' MIdle p s ct er pv true hc ec (seen ++ [SClosed (Ok tt)]))
      end
  | MSend, ONext :: ops' =>
      match nc, p with
      | false, TRecv g => Some (Conf ops MSelect (TGo g) s ct er pv false hc ec seen)
      | _, _ => None
      end
  | MSelect, ONext :: ops' =>
      match p with
      | TSendH h w st =>
          Some (if PathIsLexicographicallyOrdered pv (hd_path h)
           then Conf ops' MIdle (TRecv (GWait w st)) s ct er (hd_path h) nc hc ec (seen ++ [SNext (Ok h)])
           else Conf ops' MIdle (TRecv (GWait w st)) s ct (Some wrong_order) pv nc hc ec (seen ++ [SNext (Err wrong_order)]))
      | TSendE e => Some (Conf ops' MIdle TCloseH s ct (Some e) pv nc hc ec (seen ++ [SNext (Err e)]))
      | _ => None
      end
  | _, _ => None
  end.
Definition par_step (c : conf) : option conf :=
  let '(Conf ops m p s ct er pv nc hc ec seen) := c in
  match p with
  | TRecv g => match nc, g with
               | true, GFirst => Some (Conf ops m TDone s ct er pv true hc ec seen)
               | true, GWait w st => Some (Conf ops m (TRun CRet st) s ct er pv true hc ec seen)
               | _, _ => None
               end
  | TGo g => let '(p', ct', s') := go_step g ct s in Some (Conf ops m p' s' ct' er pv nc hc ec seen)
  | TRun c st => Some match pstep1 c st s with
                      | PGo c' st' s' => Conf ops m (TRun c' st') s' ct er pv nc hc ec seen
                      | PYield h w st' ct' s' => Conf ops m (TSendH h w st') s' ct' er pv nc hc ec seen
                      | PStop e s' => Conf ops m (TSendE e) s' ct er pv nc hc ec seen
                      end
  | TCloseH => if hc then None else Some (Conf ops m TCloseE s ct er pv nc true ec seen)
  | TCloseE => if ec then None else Some (Conf ops m TDone s ct er pv nc hc true seen)
  | _ => None
  end.
Lemma main_sound c c' : main_step c = Some c' -> cstep c c'.
Proof.
  destruct c as [ops m p s ct er pv nc hc ec seen]. cbn [main_step]. intros H.
  destruct m; destruct ops as [|[|n|] ops]; try discriminate.
  - destruct er; injection H as <-; constructor.
  - destruct (match ct with
        | None => ([], Some EEOF, (None, s))
        | Some br => let '(b, e, (br', s')) := br_read n br s in (b, e, (Some br', s'))
        end) as [[b e] [ct' s']] eqn:E. injection H as <-. apply s_read. exact E.
  - destruct er as [[]|]; try (destruct nc; [discriminate|]); injection H as <-; constructor; discriminate.
  - destruct nc; [discriminate|]. destruct p; try discriminate. injection H as <-. constructor.
  - destruct p; try discriminate; injection H as <-; constructor.
Qed.
Lemma par_sound c c' : par_step c = Some c' -> cstep c c'.
Proof.
  destruct c as [ops m p s ct er pv nc hc ec seen]. cbn [par_step]. intros H.
  destruct p as [g|g|pc0 st|h w st|e| | |]; try discriminate.
  - destruct nc; [|discriminate]. destruct g; try discriminate; injection H as <-; constructor.
  - destruct (go_step g ct s) as [[p' ct'] s'] eqn:E. injection H as <-. constructor. exact E.
  - injection H as <-. destruct (pstep1 pc0 st s) eqn:E; constructor; exact E.
  - destruct hc; [discriminate|]. injection H as <-. constructor.
  - destruct ec; [discriminate|]. injection H as <-. constructor.
Qed.
(** [true] lets the caller move, [false] the parser; a thread that cannot move is
    passed over. *)
Fixpoint play (l : list bool) (c : conf) : conf :=
  match l with
  | [] => c
  | b :: l' => play l' (match (if b then main_step c else par_step c) with Some c' => c' | None => c end)
  end.
Lemma play_exec l : forall c, execution c (play l c).
Proof.
  induction l as [|b l IH]; intros c; [constructor|]. cbn [play].
  destruct b; [destruct (main_step c) eqn:E|destruct (par_step c) eqn:E]; try apply IH;
    (econstructor; [first [exact (main_sound _ _ E)|exact (par_sound _ _ E)]|apply IH]).
Qed.
(** All steps of a configuration whose calls are made and whose parser cannot move. *)
Lemma stuck_when c : cf_ops c = [] -> cf_main c = MIdle ->
  (cf_par c = TDone \/ (exists h w st, cf_par c = TSendH h w st) \/ (exists e, cf_par c = TSendE e) \/
   (cf_next_closed c = false /\ exists g, cf_par c = TRecv g)) -> stuck c.
Proof.
  intros Ho Hm Hp c' St. destruct St; fields; try congruence;
    destruct Hp as [?|[(?&?&?&?)|[(?&?)|(?&?&?)]]]; congruence.
Qed.
