(** Every schedule of the two goroutines of the nar Writer gives what the
    sequential model gives. *)
From Coq Require Import Lia Relations.Relation_Operators.
From Verif Require Import Base.Bytes Model.GoIO Model.GoStd Model.Wire Model.Nar Model.NarWriter Spec.NarHist Spec.NarWHist Model.NarWConc Spec.WConcSpec.
Ltac Zify.zify_post_hook ::= idtac.
Ltac wfields := cbn [wc_ops wc_main wc_em wc_sink wc_cw wc_closed wc_headers_closed wc_errors_closed wc_seen
  wr_sink wr_gor wr_cw wr_closed] in *.

Definition live_w (g : wgor) : Prop := match g with WGone => False | _ => True end.
(** The emitter is where the sequential model has it, between two calls. *)
Definition at_rest (em : ethread) (ec : bool) (g : wgor) : Prop :=
  (em = ERecv g /\ live_w g /\ ec = false) \/ (g = WGone /\ ((em = EClose /\ ec = false) \/ (em = EExit /\ ec = true))).
Definition wsim (ops0 : list wr_op) (r0 : wr) (c : wconf) : Prop :=
  match wc_main c with
  | WPanicked _ => prefix_of (wc_seen c) (map snd (fst (wr_run ops0 r0))) /\ ~ all_return ops0 r0
  | m => exists don l r, ops0 = don ++ wc_ops c /\ wr_run don r0 = (l, r) /\ map snd l = wc_seen c /\
      (wr_closed r = true -> wr_gor r = WGone) /\
      match m with
      | WIdle => wc_sink c = wr_sink r /\ wc_cw c = wr_cw r /\ wc_closed c = wr_closed r /\ wc_headers_closed c = wr_closed r /\
          at_rest (wc_em c) (wc_errors_closed c) (wr_gor r)
      | WSend h => (exists o, wc_ops c = WHeader h :: o) /\ hd_Validate h = Ok tt /\
          wc_sink c = wr_sink r /\ wc_cw c = wr_cw r /\ wc_closed c = wr_closed r /\ wc_headers_closed c = wr_closed r /\
          at_rest (wc_em c) (wc_errors_closed c) (wr_gor r)
      | WSelect => exists h o, wc_ops c = WHeader h :: o /\ hd_Validate h = Ok tt /\
          wc_closed c = false /\ wr_closed r = false /\ wc_headers_closed c = false /\ wc_errors_closed c = false /\
          match wc_em c with
          | ERun g x => x = Some h /\ g = wr_gor r /\ live_w g /\ wc_sink c = wr_sink r /\ wc_cw c = wr_cw r
          | ESendErr e => WriteHeader h r = (WErr e, WR (wc_sink c) WGone (wc_cw c) false)
          | ESendDone cur up => WriteHeader h r = (WOk, WR (wc_sink c) (WWait cur up) (wc_cw c) false)
          | _ => False
          end
      | WRecvErr => exists o, wc_ops c = WClose :: o /\
          wc_closed c = true /\ wr_closed r = false /\ wc_headers_closed c = true /\
          match wc_em c with
          | ERecv g => g = wr_gor r /\ live_w g /\ wc_sink c = wr_sink r /\ wc_cw c = wr_cw r /\ wc_errors_closed c = false
          | ERun g x => x = None /\ g = wr_gor r /\ live_w g /\ wc_sink c = wr_sink r /\ wc_cw c = wr_cw r /\ wc_errors_closed c = false
          | ESendErr e => wr_Close r = (WErr e, WR (wc_sink c) WGone (wc_cw c) true) /\ wc_errors_closed c = false
          | ESendDone cur up => False
          | EClose => wr_Close r = (WOk, WR (wc_sink c) WGone (wc_cw c) true) /\ wc_errors_closed c = false
          | EExit => wr_Close r = (WOk, WR (wc_sink c) WGone (wc_cw c) true) /\ wc_errors_closed c = true
          end
      | WPanicked _ => True
      end
  end.

Lemma em_header g h r em cw w : live_w g -> wr_gor r = g -> wr_closed r = false -> hd_Validate h = Ok tt ->
  em_step g (Some h) (wr_cw r) (wr_sink r) = Some (em, cw, w) ->
  match em with
  | ESendErr e => WriteHeader h r = (WErr e, WR w WGone cw false)
  | ESendDone cur up => WriteHeader h r = (WOk, WR w (WWait cur up) cw false)
  | _ => False
  end.
Proof.
  intros L G C V H. unfold WriteHeader. rewrite V, C, G. destruct g as [|cur up|]; cbn [em_step] in H; [| |contradiction].
  - destruct (negb (beq (hd_path h) (bs "/"))); [injection H as <- <- <-; reflexivity|].
    destruct (emit_head h (wr_cw r) (wr_sink r)) as [[er|] [cw' w']]; injection H as <- <- <-; reflexivity.
  - destruct (cw_close (wr_cw r) (wr_sink r)) as [[[er|]|] [cw' w']]; [injection H as <- <- <-; reflexivity| |discriminate].
    destruct (handle cur up h cw' w'); injection H as <- <- <-; reflexivity.
Qed.
Lemma em_header_panic g h r : live_w g -> wr_gor r = g -> wr_closed r = false -> hd_Validate h = Ok tt ->
  em_step g (Some h) (wr_cw r) (wr_sink r) = None -> exists m, fst (WriteHeader h r) = WPanic m.
Proof.
  intros L G C V H. unfold WriteHeader. rewrite V, C, G. destruct g as [|cur up|]; cbn [em_step] in H; [| |contradiction].
  - destruct (negb (beq (hd_path h) (bs "/"))); [discriminate|].
    destruct (emit_head h (wr_cw r) (wr_sink r)) as [[er|] [cw' w']]; discriminate.
  - destruct (cw_close (wr_cw r) (wr_sink r)) as [[[er|]|] [cw' w']]; [discriminate| |eexists; reflexivity].
    destruct (handle cur up h cw' w'); discriminate.
Qed.
Lemma em_close g r em cw w : live_w g -> wr_gor r = g -> wr_closed r = false ->
  em_step g None (wr_cw r) (wr_sink r) = Some (em, cw, w) ->
  match em with
  | ESendErr e => wr_Close r = (WErr e, WR w WGone cw true)
  | EClose => wr_Close r = (WOk, WR w WGone cw true)
  | _ => False
  end.
Proof.
  intros L G C H. unfold wr_Close. rewrite C, G. destruct g as [|cur up|]; cbn [em_step] in H; [| |contradiction].
  - injection H as <- <- <-. reflexivity.
  - destruct (cw_close (wr_cw r) (wr_sink r)) as [[[er|]|] [cw' w']]; [injection H as <- <- <-; reflexivity| |discriminate].
    destruct (finish up w') as [[er|] w2]; injection H as <- <- <-; reflexivity.
Qed.
Lemma em_close_panic g r : live_w g -> wr_gor r = g -> wr_closed r = false ->
  em_step g None (wr_cw r) (wr_sink r) = None -> exists m, fst (wr_Close r) = WPanic m.
Proof.
  intros L G C H. unfold wr_Close. rewrite C, G. destruct g as [|cur up|]; cbn [em_step] in H; [| |contradiction].
  - discriminate.
  - destruct (cw_close (wr_cw r) (wr_sink r)) as [[[er|]|] [cw' w']]; [discriminate| |eexists; reflexivity].
    destruct (finish up w') as [[er|] w2]; discriminate.
Qed.

Lemma wrun_app a : forall b r, wr_run (a ++ b) r =
  let '(l, r1) := wr_run a r in let '(l2, r2) := wr_run b r1 in (l ++ l2, r2).
Proof.
  induction a as [|op a IH]; intros b r; cbn [wr_run app]; [destruct (wr_run b r); reflexivity|].
  destruct (wr_step op r) as [x r1]. rewrite IH. destruct (wr_run a r1) as [l r2]. destruct (wr_run b r2). reflexivity.
Qed.
Lemma wrun_snoc don l r0 r op x r' : wr_run don r0 = (l, r) -> wr_step op r = (x, r') ->
  wr_run (don ++ [op]) r0 = (l ++ [(op, x)], r').
Proof. intros H S. rewrite wrun_app, H. cbn [wr_run]. rewrite S. reflexivity. Qed.
Lemma snoc_app {A} (a : list A) x b : a ++ x :: b = (a ++ [x]) ++ b.
Proof. rewrite <- app_assoc. reflexivity. Qed.
Lemma wrun_prefix don rest l r0 r op x r' : wr_run don r0 = (l, r) -> wr_step op r = (x, r') ->
  prefix_of (map snd l ++ [x]) (map snd (fst (wr_run (don ++ op :: rest) r0))) /\
  prefix_of (map snd l) (map snd (fst (wr_run (don ++ op :: rest) r0))) /\
  (~ returns x -> ~ all_return (don ++ op :: rest) r0).
Proof.
  intros H S. rewrite (snoc_app don op rest). unfold all_return. rewrite (wrun_app (don ++ [op]) rest), (wrun_snoc _ _ _ _ _ _ _ H S).
  destruct (wr_run rest r') as [l2 r2]. cbn [fst]. rewrite map_app, map_app. cbn [map snd].
  split; [eexists; reflexivity|]. split; [eexists; rewrite <- app_assoc; reflexivity|].
  intros N F. apply Forall_app in F. destruct F as [F _]. apply Forall_app in F. destruct F as [_ F]. inversion F; contradiction.
Qed.

Lemma wsim_step ops0 r0 c c' : wsim ops0 r0 c -> wcstep c c' -> wsim ops0 r0 c'.
Proof.
  intros S St. destruct St; unfold wsim in *; wfields.
  - (* invalid *)
    destruct S as (don & l & r & E & R & L & K & A & B & C & D & F).
    assert (T : wr_step (WHeader h) r = (SHeader match x with Err e => WErr e | Panic m => WPanic m | Ok _ => WOk end, r)).
    { cbn [wr_step]. unfold WriteHeader. rewrite H. destruct x as [[]|e|m]; [contradiction H0; reflexivity|reflexivity|reflexivity]. }
    destruct (wrun_prefix don ops l r0 r _ _ _ R T) as (P1 & _ & P2). rewrite <- E, L in *.
    destruct x as [[]|e|m]; [contradiction H0; reflexivity| |split; [exact P1|apply P2; intros []]].
    eexists (don ++ [WHeader h]), _, r. split; [rewrite <- snoc_app; exact E|]. split; [exact (wrun_snoc _ _ _ _ _ _ _ R T)|].
    split; [rewrite map_app; cbn [map snd]; congruence|]. tauto.
  - (* about to send *)
    destruct S as (don & l & r & E & R & L & K & A & B & C & D & F). exists don, l, r. repeat (split; [eauto|]). auto.
  - (* closed: panic *)
    destruct S as (don & l & r & E & R & L & K & (o' & O) & V & A & B & C & D & F). injection O as -> <-.
    assert (T : wr_step (WHeader h) r = (SHeader (WPanic "send on closed channel"), r))
      by (cbn [wr_step]; unfold WriteHeader; rewrite V, <- D; reflexivity).
    destruct (wrun_prefix don ops l r0 r _ _ _ R T) as (P1 & _ & P2). rewrite <- E, L in *.
    split; [exact P1|apply P2; intros []].
  - (* rendezvous *)
    destruct S as (don & l & r & E & R & L & K & (o' & O) & V & A & B & C & D & F). exists don, l, r. repeat (split; [eauto|]).
    exists h, o'. destruct F as [(F & G & I)|(F & [[G _]|[G _]])]; try discriminate. injection F as ->.
    rewrite <- D in C. repeat split; auto.
  - (* done *)
    destruct S as (don & l & r & E & R & L & K & h & o' & O & V & A & B & C & D & F). injection O as -> <-.
    assert (T : wr_step (WHeader h) r = (SHeader WOk, WR w (WWait cur up) cw false)) by (cbn [wr_step]; rewrite F; reflexivity).
    eexists (don ++ [WHeader h]), _, _. split; [rewrite <- snoc_app; exact E|]. split; [exact (wrun_snoc _ _ _ _ _ _ _ R T)|].
    split; [rewrite map_app; cbn [map snd]; congruence|]. wfields. split; [discriminate|]. repeat split; auto. left. repeat split; auto.
  - (* error *)
    destruct S as (don & l & r & E & R & L & K & h & o' & O & V & A & B & C & D & F). injection O as -> <-.
    assert (T : wr_step (WHeader h) r = (SHeader (WErr e), WR w WGone cw false)) by (cbn [wr_step]; rewrite F; reflexivity).
    eexists (don ++ [WHeader h]), _, _. split; [rewrite <- snoc_app; exact E|]. split; [exact (wrun_snoc _ _ _ _ _ _ _ R T)|].
    split; [rewrite map_app; cbn [map snd]; congruence|]. wfields. split; [discriminate|]. repeat split; auto. right. auto.
  - (* errors closed: unreachable *)
    destruct S as (don & l & r & E & R & L & K & h & o' & O & V & A & B & C & D & F). discriminate.
  - (* write *)
    destruct S as (don & l & r & E & R & L & K & A & B & C & D & F).
    assert (T : wr_step (WBytes p) r = (SWrote n x, WR (wr_sink r') (wr_gor r) (wr_cw r') (wr_closed r))).
    { subst w cw cl. cbn [wr_step]. unfold wr_Write in *. wfields. destruct (wr_cw r) as [|bw|bw bf] eqn:CW.
      - injection H as <- <- <-. destruct r; wfields; subst; reflexivity.
      - destruct (bw_write bw p (wr_sink r)) as [[n' e'] [bw' w']]. injection H as <- <- <-. reflexivity.
      - destruct (bw_write bw p bf) as [[n' e'] [bw' w']]. injection H as <- <- <-. reflexivity. }
    destruct (wrun_prefix don ops l r0 r _ _ _ R T) as (P1 & _ & P2). rewrite <- E, L in *.
    assert (G : exists don l r, ops0 = don ++ ops /\ wr_run don r0 = (l, r) /\ map snd l = seen ++ [SWrote n x] /\
      (wr_closed r = true -> wr_gor r = WGone) /\
      wr_sink r' = wr_sink r /\ wr_cw r' = wr_cw r /\ cl = wr_closed r /\ hc = wr_closed r /\ at_rest em ec (wr_gor r)).
    { eexists (don ++ [WBytes p]), _, _. split; [rewrite <- snoc_app; exact E|]. split; [exact (wrun_snoc _ _ _ _ _ _ _ R T)|].
      split; [rewrite map_app; cbn [map snd]; congruence|]. wfields. tauto. }
    destruct x; auto.
  - (* already closed *)
    destruct S as (don & l & r & E & R & L & K & A & B & C & D & F).
    assert (T : wr_step WClose r = (SClosed (WErr (EMsg "already closed")), r)) by (cbn [wr_step]; unfold wr_Close; rewrite <- C; reflexivity).
    eexists (don ++ [WClose]), _, _. split; [rewrite <- snoc_app; exact E|]. split; [exact (wrun_snoc _ _ _ _ _ _ _ R T)|].
    split; [rewrite map_app; cbn [map snd]; congruence|]. tauto.
  - destruct S as (don & l & r & E & R & L & K & A & B & C & D & F). congruence.
  - (* close *)
    destruct S as (don & l & r & E & R & L & K & A & B & C & D & F).
    exists don, l, r. do 4 (split; [auto|]). exists ops. do 4 (split; [auto; congruence|]).
    destruct F as [(F & G & I)|(F & [[G I]|[G I]])]; subst em.
    + auto.
    + subst. split; [|reflexivity]. unfold wr_Close. rewrite <- C, F. reflexivity.
    + subst. split; [|reflexivity]. unfold wr_Close. rewrite <- C, F. reflexivity.
  - (* close error *)
    destruct S as (don & l & r & E & R & L & K & o' & O & A & B & C & F & G). injection O as -> <-.
    assert (T : wr_step WClose r = (SClosed (WErr e), WR w WGone cw true)) by (cbn [wr_step]; rewrite F; reflexivity).
    eexists (don ++ [WClose]), _, _. split; [rewrite <- snoc_app; exact E|]. split; [exact (wrun_snoc _ _ _ _ _ _ _ R T)|].
    split; [rewrite map_app; cbn [map snd]; congruence|]. wfields. split; [auto|]. repeat split; auto. right. auto.
  - (* close nil *)
    destruct S as (don & l & r & E & R & L & K & o' & O & A & B & C & F). injection O as -> <-.
    assert (em = EExit) as -> by (destruct em; intuition congruence). destruct F as [F _].
    assert (T : wr_step WClose r = (SClosed WOk, WR w WGone cw true)) by (cbn [wr_step]; rewrite F; reflexivity).
    eexists (don ++ [WClose]), _, _. split; [rewrite <- snoc_app; exact E|]. split; [exact (wrun_snoc _ _ _ _ _ _ _ R T)|].
    split; [rewrite map_app; cbn [map snd]; congruence|]. wfields. split; [auto|]. repeat split; auto. right. auto.
  - (* emitter sees the end *)
    destruct m; auto; destruct S as (don & l & r & E & R & L & K & S); exists don, l, r; do 4 (split; [auto|]).
    + exfalso. destruct S as (A & B & C & D & F). rewrite <- D in K. destruct F as [(F & G & I)|(F & [[G _]|[G _]])]; try discriminate.
      rewrite (K eq_refl) in G. exact G.
    + exfalso. destruct S as (_ & _ & A & B & C & D & F). rewrite <- D in K. destruct F as [(F & G & I)|(F & [[G _]|[G _]])]; try discriminate.
      rewrite (K eq_refl) in G. exact G.
    + exfalso. destruct S as (h & o & _ & _ & _ & _ & D & _). discriminate.
    + destruct S as (o & O & A & B & C & F). exists o. tauto.
  - (* emitter runs *)
    destruct m; auto; destruct S as (don & l & r & E & R & L & K & S).
    + exfalso. destruct S as (A & B & C & D & F). destruct F as [(F & G & I)|(F & [[G _]|[G _]])]; discriminate.
    + exfalso. destruct S as (_ & _ & A & B & C & D & F). destruct F as [(F & G & I)|(F & [[G _]|[G _]])]; discriminate.
    + exists don, l, r. do 4 (split; [auto|]). destruct S as (h & o & O & V & A & B & C & D & -> & -> & F & -> & ->).
      exists h, o. do 6 (split; [auto|]). pose proof (em_header _ _ _ _ _ _ F eq_refl B V H) as G.
      destruct em'; try contradiction; exact G.
    + exists don, l, r. do 4 (split; [auto|]). destruct S as (o & O & A & B & C & -> & -> & F & -> & -> & D).
      exists o. do 4 (split; [auto|]). pose proof (em_close _ _ _ _ _ F eq_refl B H) as G.
      destruct em'; try contradiction; auto.
  - (* emitter panics *)
    destruct m; auto; destruct S as (don & l & r & E & R & L & K & S).
    + exfalso. destruct S as (A & B & C & D & F). destruct F as [(F & G & I)|(F & [[G _]|[G _]])]; discriminate.
    + exfalso. destruct S as (_ & _ & A & B & C & D & F). destruct F as [(F & G & I)|(F & [[G _]|[G _]])]; discriminate.
    + destruct S as (h & o & O & V & A & B & C & D & -> & -> & F & -> & ->). subst ops.
      destruct (em_header_panic _ _ _ F eq_refl B V H) as [m Hm].
      destruct (WriteHeader h r) as [x r1] eqn:W. cbn [fst] in Hm. subst x.
      assert (T : wr_step (WHeader h) r = (SHeader (WPanic m), r1)) by (cbn [wr_step]; rewrite W; reflexivity).
      destruct (wrun_prefix don o l r0 r _ _ _ R T) as (_ & P1 & P2). rewrite <- E, L in *. split; [exact P1|apply P2; intros []].
    + destruct S as (o & O & A & B & C & -> & -> & F & -> & -> & D). subst ops.
      destruct (em_close_panic _ _ F eq_refl B H) as [m Hm].
      destruct (wr_Close r) as [x r1] eqn:W. cbn [fst] in Hm. subst x.
      assert (T : wr_step WClose r = (SClosed (WPanic m), r1)) by (cbn [wr_step]; rewrite W; reflexivity).
      destruct (wrun_prefix don o l r0 r _ _ _ R T) as (_ & P1 & P2). rewrite <- E, L in *. split; [exact P1|apply P2; intros []].
  - (* errors is closed *)
    destruct m; auto; destruct S as (don & l & r & E & R & L & K & S); exists don, l, r; do 4 (split; [auto|]).
    + destruct S as (A & B & C & D & F). do 4 (split; [auto|]). right. destruct F as [(F & _)|(F & [[G _]|[G _]])]; try discriminate. auto.
    + destruct S as (O & V & A & B & C & D & F). do 6 (split; [auto|]). right. destruct F as [(F & _)|(F & [[G _]|[G _]])]; try discriminate. auto.
    + destruct S as (h & o & O & V & A & B & C & D & []).
    + destruct S as (o & O & A & B & C & F & D). exists o. tauto.
Qed.
Lemma wexec_inv (I : wconf -> Prop) : (forall c c', I c -> wcstep c c' -> I c') -> forall c c', I c -> wexecution c c' -> I c'.
Proof. intros H c c' Hc E. induction E as [|a b d St E IH]; [exact Hc|]. apply IH. eapply H; eauto. Qed.
Definition new_wr (w : sink) : wr := WR w WFirst CWNil false.
Lemma wsim_start ops w : wsim ops (new_wr w) (wconc_start ops w).
Proof.
  unfold wsim, wconc_start. wfields. exists [], [], (new_wr w). do 3 (split; [reflexivity|]). split; [discriminate|].
  do 4 (split; [reflexivity|]). left. repeat split.
Qed.
Lemma new_w_is w0 r w : NewWriter w0 = (Ok r, w) -> r = new_wr w.
Proof. unfold NewWriter. destruct (WriteString w0 narVersionMagic1) as [[e|] w']; [discriminate|]. intros [= <- <-]. reflexivity. Qed.
Lemma wsim_exec ops w c : wexecution (wconc_start ops w) c -> wsim ops (new_wr w) c.
Proof. apply (wexec_inv _ (fun c c' => wsim_step ops (new_wr w) c c')). apply wsim_start. Qed.

(** * Progress *)
Lemma wprogress ops0 r0 c : wsim ops0 r0 c -> wc_ops c <> [] -> (forall m, wc_main c <> WPanicked m) ->
  (exists c', wcstep c c') \/
  exists h o don l r, wc_main c = WSend h /\ wc_em c = EExit /\ wc_ops c = WHeader h :: o /\
    ops0 = don ++ WHeader h :: o /\ wr_run don r0 = (l, r) /\ map snd l = wc_seen c /\
    wc_sink c = wr_sink r /\ WriteHeader h r = (WBlocked, r).
Proof.
  intros S O P. unfold wsim in S. destruct c as [ops m em w cw cl hc ec seen]. wfields.
  destruct m as [|h| | |m]; [| | | |exfalso; exact (P m eq_refl)]; destruct S as (don & l & r & E & R & L & K & S).
  - left. destruct ops as [|[h|p|] ops]; [contradiction O; reflexivity| | |].
    + destruct (hd_Validate h) as [[]|e|m] eqn:V; eexists;
        [exact (t_send _ _ _ _ _ _ _ _ _ V)|eapply t_invalid; [exact V|discriminate]..].
    + destruct (wr_Write p (WR w WGone cw cl)) as [[n x] r'] eqn:W. eexists. eapply t_write. exact W.
    + destruct cl; [eexists; apply t_close_again|]. destruct S as (A & B & C & D & F).
      destruct hc; [congruence|]. eexists. apply t_close.
  - destruct S as ((o & ->) & V & A & B & C & D & F).
    destruct hc; [left; eexists; apply t_send_panic|].
    destruct F as [(-> & G & I)|(F & [[-> ->]|[-> ->]])].
    + left. eexists. apply t_header.
    + left. eexists. apply t_close_errors.
    + right. exists h, o, don, l, r. repeat split; auto. unfold WriteHeader. rewrite V, <- D, F. reflexivity.
  - left. destruct S as (h & o & -> & V & A & B & C & D & F). destruct em as [g|g x|cur up|e| |]; try contradiction.
    + destruct (em_step g x cw w) as [[[em' cw'] w']|] eqn:T; eexists; [eapply t_run; exact T|eapply t_run_panic; exact T].
    + eexists. apply t_done.
    + eexists. apply t_error.
  - left. destruct S as (o & -> & A & B & C & F). destruct em as [g|g x|cur up|e| |].
    + subst hc. eexists. apply t_recv_closed.
    + destruct (em_step g x cw w) as [[[em' cw'] w']|] eqn:T; eexists; [eapply t_run; exact T|eapply t_run_panic; exact T].
    + contradiction.
    + eexists. apply t_close_err.
    + destruct F as [_ ->]. eexists. apply t_close_errors.
    + destruct F as [_ ->]. eexists. apply t_close_nil.
Qed.

(** * Termination *)
Definition wmain_rank (m : wthread) : nat := match m with WIdle => 3 | WSend _ => 2 | WSelect | WRecvErr => 1 | WPanicked _ => 0 end.
Definition em_rank (t : ethread) : nat := match t with ERecv _ => 5 | ERun _ _ => 4 | ESendDone _ _ | ESendErr _ => 3 | EClose => 2 | EExit => 1 end.
Definition wrank (c : wconf) : nat := length (wc_ops c) * 30 + wmain_rank (wc_main c) * 6 + em_rank (wc_em c).
Lemma em_out g x cw w em' cw' w' : em_step g x cw w = Some (em', cw', w') -> em_rank em' < 4.
Proof.
  unfold em_step. intros H. 
  repeat match type of H with
  | context [match ?x with _ => _ end] => destruct x
  | Some (_, _, _) = Some _ => injection H as <- <- <-
  end; try discriminate; cbn [em_rank]; lia.
Qed.
Lemma wstep_down c c' : wcstep c c' -> wrank c' < wrank c.
Proof.
  intros St; destruct St; unfold wrank; wfields; cbn [length wmain_rank em_rank]; try lia;
    try (destruct em; cbn [em_rank]; lia).
  - destruct x; cbn [wmain_rank]; destruct em; cbn [em_rank]; lia.
  - destruct x; cbn [wmain_rank]; destruct em; cbn [em_rank]; lia.
  - apply em_out in H. lia.
Qed.
Lemma wno_infinite (f : nat -> wconf) : ~ forall n, wcstep (f n) (f (S n)).
Proof.
  intros H. assert (G : forall k n, wrank (f n) < k -> False).
  { induction k as [|k IH]; intros n L; [lia|]. apply (IH (S n)). pose proof (wstep_down _ _ (H n)). lia. }
  exact (G (S (wrank (f 0))) 0 ltac:(lia)).
Qed.

(** * Given schedules, to build examples *)
Definition wmain_step (c : wconf) : option wconf :=
  let '(WConf ops m em w cw cl hc ec seen) := c in
  match m, ops with
  | WIdle, WHeader h :: ops' =>
      match hd_Validate h with
      | Ok _ => Some (WConf ops (WSend h) em w cw cl hc ec seen)
      | _ => None
      end
  | WIdle, WBytes p :: ops' =>
      let '((n, x), r') := wr_Write p (WR w WGone cw cl) in
      Some (WConf ops' match x with WPanic m => WPanicked m | _ => WIdle end em (wr_sink r') (wr_cw r') cl hc ec (seen ++ [SWrote n x]))
  | WIdle, WClose :: _ => if cl then None else if hc then None else Some (WConf ops WRecvErr em w cw true true ec seen)
  | WSend h, _ => match hc, em with false, ERecv g => Some (WConf ops WSelect (ERun g (Some h)) w cw cl false ec seen) | _, _ => None end
  | WSelect, _ :: ops' =>
      match em with
      | ESendDone cur up => Some (WConf ops' WIdle (ERecv (WWait cur up)) w cw cl hc ec (seen ++ [SHeader WOk]))
      | ESendErr e => Some (WConf ops' WIdle EClose w cw cl hc ec (seen ++ [SHeader (WErr e)]))
      | _ => None
      end
  | WRecvErr, _ :: ops' =>
      match em with
      | ESendErr e => Some (WConf ops' WIdle EClose w cw cl hc ec (seen ++ [SClosed (WErr e)]))
      | _ => if ec then Some (WConf ops' WIdle em w cw cl hc true (seen ++ [SClosed WOk])) else None
      end
  | _, _ => None
  end.
Definition em_move (c : wconf) : option wconf :=
  let '(WConf ops m em w cw cl hc ec seen) := c in
  match em with
  | ERecv g => if hc then Some (WConf ops m (ERun g None) w cw cl true ec seen) else None
  | ERun g x => match em_step g x cw w with
                | Some (em', cw', w') => Some (WConf ops m em' w' cw' cl hc ec seen)
                | None => None
                end
  | EClose => if ec then None else Some (WConf ops m EExit w cw cl hc true seen)
  | _ => None
  end.
Lemma wmain_sound c c' : wmain_step c = Some c' -> wcstep c c'.
Proof.
  destruct c as [ops m em w cw cl hc ec seen]. cbn [wmain_step]. intros H.
  destruct m as [|h| | |]; [|..|discriminate].
  - destruct ops as [|[h|p|] ops]; [discriminate| | |].
    + destruct (hd_Validate h) as [[]| |] eqn:V; try discriminate. injection H as <-. constructor. exact V.
    + destruct (wr_Write p (WR w WGone cw cl)) as [[n x] r'] eqn:W. injection H as <-. constructor. exact W.
    + destruct cl; [discriminate|]. destruct hc; [discriminate|]. injection H as <-. constructor.
  - destruct ops; destruct hc; try discriminate; destruct em; try discriminate; injection H as <-; constructor.
  - destruct ops; [discriminate|]. destruct em; try discriminate; injection H as <-; constructor.
  - destruct ops; [discriminate|]. destruct em; try (destruct ec; [|discriminate]); injection H as <-; constructor.
Qed.
Lemma em_sound c c' : em_move c = Some c' -> wcstep c c'.
Proof.
  destruct c as [ops m em w cw cl hc ec seen]. cbn [em_move]. intros H. destruct em; try discriminate.
  - destruct hc; [|discriminate]. injection H as <-. constructor.
  - destruct (em_step g x cw w) as [[[em' cw'] w']|] eqn:T; [|discriminate]. injection H as <-. constructor. exact T.
  - destruct ec; [discriminate|]. injection H as <-. constructor.
Qed.
(** [true] lets the caller move, [false] the emitter. *)
Fixpoint wplay (l : list bool) (c : wconf) : wconf :=
  match l with
  | [] => c
  | b :: l' => wplay l' (match (if b then wmain_step c else em_move c) with Some c' => c' | None => c end)
  end.
Lemma wplay_exec l : forall c, wexecution c (wplay l c).
Proof.
  induction l as [|b l IH]; intros c; [constructor|]. cbn [wplay].
  destruct b; [destruct (wmain_step c) eqn:E|destruct (em_move c) eqn:E]; try apply IH;
    (econstructor; [first [exact (wmain_sound _ _ E)|exact (em_sound _ _ E)]|apply IH]).
Qed.
Lemma wstuck_when c : wc_em c = EExit -> (wc_ops c = [] /\ wc_main c = WIdle) \/ ((exists h, wc_main c = WSend h) /\ wc_headers_closed c = false) -> wstuck c.
Proof.
  intros He [[Ho Hm]|[[h Hm] Hc]] c' St; destruct St; wfields; congruence.
Qed.
