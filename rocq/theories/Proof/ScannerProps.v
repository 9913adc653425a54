From Verif Require Import Base.Bytes Base.BytesFacts Model.GoIO Model.Scanner Spec.NarInfoSpec.
Ltac Zify.zify_post_hook ::= idtac.

Lemma drop_cr_eq l : drop_cr l = without_cr l.
Proof.
  unfold drop_cr, without_cr. destruct (rev l) as [|c r] eqn:E.
  - rewrite <- (rev_involutive l), E. reflexivity.
  - destruct (byte_eqb c x0d) eqn:Ec; [apply byte_eqb_eq in Ec; subst c; reflexivity|].
    apply byte_eqb_neq in Ec. destruct c; try reflexivity. congruence.
Qed.

Lemma src_read_flat n s b e s' : (0 < n)%N -> src_read n s = (b, e, s') ->
  src_data s = b ++ src_data s' /\ fin s' = fin s /\
  (forall er, e = Some er -> er = fin s /\ src_data s' = []) /\
  src_size s' + length b <= src_size s /\ (e = None -> src_size s' < src_size s).
Proof.
  unfold src_read, src_size, src_data. destruct s as [cs f eg]. cbn [chunks fin eager]. intros Hn H.
  destruct cs as [|c cs].
  - inversion H; subst. cbn. repeat split; auto; try lia; try congruence.
  - destruct (N.leb (lenN c) n) eqn:E.
    + inversion H; subst b e s'. cbn [chunks fin concat length]. rewrite app_length.
      split; [reflexivity|]. split; [reflexivity|]. split; [|split; lia].
      intros er He. destruct cs; [|discriminate]. destruct eg; [|discriminate]. inversion He; subst. split; reflexivity.
    + apply N.leb_gt in E. inversion H; subst b e s'. cbn [chunks fin concat length].
      rewrite app_assoc, firstn_skipn, !app_length, skipn_length, firstn_length. unfold lenN in E.
      split; [reflexivity|]. split; [reflexivity|]. split; [discriminate|]. split; lia.
Qed.
Lemma scan_read_flat t : forall n s b e s', (0 < n)%N -> scan_read t n s = (b, e, s') ->
  src_data s = b ++ src_data s' /\ fin s' = fin s /\ (e = None -> b <> []) /\
  (e = Some EEOF -> fin s = EEOF /\ src_data s' = []) /\ src_size s' + length b <= src_size s.
Proof.
  induction t as [|t IH]; intros n s b e s' Hn; cbn [scan_read]; destruct (src_read n s) as [[b0 e0] s0] eqn:E;
    destruct (src_read_flat _ _ _ _ _ Hn E) as (A & B & C & D & _).
  - destruct e0 as [er|].
    + intros H; inversion H; subst. split; [exact A|]. split; [exact B|]. split; [discriminate|]. split; [|exact D]. intros X; inversion X; subst; destruct (C _ eq_refl); split; congruence.
    + destruct b0; intros H; inversion H; subst; (split; [exact A|]; split; [exact B|]; split; [discriminate|]; split; [discriminate|exact D]).
  - destruct e0 as [er|].
    + intros H; inversion H; subst. split; [exact A|]. split; [exact B|]. split; [discriminate|]. split; [|exact D]. intros X; inversion X; subst; destruct (C _ eq_refl); split; congruence.
    + destruct b0; intros H.
      * destruct (IH _ _ _ _ _ Hn H) as (A1 & B1 & C1 & D1 & E1). cbn [app length] in *. rewrite A, <- B.
        split; [exact A1|]. split; [exact B1|]. split; [exact C1|]. split; [exact D1|]. lia.
      * inversion H; subst. split; [exact A|]. split; [exact B|]. split; [discriminate|]. split; [discriminate|exact D].
Qed.
(** Non-empty chunks: never more than one read. *)
Lemma scan_read_live t n s : (0 < n)%N -> Forall (fun c => c <> []) (chunks s) ->
  exists b e s', scan_read t n s = (b, e, s') /\ Forall (fun c => c <> []) (chunks s') /\
    (forall er, e = Some er -> er = fin s /\ src_data s' = []).
Proof.
  intros Hn Hc. destruct (src_read n s) as [[b e] s'] eqn:E. pose proof (src_read_flat _ _ _ _ _ Hn E) as (_ & _ & C & _).
  assert (G : (e = None -> b <> []) /\ Forall (fun c => c <> []) (chunks s')).
  { unfold src_read in E. destruct s as [cs f eg]; cbn [chunks] in *. destruct cs as [|c cs]; [inversion E; subst; split; [discriminate|constructor]|].
    inversion Hc as [|? ? H1 H2]; subst. destruct (N.leb (lenN c) n) eqn:El; inversion E; subst; cbn [chunks]; split; auto.
    - intros _ Hf. apply (f_equal (@length byte)) in Hf. rewrite firstn_length in Hf. destruct c; [congruence|]. cbn [length] in Hf. lia.
    - constructor; [|exact H2]. intros Hf. apply (f_equal (@length byte)) in Hf. rewrite skipn_length in Hf. apply N.leb_gt in El. unfold lenN in El. cbn [length] in Hf. lia. }
  destruct G as [G1 G2]. exists b, e, s'. split; [|split; [exact G2|exact C]].
  destruct t; cbn [scan_read]; rewrite E; destruct e; try reflexivity; destruct b; try reflexivity; exfalso; apply G1; reflexivity.
Qed.

Lemma lines_cons p r : ~ In x0a p -> lines_of (p ++ x0a :: r) = p :: lines_of r.
Proof.
  intros H. unfold lines_of. rewrite split_app by exact H. pose proof (split_byte_nonnil r x0a).
  destruct (split_byte r x0a); [congruence|]. destruct p; reflexivity.
Qed.
Lemma lines_last h : ~ In x0a h -> lines_of h = match h with [] => [] | _ => [h] end.
Proof. intros H. unfold lines_of. rewrite split_nosep by exact H. destruct h; reflexivity. Qed.
Lemma split_prefix h d c : ~ In c h -> exists x l, split_byte (h ++ d) c = (h ++ x) :: l.
Proof.
  intros H. induction h as [|a h IH]; cbn [app].
  - pose proof (split_byte_nonnil d c). destruct (split_byte d c) as [|x l]; [congruence|]. exists x, l. reflexivity.
  - cbn [split_byte]. destruct (byte_eqb a c) eqn:E; [apply byte_eqb_eq in E; subst; exfalso; apply H; left; reflexivity|].
    destruct IH as (x & l & ->); [intros X; apply H; right; exact X|]. exists x, l. reflexivity.
Qed.

Lemma scan_sound limit fuel : forall h err s ts,
  scan_all fuel limit h err s = (ts, None) ->
  (match err with None => fin s = EEOF | Some e => e = EEOF end) /\
  (lenN h <= limit ->
   let d := h ++ match err with None => src_data s | Some _ => [] end in
   ts = map without_cr (lines_of d) /\ lines_at_most limit d)%N.
Proof.
  induction fuel as [|f IH]; intros h err s ts H; [discriminate|]. cbn [scan_all] in H.
  destruct (index_byte h x0a) as [i|] eqn:Ei.
  - apply index_byte_some in Ei. destruct Ei as (p & r & -> & <- & Hp).
    assert (E1 : firstn (length p) (p ++ x0a :: r) = p) by (rewrite firstn_app, firstn_all, Nat.sub_diag; apply app_nil_r).
    assert (E2 : skipn (S (length p)) (p ++ x0a :: r) = r).
    { rewrite skipn_app, skipn_all2 by lia. replace (S (length p) - length p) with 1 by lia. reflexivity. }
    rewrite E1, E2 in H. destruct (scan_all f limit r err s) as [ts' e'] eqn:Es. inversion H; subst.
    destruct (IH _ _ _ _ Es) as [A B]. split; [exact A|]. intros Hl.
    assert (Hl' : (lenN r <= limit)%N) by (revert Hl; rewrite lenN_app, lenN_cons; lia).
    destruct (B Hl') as [B1 B2]. cbn zeta in *. rewrite <- app_assoc. cbn [app]. rewrite lines_cons by exact Hp. split.
    + cbn [map]. rewrite drop_cr_eq, <- B1. reflexivity.
    + unfold lines_at_most. rewrite split_app by exact Hp. constructor; [|exact B2]. revert Hl; rewrite lenN_app, lenN_cons; lia.
  - apply index_byte_none in Ei. destruct err as [er|].
    + assert (er = EEOF) by (destruct er; inversion H; reflexivity). subst er. split; [reflexivity|].
      intros Hl. cbn zeta. rewrite app_nil_r, lines_last by exact Ei. split.
      * inversion H; subst. destruct h as [|c h']; [reflexivity|]. cbn [map]. rewrite drop_cr_eq. reflexivity.
      * unfold lines_at_most. rewrite split_nosep by exact Ei. constructor; [exact Hl|constructor].
    + destruct (N.leb limit (lenN h)) eqn:El; [discriminate|]. apply N.leb_gt in El.
      destruct (scan_read 100 (limit - lenN h)%N s) as [[b e] s'] eqn:Er.
      assert (Hn : (0 < limit - lenN h)%N) by lia.
      destruct (scan_read_flat _ _ _ _ _ _ Hn Er) as (A1 & A2 & A3 & A4 & A5).
      destruct (IH _ _ _ _ H) as [B1 B2]. split.
      { destruct e as [er|]; [subst er; apply A4; reflexivity|congruence]. }
      intros _. assert (Hb : (lenN b <= limit - lenN h)%N).
      { clear -Er Hn. revert s Er. generalize 100. intros t. revert b e s'. induction t as [|t IHt]; intros b e s' s; cbn [scan_read];
          destruct (src_read (limit - lenN h)%N s) as [[b0 e0] s0] eqn:E;
          assert (Hb0 : (lenN b0 <= limit - lenN h)%N) by
            (unfold src_read in E; destruct (chunks s) as [|c cs]; [inversion E; subst; rewrite lenN_nil; lia|];
             destruct (N.leb (lenN c) (limit - lenN h)) eqn:El; inversion E; subst;
             [apply N.leb_le; exact El|unfold lenN; rewrite firstn_length; lia]).
        - destruct e0; [intros X; inversion X; subst; exact Hb0|]. destruct b0; intros X; inversion X; subst; exact Hb0.
        - destruct e0; [intros X; inversion X; subst; exact Hb0|]. destruct b0; intros X; [eapply IHt; eauto|inversion X; subst; exact Hb0]. }
      assert (Hl : (lenN (h ++ b) <= limit)%N) by (rewrite lenN_app; lia).
      destruct (B2 Hl) as [C1 C2]. cbn zeta in *. rewrite A1.
      destruct e as [er|].
      * subst er. destruct (A4 eq_refl) as [_ ->]. rewrite app_nil_r in *. auto.
      * rewrite app_assoc. auto.
Qed.

Lemma scan_complete limit fuel : forall h err s,
  2 * src_size s + length h + (match err with None => 1 | _ => 0 end) < fuel ->
  Forall (fun c => c <> []) (chunks s) ->
  (match err with None => fin s = EEOF | Some e => e = EEOF end) ->
  let d := h ++ match err with None => src_data s | Some _ => [] end in
  lines_below limit d ->
  scan_all fuel limit h err s = (map without_cr (lines_of d), None).
Proof.
  induction fuel as [|f IH]; intros h err s Hf Hc Hfin d Hl; [lia|]. subst d. cbn [scan_all].
  destruct (index_byte h x0a) as [i|] eqn:Ei.
  - apply index_byte_some in Ei. destruct Ei as (p & r & -> & <- & Hp).
    assert (E1 : firstn (length p) (p ++ x0a :: r) = p) by (rewrite firstn_app, firstn_all, Nat.sub_diag; apply app_nil_r).
    assert (E2 : skipn (S (length p)) (p ++ x0a :: r) = r).
    { rewrite skipn_app, skipn_all2 by lia. replace (S (length p) - length p) with 1 by lia. reflexivity. }
    rewrite E1, E2. rewrite <- app_assoc in Hl |- *. cbn [app] in Hl |- *. rewrite lines_cons by exact Hp.
    unfold lines_below in Hl. rewrite split_app in Hl by exact Hp. inversion Hl; subst.
    rewrite IH; auto.
    + cbn [map]. rewrite drop_cr_eq. reflexivity.
    + rewrite app_length in Hf. cbn [length] in Hf. lia.
  - apply index_byte_none in Ei. destruct err as [er|].
    + subst er. rewrite app_nil_r, lines_last by exact Ei. destruct h; [reflexivity|]. cbn [map]. rewrite drop_cr_eq. reflexivity.
    + assert (Hlen : (lenN h < limit)%N).
      { destruct (split_prefix h (src_data s) x0a Ei) as (x & l & E). unfold lines_below in Hl. rewrite E in Hl. inversion Hl; subst.
        revert H1. rewrite lenN_app. lia. }
      assert (E : N.leb limit (lenN h) = false) by (apply N.leb_gt; exact Hlen). rewrite E.
      assert (Hn : (0 < limit - lenN h)%N) by lia.
      destruct (scan_read_live 100 _ s Hn Hc) as (b & e & s' & Er & Hc' & He). rewrite Er.
      destruct (scan_read_flat _ _ _ _ _ _ Hn Er) as (A1 & A2 & A3 & A4 & A5). rewrite A1 in Hl |- *.
      rewrite app_assoc in Hl |- *. rewrite IH; auto.
      * destruct e as [er|]; [|reflexivity]. destruct (He _ eq_refl) as [_ ->]. reflexivity.
      * rewrite app_length. destruct e as [er|]; [lia|]. specialize (A3 eq_refl). destruct b; [congruence|]. cbn [length] in *. lia.
      * destruct e as [er|]; [destruct (He _ eq_refl) as [-> _]; exact Hfin|congruence].
      * destruct e as [er|]; [|exact Hl]. destruct (He _ eq_refl) as [_ E']. rewrite E' in Hl. exact Hl.
Qed.

(** * Exactly which lines fit *)
Lemma src_read_facts n s b e s' : (0 < n)%N -> Forall (fun c => c <> []) (chunks s) -> src_read n s = (b, e, s') ->
  eager s' = eager s /\ Forall (fun c => c <> []) (chunks s') /\ (lenN b <= n)%N /\
  (forall er, e = Some er -> b = [] \/ eager s = true) /\
  (e = None -> b <> [] /\ (eager s = true -> chunks s' <> [])).
Proof.
  intros Hn Hc E. unfold src_read in E. destruct s as [cs f eg]; cbn [chunks eager fin] in *. destruct cs as [|c cs].
  - inversion E; subst. cbn [eager chunks]. split; [reflexivity|]. split; [constructor|]. split; [rewrite lenN_nil; lia|].
    split; [left; reflexivity|discriminate].
  - inversion Hc as [|? ? H1 H2]; subst. destruct (N.leb (lenN c) n) eqn:El; inversion E; subst; cbn [chunks eager].
    + split; [reflexivity|]. split; [exact H2|]. split; [apply N.leb_le; exact El|]. split.
      * intros er. destruct cs; [|discriminate]. destruct eg; [auto|discriminate].
      * intros He. split; [exact H1|]. intros ->. destruct cs; [discriminate|discriminate].
    + apply N.leb_gt in El. split; [reflexivity|]. split.
      { constructor; [|exact H2]. intros Hf. apply (f_equal (@length byte)) in Hf. rewrite skipn_length in Hf. unfold lenN in El. cbn [length] in Hf. lia. }
      split; [unfold lenN; rewrite firstn_length; lia|]. split; [discriminate|]. intros _. split; [|discriminate].
      intros Hf. apply (f_equal (@length byte)) in Hf. rewrite firstn_length in Hf. destruct c; [congruence|]. cbn [length] in Hf. lia.
Qed.
Lemma scan_read_one t n s : (0 < n)%N -> Forall (fun c => c <> []) (chunks s) -> scan_read t n s = src_read n s.
Proof.
  intros Hn Hc. destruct (src_read n s) as [[b e] s'] eqn:E. destruct (src_read_facts _ _ _ _ _ Hn Hc E) as (_ & _ & _ & _ & A).
  destruct t; cbn [scan_read]; rewrite E; destruct e; try reflexivity; destruct b; try reflexivity; destruct (A eq_refl) as [A1 _]; congruence.
Qed.

Lemma fit_one e n h : ~ In x0a h -> lines_fit e n h <-> (lenN h < n)%N \/ e = true /\ lenN h = n.
Proof.
  intros H. unfold lines_fit. rewrite split_nosep by exact H. split.
  - intros (ls & l & E & _ & A). destruct ls as [|x [|y ls]]; [|discriminate|discriminate]. cbn [app] in E. inversion E; subst. exact A.
  - intros A. exists [], h. auto.
Qed.
Lemma fit_cons e n p r : ~ In x0a p -> lines_fit e n (p ++ x0a :: r) <-> (lenN p < n)%N /\ lines_fit e n r.
Proof.
  intros H. unfold lines_fit. rewrite split_app by exact H. split.
  - intros (ls & l & E & A & B). destruct ls as [|x ls].
    + exfalso. cbn [app] in E. injection E as _ E. exact (split_byte_nonnil r x0a E).
    + cbn [app] in E. injection E as E1 E2. subst x. inversion A; subst. split; [assumption|]. exists ls, l. auto.
  - intros (A & ls & l & E & B & C). exists (p :: ls), l. rewrite E. split; [reflexivity|]. split; [constructor; assumption|exact C].
Qed.
Lemma fit_front e n h d : ~ In x0a h -> lines_fit e n (h ++ d) -> (lenN h < n)%N \/ e = true /\ lenN h = n /\ d = [].
Proof.
  intros H (ls & l & E & A & B). destruct (split_prefix h d x0a H) as (x & k & E'). rewrite E in E'.
  destruct ls as [|y ls].
  - cbn [app] in E'. injection E' as E1 E2. subst l k. rewrite lenN_app in B. destruct B as [B|[B1 B2]]; [left; lia|].
    destruct x as [|c x]; [|left; revert B2; rewrite lenN_cons; lia]. rewrite app_nil_r in E. cbn [app] in E.
    rewrite lenN_nil in B2. right. split; [exact B1|]. split; [lia|].
    pose proof (split_join (h ++ d) x0a) as F. rewrite E in F. cbn in F.
    rewrite <- (app_nil_r h) in F at 1. apply app_inv_head in F. congruence.
  - cbn [app] in E'. injection E' as E1 E2. subst y. inversion A; subst. rewrite lenN_app in *. left; lia.
Qed.

Lemma scan_exact limit fuel : forall h err s,
  2 * src_size s + length h + (match err with None => 1 | _ => 0 end) < fuel ->
  Forall (fun c => c <> []) (chunks s) ->
  (match err with None => fin s = EEOF | Some e => e = EEOF end) ->
  (lenN h <= limit)%N ->
  (match err with
   | None => eager s = true -> chunks s = [] -> (lenN h < limit)%N
   | Some _ => lenN h = limit -> eager s = true
   end) ->
  let d := h ++ match err with None => src_data s | Some _ => [] end in
  snd (scan_all fuel limit h err s) = None <-> lines_fit (eager s) limit d.
Proof.
  induction fuel as [|f IH]; intros h err s Hf Hc Hfin Hl Hi d; [lia|]. subst d. cbn [scan_all].
  destruct (index_byte h x0a) as [i|] eqn:Ei.
  - apply index_byte_some in Ei. destruct Ei as (p & r & -> & <- & Hp).
    assert (E1 : firstn (length p) (p ++ x0a :: r) = p) by (rewrite firstn_app, firstn_all, Nat.sub_diag; apply app_nil_r).
    assert (E2 : skipn (S (length p)) (p ++ x0a :: r) = r).
    { rewrite skipn_app, skipn_all2 by lia. replace (S (length p) - length p) with 1 by lia. reflexivity. }
    rewrite E1, E2, <- app_assoc. cbn [app]. rewrite fit_cons by exact Hp.
    rewrite lenN_app, lenN_cons in Hl. rewrite app_length in Hf. cbn [length] in Hf.
    specialize (IH r err s). destruct (scan_all f limit r err s) as [ts e]. cbn [snd] in *. rewrite IH; [|lia|exact Hc|exact Hfin|lia|].
    + split; [intros A; split; [lia|exact A]|tauto].
    + destruct err; [lia|]. intros _ _. lia.
  - apply index_byte_none in Ei. destruct err as [er|].
    + subst er. cbn [snd]. rewrite app_nil_r, fit_one by exact Ei. split; [intros _|reflexivity].
      destruct (N.eq_dec (lenN h) limit) as [E|E]; [right; auto|left; lia].
    + destruct (N.leb limit (lenN h)) eqn:El.
      * apply N.leb_le in El. cbn [snd]. split; [discriminate|]. intros A. exfalso.
        destruct (fit_front _ _ _ _ Ei A) as [B|(B1 & B2 & B3)]; [lia|].
        assert (chunks s = []).
        { unfold src_data in B3. destruct (chunks s) as [|c cs]; [reflexivity|]. inversion Hc; subst. destruct c; [congruence|discriminate]. }
        specialize (Hi B1 H). lia.
      * apply N.leb_gt in El. assert (Hn : (0 < limit - lenN h)%N) by lia. rewrite scan_read_one by assumption.
        destruct (src_read (limit - lenN h)%N s) as [[b e] s'] eqn:Er.
        destruct (src_read_facts _ _ _ _ _ Hn Hc Er) as (F1 & F2 & F3 & F4 & F5).
        destruct (src_read_flat _ _ _ _ _ Hn Er) as (A1 & A2 & A3 & A4 & A5).
        rewrite A1, app_assoc, <- F1.
        replace (src_data s') with (match e with None => src_data s' | Some _ => [] end) at 1.
        2:{ destruct e as [er|]; [destruct (A3 _ eq_refl) as [_ ->]; reflexivity|reflexivity]. }
        apply IH.
        -- rewrite app_length. destruct e as [er|]; [lia|]. specialize (F5 eq_refl). destruct F5 as [F5 _]. destruct b; [congruence|]. cbn [length] in *.
           specialize (A5 eq_refl). lia.
        -- exact F2.
        -- destruct e as [er|]; [destruct (A3 _ eq_refl) as [-> _]; exact Hfin|congruence].
        -- rewrite lenN_app. lia.
        -- destruct e as [er|].
           ++ rewrite F1. destruct (F4 _ eq_refl) as [->|E]; [rewrite app_nil_r; lia|intros _; exact E].
           ++ rewrite F1. intros E X. destruct (F5 eq_refl) as [_ F]. exfalso. exact (F E X).
Qed.
