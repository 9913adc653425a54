(** Proofs for the command line tools (C66, C67). *)
From Coq Require Import Sorted.
From Verif Require Import Base.Bytes Base.BytesFacts Model.GoIO Model.GoStd Model.Wire Model.Nar Model.NarReader Model.Cmd
  Spec.WireSpec Spec.NarSpec Spec.NarHist Spec.CmdSpec
  Spec.NarParenSpec Proof.WireFacts Proof.WireProps Proof.PathFacts Proof.NarPath Proof.NarReaderFacts Proof.NarSession Proof.NarReaderAny.
From Verif Require Proof.NarParenLast.
Ltac Zify.zify_post_hook ::= idtac.

(** * Copying *)
Definition copied (d : bytes) (w : sink) (x : res unit) (w' : sink) : Prop :=
  (x = Ok tt /\ out w' = out w ++ d) \/
  (x = Err (EIo 1) /\ (exists k, In (Some k) (plan w)) /\ exists a b, d = a ++ b /\ out w' = out w ++ a).
Lemma wwrite_cases b w : exists e w', wwrite_ b w = (e, w') /\ incl (plan w') (plan w) /\
  ((e = None /\ out w' = out w ++ b) \/
   (e = Some (EIo 1) /\ (exists k, In (Some k) (plan w)) /\ exists n, out w' = out w ++ firstn n b)).
Proof.
  unfold wwrite_, wwrite. destruct (plan w) as [|[k|] pl]; eexists _, _; (split; [reflexivity|]); cbn [plan out].
  - split; [apply incl_refl|]. left. auto.
  - split; [apply incl_tl, incl_refl|]. right. split; [reflexivity|]. split; [exists k; left; reflexivity|]. eexists. reflexivity.
  - split; [apply incl_tl, incl_refl|]. left. auto.
Qed.
Lemma copied_app b d w w1 x w' : out w1 = out w ++ b -> incl (plan w1) (plan w) -> copied d w1 x w' -> copied (b ++ d) w x w'.
Proof.
  intros O I [(X & E)|(X & (k & K) & a & c & -> & E)].
  - left. split; [exact X|]. rewrite E, O, app_assoc. reflexivity.
  - right. split; [exact X|]. split; [exists k; apply I; exact K|]. exists (b ++ a), c. rewrite E, O, !app_assoc. auto.
Qed.
Lemma copy_some sizes rounds : (forall k, (0 < sizes k)%N) -> forall s g er p len cl d tail e w,
  flat s = (d ++ tail, e) -> tail <> [] -> src_size s < rounds ->
  exists x w', copy_rounds sizes rounds (RD s g er p (Some (BR len (lenN d))) cl) w = (x, w') /\ copied d w x w'.
Proof.
  intros SZ. induction rounds as [|k IH]; intros s g er p len cl d tail e w Hs Ht Hr; [lia|]. cbn [copy_rounds].
  unfold rd_Read. cbn [rd_content rd_src rd_gor rd_err rd_prev rd_closed]. unfold br_read. cbn [br_rem br_len].
  destruct (lim_read (sizes k) (lenN d, s)) as [[b er1] [rem1 s1]] eqn:E.
  destruct (lim_read_spec _ _ _ _ _ _ _ _ _ Hs E) as (Hd & He & Heg & Hlb & Hrem & Hz & Hnz & Hdec & Heag & Hsz).
  destruct (N.eq_dec (lenN d) 0) as [Hd0|Hd0].
  - destruct (Hz Hd0) as [-> ->]. destruct d as [|y d]; [|rewrite lenN_cons in Hd0; lia].
    assert (b = []) as -> by (destruct b; [reflexivity|rewrite lenN_cons in Hrem; cbn in Hrem; lia]).
    exists (Ok tt), w. split; [reflexivity|]. left. rewrite app_nil_r. auto.
  - assert (Hsplit : exists d', d = b ++ d' /\ src_data s1 = d' ++ tail).
    { exists (skipn (length b) d). assert (Hl : length b <= length d) by (unfold lenN in *; lia).
      assert (E1 : firstn (length b) (d ++ tail) = b) by (rewrite Hd; apply firstn_length_app).
      assert (E2 : skipn (length b) (d ++ tail) = src_data s1) by (rewrite Hd; apply skipn_length_app).
      rewrite firstn_le_app in E1 by exact Hl. rewrite skipn_le_app in E2 by exact Hl.
      split; [|congruence]. rewrite <- E1 at 1. symmetry. apply firstn_skipn. }
    destruct Hsplit as (d' & -> & Hs1).
    assert (er1 = None) as ->.
    { destruct (Hnz Hd0) as [|[_ Hx]]; [assumption|]. rewrite Hx in Hs1. destruct d'; [|discriminate]. cbn in Hs1. congruence. }
    assert (rem1 = lenN d') as -> by (rewrite lenN_app in Hrem; lia).
    assert (Hs1' : flat s1 = (d' ++ tail, e)) by (unfold flat; rewrite Hs1, He; reflexivity).
    specialize (Hdec Hd0 (SZ k) eq_refl).
    assert (WR : exists we w1, (match b with [] => (None, w) | _ => wwrite_ b w end) = (we, w1) /\ incl (plan w1) (plan w) /\
      ((we = None /\ out w1 = out w ++ b) \/ (we = Some (EIo 1) /\ (exists k, In (Some k) (plan w)) /\ exists n, out w1 = out w ++ firstn n b))).
    { destruct b as [|y b]; [|apply wwrite_cases]. exists None, w. split; [reflexivity|]. split; [apply incl_refl|]. left. rewrite app_nil_r. auto. }
    destruct WR as (we & w1 & -> & I & [(-> & O)|(-> & K & n & O)]).
    + destruct (IH s1 g er p len cl d' tail e w1 Hs1' Ht ltac:(lia)) as (x & w' & -> & C). exists x, w'. split; [reflexivity|]. exact (copied_app b d' w w1 x w' O I C).
    + exists (Err (EIo 1)), w1. split; [reflexivity|]. right. split; [reflexivity|]. split; [exact K|]. exists (firstn n b), (skipn n b ++ d'). rewrite app_assoc, firstn_skipn. auto.
Qed.

(** * One header *)
Definition ready (c : bytes) (r : rd) : Prop :=
  (rd_content r = None /\ c = []) \/
  (exists s g er p len cl tail e, r = RD s g er p (Some (BR len (lenN c))) cl /\ flat s = (c ++ tail, e) /\ tail <> []).
Lemma next_items h c its rest e r : at_items ((h, c) :: its) rest e r ->
  exists r', Next r = (Ok h, r') /\ at_items its rest e r' /\ ready c r'.
Proof.
  intros (H1 & H2 & H3 & H4 & H5). unfold Next. rewrite H1, H2. cbn [serves] in H4. destruct H4 as (w & st & ct & s & Hp & Hc).
  destruct (resume (rd_gor r) (rd_content r) (rd_src r)) as [ps ct0]. cbn [fst snd] in *. subst ps.
  destruct H3 as [H3 H3']. rewrite H3. eexists. split; [reflexivity|].
  destruct Hc as [(-> & -> & Hs & Hct)|(-> & tail & e' & Hfl & Ht & Hs)].
  - split; [|left; auto]. split; [reflexivity|]. split; [reflexivity|]. split; [exact H3'|]. cbn [rd_gor rd_content rd_src]. split; [exact Hs|]. left. exact Hct.
  - split; [|right; repeat eexists; eassumption].
    destruct (Hs 0%N s ltac:(lia) ltac:(rewrite Hfl; reflexivity)) as [Hsv Hct]. rewrite N.sub_0_r in *.
    split; [reflexivity|]. split; [reflexivity|]. split; [exact H3'|]. cbn [rd_gor rd_content rd_src]. split; [exact Hsv|]. right. eauto.
Qed.
Lemma next_nil rest e r : at_items [] rest e r -> exists r', Next r = (Err EEOF, r').
Proof.
  intros (H1 & H2 & H3 & H4 & H5). unfold Next. rewrite H1, H2. cbn [serves] in H4. destruct H4 as (s' & Hf & Hp). rewrite run_ret_nil in Hp.
  destruct (resume (rd_gor r) (rd_content r) (rd_src r)) as [ps ct]. cbn [fst snd] in *. subst ps. eauto.
Qed.
Lemma copy_ready sizes c r w : (forall k, (0 < sizes k)%N) -> ready c r -> exists x w', copy_all sizes r w = (x, w') /\ copied c w x w'.
Proof.
  intros SZ [(E & ->)|(s & g & er & p & len & cl & tail & e & -> & Hs & Ht)].
  - exists (Ok tt), w. unfold copy_all. cbn [copy_rounds]. unfold rd_Read. rewrite E. split; [reflexivity|]. left. rewrite app_nil_r. auto.
  - unfold copy_all. cbn [rd_src]. apply (copy_some sizes _ SZ _ _ _ _ _ _ _ tail e); auto.
Qed.

(** * cat *)
Definition cat_says (sizes : nat -> N) (its : list (header * bytes)) (p : bytes) (w : sink) (x : res unit) (w' : sink) : Prop :=
  match find (fun it => beq (hd_path (fst it)) p) its with
  | None => is_err x = true /\ w' = w
  | Some (h, c) => if beq (hd_type h) TypeRegular then copied c w x w' else is_err x = true /\ w' = w
  end.
Lemma cat_items sizes p w : (forall k, (0 < sizes k)%N) -> forall its rounds rest e r, at_items its rest e r -> length its < rounds ->
  exists x w', cat_loop sizes p rounds r w = (x, w') /\ cat_says sizes its p w x w'.
Proof.
  intros SZ. induction its as [|[h c] its IH]; intros rounds rest e r A L; (destruct rounds as [|k]; [lia|]); cbn [cat_loop].
  - destruct (next_nil _ _ _ A) as (r' & ->). eexists _, _. split; [reflexivity|]. split; reflexivity.
  - destruct (next_items _ _ _ _ _ _ A) as (r' & -> & A' & R). unfold cat_says. cbn [find fst]. destruct (beq (hd_path h) p).
    + destruct (beq (hd_type h) TypeRegular); cbn [negb]; [|eexists _, _; split; [reflexivity|]; split; reflexivity].
      exact (copy_ready sizes c r' w SZ R).
    + cbn [length] in L. apply (IH k rest e r' A' ltac:(lia)).
Qed.
Lemma start_items t s rest e : listable t -> flat s = (nar t ++ rest, e) ->
  exists r s1 rest', NewReader s = (Ok r, s1) /\ at_items (items [] t) rest' e r.
Proof.
  intros (W & k & Hk) Hs. destruct (NarParenLast.last_items t k s rest e W Hk Hs) as (r & s1 & E & A). eauto.
Qed.
Lemma nodes_le t : nodes t <= length (ser t).
Proof.
  assert (P : forall l : bytes, 1 <= length (str "(" ++ l)) by (intros l; rewrite app_length; change (length (str "(")) with 16; lia).
  induction t as [b c|tg|es IH] using node_ind2; [apply P|apply P|]. unfold nodes; fold nodes.
  change (ser (Dir es)) with (str "(" ++ str "type" ++ (str "directory" ++ concat (map (fun e => entry_open (fst e) ++ ser (snd e) ++ str ")") es)) ++ str ")").
  rewrite !app_length. change (length (str "(")) with 16. enough (X : list_sum (map (fun e => nodes (snd e)) es) <= length (concat (map (fun e => entry_open (fst e) ++ ser (snd e) ++ str ")") es))) by lia.
  induction IH as [|e es H _ IH]; [cbn; lia|]. cbn [map concat]. change (list_sum (nodes (snd e) :: map (fun e => nodes (snd e)) es)) with (nodes (snd e) + list_sum (map (fun e => nodes (snd e)) es)).
  rewrite !app_length. lia.
Qed.
Lemma items_short t s rest e : flat s = (nar t ++ rest, e) -> length (items [] t) < S (length (src_data s)).
Proof.
  intros H. assert (D : src_data s = nar t ++ rest) by (unfold flat in H; congruence). rewrite D, items_length, app_length. unfold nar. rewrite app_length.
  pose proof (nodes_le t). lia.
Qed.

(** * Headers and nodes *)
Lemma items_at t : forall cs h c, In (h, c) (items cs t) <-> exists cs' n, at_path t cs' n /\ h = hdr_of (cs ++ cs') n /\ c = content_of n.
Proof.
  induction t as [b c0|tg|es IH] using node_ind2; intros cs h c; cbn [items].
  1,2: split; [intros [E|[]]; injection E as <- <-; eexists [], _; rewrite app_nil_r; split; [apply at_here|auto]|];
    intros (cs' & n & A & -> & ->); inversion A; subst; rewrite app_nil_r; left; reflexivity.
  split.
  - intros [E|E].
    + injection E as <- <-. eexists [], _. rewrite app_nil_r. split; [apply at_here|auto].
    + apply in_concat in E. destruct E as (l & Hl & E). apply in_map_iff in Hl. destruct Hl as (x & <- & Hx). rewrite Forall_forall in IH. apply (IH x Hx) in E.
      destruct E as (cs' & n & A & -> & ->). exists (fst x :: cs'), n. split; [|rewrite <- app_assoc; auto]. destruct x as [nm t]. econstructor; eassumption.
  - intros (cs' & n & A & -> & ->). inversion A as [|es' nm t cs2 n' Hin A']; subst.
    + left. rewrite app_nil_r. reflexivity.
    + right. apply in_concat. exists (items (cs ++ [nm]) t). split; [apply in_map_iff; exists (nm, t); auto|]. rewrite Forall_forall in IH. apply (IH _ Hin). exists cs2, n. rewrite <- app_assoc. auto.
Qed.
Lemma hdr_path cs t : hd_path (hdr_of cs t) = path_of cs.
Proof. destruct t; reflexivity. Qed.
Lemma at_ok X t cs n : at_path t cs n -> wf_tree X t -> comps_ok cs.
Proof.
  induction 1 as [t|es nm t cs n Hin A IH]; intros W; [constructor|]. inversion W as [| |es' F _ F2]; subst. rewrite Forall_forall in F, F2. constructor; [apply (F _ Hin)|]. apply IH. exact (F2 _ Hin).
Qed.
Lemma find_unique {A B} (f : A -> B) (q : A -> bool) (l : list A) x : NoDup (map f l) -> In x l -> q x = true -> (forall y, q y = true -> f y = f x) -> find q l = Some x.
Proof.
  intros ND I Q U. induction l as [|y l IH]; [destruct I|]. cbn [find]. destruct (q y) eqn:Y.
  - specialize (U y Y). destruct I as [->|I]; [reflexivity|]. cbn [map] in ND. inversion ND as [|? ? N1 N2]; subst. exfalso. apply N1. rewrite U. apply in_map. exact I.
  - destruct I as [->|I]; [congruence|]. cbn [map] in ND. inversion ND as [|? ? N1 N2]; subst. auto.
Qed.
Lemma items_nodup X t : wf_tree X t -> NoDup (map (fun it => hd_path (fst it)) (items [] t)).
Proof.
  intros W. rewrite items_cpaths. pose proof (cpaths_sorted X t W []) as S. pose proof (cpaths_ok X t W [] ltac:(constructor)) as O.
  induction S as [|c l S IH F]; [constructor|]. cbn [map]. inversion O as [|? ? O1 O2]; subst. constructor; [|apply IH; exact O2].
  intros I. apply in_map_iff in I. destruct I as (d & E & Hd). rewrite Forall_forall in F, O2. specialize (F d Hd). apply path_of_inj in E; [|apply O2; exact Hd|exact O1]. subst d. rewrite ccmp_refl in F. discriminate.
Qed.
Lemma find_at X t cs n : wf_tree X t -> at_path t cs n -> find (fun it => beq (hd_path (fst it)) (path_of cs)) (items [] t) = Some (hdr_of cs n, content_of n).
Proof.
  intros W A. apply (find_unique (fun it => hd_path (fst it))); [exact (items_nodup X t W)| | |].
  - apply items_at. exists cs, n. auto.
  - cbn [fst]. rewrite hdr_path. apply beq_refl.
  - intros y Y. apply beq_eq in Y. rewrite Y. cbn [fst]. rewrite hdr_path. reflexivity.
Qed.
Lemma find_absent t p : (forall cs n, at_path t cs n -> path_of cs <> p) -> find (fun it => beq (hd_path (fst it)) p) (items [] t) = None.
Proof.
  intros N. destruct (find _ _) as [[h c]|] eqn:F; [|reflexivity]. apply find_some in F. destruct F as (I & Q). cbn [fst] in Q. apply items_at in I. destruct I as (cs & n & A & -> & _). apply beq_eq in Q. cbn [app] in Q. rewrite hdr_path in Q. exfalso. exact (N cs n A Q).
Qed.
Lemma cat_run sizes t s rest e p w : (forall k, (0 < sizes k)%N) -> listable t -> flat s = (nar t ++ rest, e) ->
  exists x w', cat_Run sizes s p w = (x, w') /\ cat_says sizes (items [] t) p w x w'.
Proof.
  intros SZ W Hs. destruct (start_items t s rest e W Hs) as (r & s1 & rest' & E & A). unfold cat_Run. rewrite E. exact (cat_items sizes p w SZ _ _ rest' e r A (items_short t s rest e Hs)).
Qed.

(** * Any stream: the commands end and do not panic *)
Lemma copy_any sizes rounds : (forall k, (0 < sizes k)%N) -> forall r w, src_size (rd_src r) < rounds -> is_panic (fst (copy_rounds sizes rounds r w)) = false.
Proof.
  intros SZ. induction rounds as [|k IH]; intros r w L; [lia|]. cbn [copy_rounds]. unfold rd_Read. destruct (rd_content r) as [br|]; [|reflexivity].
  unfold br_read. destruct (lim_read (sizes k) (br_rem br, rd_src r)) as [[b er1] [rem1 s1]] eqn:E.
  destruct (lim_read_spec _ _ _ _ _ _ _ _ _ eq_refl E) as (Hd & He & Heg & Hlb & Hrem & Hz & Hnz & Hdec & Heag & Hsz).
  destruct (match b with [] => (None, w) | _ => wwrite_ b w end) as [[er|] w1]; [reflexivity|]. destruct er1 as [[]|]; try reflexivity.
  apply IH. cbn [rd_src]. destruct (N.eq_dec (br_rem br) 0) as [Z|Z]; [destruct (Hz Z); discriminate|]. specialize (Hdec Z (SZ k) eq_refl). lia.
Qed.
Lemma cat_any sizes p w : (forall k, (0 < sizes k)%N) -> forall rounds hs n0 r, rinv hs n0 r -> rd_closed r = false -> n0 < rounds + length hs -> is_panic (fst (cat_loop sizes p rounds r w)) = false.
Proof.
  intros SZ. induction rounds as [|k IH]; intros hs n0 r I C L.
  - exfalso. destruct I as (I & _). lia.
  - cbn [cat_loop]. destruct (Next r) as [x r'] eqn:E. destruct (next_inv _ _ _ _ _ I E) as (N1 & N2 & N3). destruct (N3 C) as (C' & NP). destruct x as [h|er|m].
    + destruct (beq (hd_path h) p); [destruct (negb _); [reflexivity|]; apply (copy_any sizes _ SZ); lia|]. apply (IH (hs ++ [h]) n0 r'); auto. rewrite app_length. cbn [length]. lia.
    + destruct er; reflexivity.
    + elim (NP m). reflexivity.
Qed.
(** * A successful cat *)
Lemma write_grow b w : exists we w1, (match b with [] => (None, w) | _ => wwrite_ b w end) = (we, w1) /\ (we = None -> out w1 = out w ++ b).
Proof.
  destruct b as [|y b]; [exists None, w; split; [reflexivity|]; intros _; rewrite app_nil_r; reflexivity|].
  destruct (wwrite_cases (y :: b) w) as (we & w1 & E & _ & [(-> & O)|(-> & _)]); eexists _, w1; (split; [exact E|]); [auto|discriminate].
Qed.
Lemma copy_sized sizes rounds : forall r w w' br, rd_content r = Some br -> copy_rounds sizes rounds r w = (Ok tt, w') ->
  exists c, out w' = out w ++ c /\ (lenN c <= br_rem br)%N /\ (fin (rd_src r) <> EEOF -> lenN c = br_rem br).
Proof.
  induction rounds as [|k IH]; intros r w w' br C H; [discriminate H|]. cbn [copy_rounds] in H. unfold rd_Read in H. rewrite C in H.
  unfold br_read in H. destruct (lim_read (sizes k) (br_rem br, rd_src r)) as [[b er1] [rem1 s1]] eqn:E.
  destruct (lim_read_spec _ _ _ _ _ _ _ _ _ eq_refl E) as (Hd & He & Heg & Hlb & Hrem & Hz & Hnz & Hdec & Heag & Hsz).
  destruct (write_grow b w) as (we & w1 & WE & O). rewrite WE in H. destruct we as [er|]; [discriminate H|]. specialize (O eq_refl).
  destruct er1 as [er1|].
  - assert (er1 = EEOF /\ w' = w1) as [-> ->] by (destruct er1; split; congruence). exists b. split; [exact O|]. split; [lia|]. intros F.
    destruct (N.eq_dec (br_rem br) 0) as [Z|Z]; [destruct (Hz Z) as [_ R]; lia|]. destruct (Hnz Z) as [X|[X _]]; [discriminate X|]. elim F. congruence.
  - pose proof (fun P => IH _ _ _ (BR (br_len br) rem1) P H) as G. specialize (G eq_refl). destruct G as (c & O2 & L & F). cbn [br_rem rd_src] in *. exists (b ++ c). rewrite O2, O, app_assoc, lenN_app. split; [reflexivity|].
    split; [lia|]. intros X. rewrite F; [lia|]. rewrite He. exact X.
Qed.
(** [path_to p k r h r']: after k headers with other paths, Next reports [h] with the path [p]. *)
Lemma cat_sized sizes p rounds : forall hs n0 r w w', rinv hs n0 r -> rd_closed r = false -> cat_loop sizes p rounds r w = (Ok tt, w') ->
  exists k l h r1 c, rd_run (repeat ONext k) r = (l ++ [SNext (Ok h)], r1) /\ hd_path h = p /\ hd_type h = bs "regular" /\
    out w' = out w ++ c /\ (Z.of_nat (length c) <= hd_size h)%Z /\ (fin (rd_src r) <> EEOF -> Z.of_nat (length c) = hd_size h).
Proof.
  induction rounds as [|k IH]; intros hs n0 r w w' I C H; [discriminate H|]. cbn [cat_loop] in H. destruct (Next r) as [x r'] eqn:E.
  destruct (next_inv _ _ _ _ _ I E) as (N1 & N2 & N3). destruct (N3 C) as (C' & NP). destruct x as [h|er|m]; [|destruct er; discriminate H|elim (NP m); reflexivity].
  destruct (next_yield _ _ _ _ _ I E) as (_ & F & R).
  destruct (beq (hd_path h) p) eqn:P.
  - apply beq_eq in P. destruct (beq (hd_type h) TypeRegular) eqn:T; cbn [negb] in H; [|discriminate H]. apply beq_eq in T. destruct (R T) as (br & B & Z).
    unfold copy_all in H. destruct (copy_sized _ _ _ _ _ br B H) as (c & O & L & G). exists 1, [], h, r', c. cbn [repeat rd_run rd_step app]. rewrite E. split; [reflexivity|].
    repeat (split; [assumption|]). unfold lenN in *. split; [lia|]. intros X. rewrite F in G. specialize (G X). lia.
  - destruct (IH (hs ++ [h]) n0 r' w w' (N1 h eq_refl) C' H) as (k' & l & h' & r1 & c & E' & X1 & X2 & X3 & X4 & X5).
    exists (S k'), (SNext (Ok h) :: l), h', r1, c. cbn [repeat rd_run rd_step]. rewrite E, E'. rewrite F in X5. auto 10.
Qed.
Lemma ls_any p rc : forall rounds hs n0 r, rinv hs n0 r -> rd_closed r = false -> n0 < rounds + length hs -> is_panic (fst (ls_loop p rc rounds r)) = false.
Proof.
  induction rounds as [|k IH]; intros hs n0 r I C L.
  - exfalso. destruct I as (I & _). lia.
  - cbn [ls_loop]. destruct (Next r) as [x r'] eqn:E. destruct (next_inv _ _ _ _ _ I E) as (N1 & N2 & N3). destruct (N3 C) as (C' & NP). destruct x as [h|er|m].
    + assert (X : is_panic (fst (ls_loop p rc k r')) = false) by (apply (IH (hs ++ [h]) n0 r'); auto; rewrite app_length; cbn [length]; lia).
      destruct (has_prefix (hd_path h) p); [destruct (ls_loop p rc k r'); exact X|]. destruct (blt p (hd_path h)); [reflexivity|exact X].
    + destruct er; reflexivity.
    + elim (NP m). reflexivity.
Qed.
(** The errors of copy, cat and ls are the reader's own. *)
Lemma copy_errors sizes rounds : forall r w e w', copy_rounds sizes rounds r w = (Err e, w') ->
  (e = EIo 1 /\ exists k, In (Some k) (plan w)) \/
  (e <> EEOF /\ exists ns l b r2, rd_run (map ORead ns) r = (l ++ [SRead b (Some e)], r2)).
Proof.
  induction rounds as [|k IH]; intros r w e w' H; [discriminate H|]. cbn [copy_rounds] in H. destruct (rd_Read (sizes k) r) as [[b re] r'] eqn:E.
  assert (W : exists we w1, (match b with [] => (None, w) | _ => wwrite_ b w end) = (we, w1) /\ incl (plan w1) (plan w) /\ (we = None \/ we = Some (EIo 1) /\ exists j, In (Some j) (plan w))).
  { destruct b as [|y b]; [exists None, w; split; [reflexivity|split; [apply incl_refl|left; reflexivity]]|].
    destruct (wwrite_cases (y :: b) w) as (we & w1 & E1 & I & [(-> & O)|(-> & K & _)]); eexists _, w1; (split; [exact E1|]); (split; [exact I|]); auto. }
  destruct W as (we & w1 & E1 & I & W). rewrite E1 in H. destruct W as [->|(-> & K)].
  - assert (G : forall er, re = Some er -> er <> EEOF -> Err er = @Err unit e -> e <> EEOF /\ exists ns l b0 r2, rd_run (map ORead ns) r = (l ++ [SRead b0 (Some e)], r2)).
    { intros er -> NE X. assert (er = e) by congruence. subst er. split; [exact NE|]. exists [sizes k], [], b, r'. cbn [map rd_run rd_step app]. rewrite E. reflexivity. }
    destruct re as [er|].
    + destruct er; try discriminate H; right; (eapply G; [reflexivity|discriminate|congruence]).
    + destruct (IH _ _ _ _ H) as [(-> & j & J)|(NE & ns & l & b0 & r2 & R)]; [left; split; [reflexivity|exists j; apply I; exact J]|right]. split; [exact NE|].
      exists (sizes k :: ns), (SRead b None :: l), b0, r2. cbn [map rd_run rd_step app]. rewrite E. rewrite R. reflexivity.
  - left. split; [congruence|exact K].
Qed.
Lemma cat_errors sizes p rounds : forall r w e w', cat_loop sizes p rounds r w = (Err e, w') ->
  exists k l x r1, rd_run (repeat ONext k) r = (map (fun h => SNext (Ok h)) l ++ [SNext x], r1) /\ Forall (fun h => hd_path h <> p) l /\
    match x with
    | Err EEOF => e = EMsg "requested path not found" /\ w' = w
    | Err er => e = er /\ w' = w
    | Ok h => hd_path h = p /\ ((hd_type h <> bs "regular" /\ e = EMsg "unable to cat non-regular file" /\ w' = w) \/
        (hd_type h = bs "regular" /\ ((e = EIo 1 /\ exists k, In (Some k) (plan w)) \/
          (e <> EEOF /\ exists ns l b r2, rd_run (map ORead ns) r1 = (l ++ [SRead b (Some e)], r2)))))
    | Panic _ => False
    end.
Proof.
  induction rounds as [|k IH]; intros r w e w' H; [discriminate H|]. cbn [cat_loop] in H. destruct (Next r) as [x r'] eqn:E.
  assert (B : forall y, (y = x) -> rd_run (repeat ONext 1) r = (map (fun h => SNext (Ok h)) [] ++ [SNext y], r')) by (intros y ->; cbn [repeat rd_run rd_step app map]; rewrite E; reflexivity).
  destruct x as [h|er|m]; [|exists 1, [], (Err er), r'; split; [apply B; reflexivity|]; split; [constructor|]; destruct er; split; congruence|discriminate H].
  destruct (beq (hd_path h) p) eqn:P.
  - apply beq_eq in P. exists 1, [], (Ok h), r'. split; [apply B; reflexivity|]. split; [constructor|]. split; [exact P|].
    destruct (beq (hd_type h) TypeRegular) eqn:T; cbn [negb] in H.
    + right. split; [apply beq_eq; exact T|]. exact (copy_errors _ _ _ _ _ _ H).
    + left. split; [intros X; rewrite X in T; discriminate T|]. split; congruence.
  - destruct (IH _ _ _ _ H) as (k' & l & x & r1 & R & F & M). exists (S k'), (h :: l), x, r1. split; [cbn [repeat rd_run rd_step map app]; rewrite E, R; reflexivity|].
    split; [constructor; [intros X; apply beq_eq in X; congruence|exact F]|exact M].
Qed.
Lemma ls_errors p rc rounds : forall r e o, ls_loop p rc rounds r = (Err e, o) ->
  e <> EEOF /\ exists k l r1, rd_run (repeat ONext k) r = (l ++ [SNext (Err e)], r1).
Proof.
  induction rounds as [|k IH]; intros r e o H; [discriminate H|]. cbn [ls_loop] in H. destruct (Next r) as [x r'] eqn:E.
  destruct x as [h|er|m]; [| |discriminate H].
  - assert (G : exists o', ls_loop p rc k r' = (Err e, o')).
    { destruct (has_prefix (hd_path h) p); [destruct (ls_loop p rc k r') as [y o']; exists o'; congruence|]. destruct (blt p (hd_path h)); [discriminate H|eauto]. }
    destruct G as (o' & G). destruct (IH _ _ _ G) as (NE & k' & l & r1 & R). split; [exact NE|]. exists (S k'), (SNext (Ok h) :: l), r1. cbn [repeat rd_run rd_step app]. rewrite E, R. reflexivity.
  - assert (X : er = e /\ e <> EEOF) by (destruct er; (discriminate H || (split; [congruence|intros ->; discriminate H]))). destruct X as (-> & NE). split; [exact NE|].
    exists 1, [], r'. cbn [repeat rd_run rd_step app]. rewrite E. reflexivity.
Qed.
