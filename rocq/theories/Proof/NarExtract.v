(** The paths a NAR reader reports on arbitrary input (C109). *)
From Coq Require Import Sorted.
From Verif Require Import Base.Bytes Base.BytesFacts Model.GoIO Model.GoStd Model.Wire Model.Nar
  Model.NarReader Spec.WireSpec Spec.WireHist Spec.NarSpec Spec.NarHist Spec.BackendSpec Spec.ExtractSpec
  Proof.WireFacts Proof.WireProps Proof.PathFacts Proof.NarUtilProps Proof.NarPath Proof.EntryPath Proof.NarReaderFacts
  Proof.NarReaderAny Proof.NarWriterSound Proof.BackendProps.
Ltac Zify.zify_post_hook ::= idtac.

(** * The order *)
Lemma ccmp_eq a : forall b, ccmp a b = Eq <-> a = b.
Proof.
  induction a as [|x a IH]; intros [|y b]; cbn [ccmp]; try (split; congruence).
  destruct (bcmp x y) eqn:E.
  - apply bcmp_eq in E. subst y. rewrite IH. split; congruence.
  - split; [discriminate|]. intros H. injection H as -> _. rewrite bcmp_refl in E. discriminate.
  - split; [discriminate|]. intros H. injection H as -> _. rewrite bcmp_refl in E. discriminate.
Qed.
Lemma ccmp_lt_trans a : forall b c, ccmp a b = Lt -> ccmp b c = Lt -> ccmp a c = Lt.
Proof.
  induction a as [|x a IH]; intros [|y b] [|z c]; cbn [ccmp]; try congruence.
  destruct (bcmp x y) eqn:E1; try congruence.
  - apply bcmp_eq in E1. subst y. destruct (bcmp x z); try congruence. apply IH.
  - intros _. destruct (bcmp y z) eqn:E2; try congruence.
    + apply bcmp_eq in E2. subst z. rewrite E1. reflexivity.
    + rewrite (bcmp_lt_trans _ _ _ E1 E2). reflexivity.
Qed.
Lemma ccmp_le_trans a b c : ccmp a b <> Gt -> ccmp b c <> Gt -> ccmp a c <> Gt.
Proof.
  intros H1 H2. destruct (ccmp a b) eqn:E1; [| |congruence].
  - apply ccmp_eq in E1. subst b. exact H2.
  - destruct (ccmp b c) eqn:E2; [| |congruence].
    + apply ccmp_eq in E2. subst c. congruence.
    + rewrite (ccmp_lt_trans _ _ _ E1 E2). discriminate.
Qed.
Definition pre {A} (a b : list A) : Prop := exists c, b = a ++ c.
Lemma pre_refl {A} (a : list A) : pre a a.
Proof. exists []. symmetry. apply app_nil_r. Qed.
Lemma pre_trans {A} (a b c : list A) : pre a b -> pre b c -> pre a c.
Proof. intros (x & ->) (y & ->). exists (x ++ y). symmetry. apply app_assoc. Qed.
Lemma pre_nil {A} (a : list A) : pre a [] -> a = [].
Proof. intros (x & E). symmetry in E. apply app_eq_nil in E. apply E. Qed.
Lemma join_pre a d : a <> [] -> d <> [] -> join_byte (a ++ d) slash = join_byte a slash ++ slash :: join_byte d slash.
Proof.
  induction a as [|x a IH]; [congruence|]. intros _ Hd. destruct a as [|y a].
  - destruct d as [|z d]; [congruence|]. reflexivity.
  - cbn [app join_byte]. cbn [app join_byte] in IH. rewrite IH by (discriminate || assumption). rewrite <- app_assoc. reflexivity.
Qed.
(** Going back to an ancestor is never accepted. *)
Lemma back_rejected b ds : ecomps (b ++ ds) ->
  PathIsLexicographicallyOrdered (path_of (b ++ ds)) (path_of b) = true -> ds = [].
Proof.
  intros He H. apply lex_ordered_exact in H. destruct ds as [|d ds]; [reflexivity|exfalso].
  pose proof He as He2. apply Forall_app in He2. destruct He2 as [Hb Hd]. destruct H as [H|H].
  - assert (X : exists r, r <> [] /\ path_of (b ++ d :: ds) = path_of b ++ r).
    { unfold path_of. change "/"%byte with slash. destruct b as [|x b].
      - exists (join_byte (d :: ds) slash). split; [|reflexivity]. apply Forall_inv in Hd. destruct Hd as (Hd & _).
        destruct d as [|y d]; [congruence|]. destruct ds; discriminate.
      - exists (slash :: join_byte (d :: ds) slash). split; [discriminate|]. rewrite join_pre by discriminate. reflexivity. }
    destruct X as (r & Hr & E). rewrite E in H. unfold ble in H. rewrite <- (app_nil_r (path_of b)) in H at 2.
    rewrite bcmp_app_common in H. destruct r; [congruence|discriminate].
  - apply (proj1 (e_component_le_path_of _ _ He Hb)) in H. apply H. rewrite <- (app_nil_r b) at 2. rewrite ccmp_app. reflexivity.
Qed.
(** What follows below an ancestor is not smaller than what was last reported. *)
Lemma next_sibling b ds n : ecomps (b ++ ds) -> NarSpec.entry_name n ->
  PathIsLexicographicallyOrdered (path_of (b ++ ds)) (path_of (b ++ [n])) = true -> ccmp (b ++ ds) (b ++ [n]) <> Gt.
Proof.
  intros He Hn H. pose proof He as He2. apply Forall_app in He2. destruct He2 as [Hb Hd].
  assert (Hb' : ecomps (b ++ [n])) by (apply Forall_app; split; [exact Hb|constructor; [exact Hn|constructor]]).
  apply lex_ordered_exact in H. destruct H as [H|H]; [|exact (proj1 (e_component_le_path_of _ _ He Hb') H)].
  rewrite ccmp_app. destruct ds as [|d ds]; [discriminate|]. cbn [ccmp].
  assert (X : ble (join_byte (d :: ds) slash) n = true).
  { unfold path_of in H. change "/"%byte with slash in H. rewrite ble_cons in H. destruct b as [|x b]; [exact H|].
    rewrite !join_pre in H by discriminate. unfold ble in *. rewrite bcmp_app_common in H. cbn [bcmp join_byte] in H.
    rewrite N.compare_refl in H. exact H. }
  unfold ble in X. destruct (bcmp d n) eqn:E; [|discriminate|].
  - apply bcmp_eq in E. subst d. destruct ds as [|d ds]; [discriminate|exfalso].
    change (join_byte (n :: d :: ds) slash) with (n ++ slash :: join_byte (d :: ds) slash) in X.
    rewrite <- (app_nil_r n) in X at 2. rewrite bcmp_app_common in X. discriminate.
  - exfalso. assert (Y : exists r, join_byte (d :: ds) slash = d ++ r).
    { destruct ds as [|d2 ds]; [exists []; symmetry; apply app_nil_r|]. eexists. reflexivity. }
    destruct Y as (r & Y). rewrite Y, (bcmp_gt_app _ _ r E) in X. discriminate.
Qed.
(** Join with any valid name. *)
Lemma join_any b n : ecomps b -> IsValidNodeName n = true ->
  (NarSpec.entry_name n /\ Join2 (path_of b) n = path_of (b ++ [n])) \/
  Join2 (path_of b) n = path_of b \/ Join2 (path_of b) n = path_of (removelast b).
Proof.
  intros Hb Hn. apply valid_name_iff in Hn. destruct Hn as [N1 N2].
  assert (J : Join2 (path_of b) n = slash :: join_byte (clean_go true [] (split_byte (join_byte b slash) slash ++ [n])) slash).
  { assert (E : Join2 (path_of b) n = Clean ((slash :: join_byte b slash) ++ slash :: n)) by (unfold Join2, path_of; destruct n; reflexivity).
    rewrite E. change ((slash :: join_byte b slash) ++ slash :: n) with (slash :: (join_byte b slash ++ slash :: n)).
    rewrite Clean_rooted, split_snoc by exact N1. reflexivity. }
  assert (C : forall x, clean_go true [] (split_byte (join_byte b slash) slash ++ x) = clean_go true (rev b) x).
  { intros x. destruct b as [|c b]; [reflexivity|]. rewrite join_split by (try discriminate; apply e_comps_noslash; exact Hb).
    rewrite <- (app_nil_r (rev (c :: b))). generalize (e_comps_plain _ Hb). generalize (c :: b) ([] : list bytes). clear.
    induction l as [|y l IH]; intros acc F; [reflexivity|]. inversion F as [|? ? (P1 & P2 & P3) F2]; subst. cbn [app clean_go].
    apply beq_neq in P1, P2, P3. rewrite P1, P2, P3. cbn [orb]. rewrite (IH (y :: acc) F2). cbn [rev]. rewrite <- app_assoc. reflexivity. }
  rewrite C in J. cbn [clean_go] in J. destruct (beq_spec n []) as [E1|E1]; [right; left; rewrite J; cbn [orb]; rewrite rev_involutive; reflexivity|].
  destruct (beq_spec n dot) as [E2|E2]; [right; left; rewrite J; cbn [orb]; rewrite rev_involutive; reflexivity|]. cbn [orb] in J.
  destruct (beq_spec n dotdot) as [E3|E3].
  - right. right. rewrite J. unfold path_of. change "/"%byte with slash. f_equal. f_equal.
    destruct b as [|x b] using rev_ind; [reflexivity|]. clear IHb. rewrite rev_app_distr. cbn [rev app].
    apply Forall_app in Hb. destruct Hb as [_ Hx]. apply Forall_inv in Hx. destruct (entry_name_plain _ Hx) as (_ & _ & Hx3).
    apply beq_neq in Hx3. rewrite Hx3. rewrite rev_involutive, removelast_last. reflexivity.
  - left. assert (En : NarSpec.entry_name n) by (repeat split; assumption). split; [exact En|]. apply e_Join_path_of; assumption.
Qed.

(** * The parser's stack *)
Definition short (cs : list bytes) : Prop := Forall (fun c => length c <= 255) cs.
Lemma short_pre a b : pre a b -> short b -> short a.
Proof. intros (c & ->) H. apply Forall_app in H. apply H. Qed.
Lemma tok_name s b s' : tok s nameLenMax = (inl b, s') -> length b <= 255.
Proof.
  unfold tok, ReadString. destruct (ReadBytesFull s nameLenMax) as [[x|e|m] s1] eqn:E; intros H; try discriminate H. injection H as <- _.
  apply C04_bounded in E. unfold lenN, nameLenMax in E. lia.
Qed.
(** The open directories are nested, and the innermost one contains [a]. *)
Fixpoint nest (a : list bytes) (st : list frame) : Prop :=
  match st with
  | [] => True
  | Frame p _ :: st' => exists b, p = path_of b /\ ecomps b /\ pre b a /\ nest b st'
  end.
Definition node_at (cs : list bytes) (p : bytes) (st : list frame) : Prop :=
  match st with [] => p = bs "/" | Frame p0 n :: _ => p = Join2 p0 n /\ IsValidNodeName n = true /\ length n <= 255 end /\ nest cs st.
Definition pc_in (cs : list bytes) (c : pc) (st : list frame) : Prop :=
  match c with
  | CNode p => node_at cs p st
  | CLoop p => nest cs (Frame p [] :: st)
  | CRet => nest cs st
  end.
Definition step_in (cs : list bytes) (p : pstep) : Prop :=
  match p with
  | PGo c st _ => pc_in cs c st
  | PYield h w st _ _ => node_at cs (hd_path h) st /\ match w with WDir p => p = hd_path h | _ => True end
  | PStop _ _ => True
  end.
Lemma nest_weaken a b st : pre b a -> nest b st -> nest a st.
Proof.
  intros P. destruct st as [|[p n] st]; [auto|]. cbn [nest]. intros (c & H1 & H2 & H3 & H4). exists c. repeat (split; [assumption|]).
  split; [eapply pre_trans; eassumption|exact H4].
Qed.
Ltac st1 :=
  match goal with
  | |- context [expectString ?s ?x] => destruct (expectString s x) as [[?|] ?]; [exact I|]
  | |- context [tok ?s ?m] => destruct (tok s m) as [[?|?] ?]; [|exact I]
  end.
Lemma parse_head_in cs p st s : node_at cs p st -> step_in cs (parse_head p st s).
Proof.
  intros H. assert (HC : forall t s0, step_in cs (close_paren t st s0)).
  { intros t s0. unfold close_paren. destruct (beq t (bs ")")); [|exact I]. cbn. apply H. }
  unfold parse_head. st1. st1. st1. destruct (beq b (bs "regular")).
  { st1. destruct (beq b0 (bs "executable")).
    - match goal with |- context [ReadBytesFull ?s 0] => destruct (ReadBytesFull s 0) as [[?|?|?] sa] end; [|exact I..].
      destruct (tok sa tokenLenMax) as [[ta|?] sb]; [|exact I].
      destruct (negb (beq ta (bs "contents"))); [exact I|]. destruct (ReadBytes sb) as [[[n br]|?|?] ?]; [|exact I..].
      destruct (2 ^ 63 - 1 <? n)%N; [exact I|]. split; [exact H|exact I].
    - destruct (negb (beq b0 (bs "contents"))); [exact I|]. match goal with |- context [ReadBytes ?s] => destruct (ReadBytes s) as [[[n br]|?|?] ?] end; [|exact I..].
      destruct (2 ^ 63 - 1 <? n)%N; [exact I|]. split; [exact H|exact I]. }
  destruct (beq b (bs "symlink")); [st1; st1; split; [exact H|exact I]|].
  destruct (beq b (bs "directory")); [split; [exact H|reflexivity]|]. apply HC.
Qed.
Lemma pstep1_in cs c st s : pc_in cs c st -> step_in cs (pstep1 c st s).
Proof.
  intros H. destruct c as [p|p|]; cbn [pstep1 pc_in] in *.
  - apply parse_head_in. exact H.
  - st1. destruct (beq b (bs "entry")).
    + st1. st1. match goal with |- context [tok ?s nameLenMax] => destruct (tok s nameLenMax) as [[b0|?] ?] eqn:TN end; [|exact I]. apply tok_name in TN. destruct (IsValidNodeName b0) eqn:V; cbn [negb]; [|exact I]. st1.
      cbn [step_in pc_in]. split; [auto|]. exact H.
    + destruct (beq b (bs ")")); cbn [step_in pc_in]; [|exact H]. destruct H as (c & _ & _ & P & N). eapply nest_weaken; eassumption.
  - destruct st as [|[p n] st]; [exact I|]. st1. destruct (beq n (bs ")")); cbn [step_in pc_in]; [|exact H].
    destruct H as (c & _ & _ & P & N). eapply nest_weaken; eassumption.
Qed.
Lemma run_in cs f : forall c st s, pc_in cs c st -> step_in cs (run f c st s) /\ forall c2 st2 s2, run f c st s <> PGo c2 st2 s2.
Proof.
  induction f as [|f IH]; intros c st s H; cbn [run]; [split; [exact I|discriminate]|].
  pose proof (pstep1_in cs c st s H) as HS. destruct (pstep1 c st s); [apply IH; exact HS|split; [exact HS|discriminate]..].
Qed.
Lemma run_all_in cs c st s : pc_in cs c st -> step_in cs (run_all c st s).
Proof. intros H. apply run_in. exact H. Qed.
Lemma close_paren_in cs t st s : nest cs st ->
  step_in cs (match close_paren t st s with PGo c st s => run_all c st s | r => r end).
Proof. intros H. unfold close_paren. destruct (beq t (bs ")")); [|exact I]. apply run_all_in. exact H. Qed.

(** * Histories *)
Definition gor_in (cs : list bytes) (g : gor) : Prop :=
  match g with
  | GWait w st => nest cs st /\ match w with WDir p => p = path_of cs | _ => True end
  | _ => True
  end.
Lemma resume_in cs g ct s : ecomps cs -> g <> GFirst -> gor_in cs g -> step_in cs (fst (resume g ct s)).
Proof.
  intros He Hg H. destruct g as [|w st| |]; [congruence| |exact I..]. destruct H as [H Hw]. destruct w as [| |p]; cbn [resume].
  - destruct ct as [br|]; [|exact I]. destruct (br_close br s) as [e [br' s']]. cbn [fst]. destruct e; [exact I|]. st1.
    apply close_paren_in. exact H.
  - cbn [fst]. st1. apply close_paren_in. exact H.
  - cbn [fst]. apply run_all_in. cbn [pc_in nest]. exists cs. split; [exact Hw|]. split; [exact He|]. split; [apply pre_refl|exact H].
Qed.
(** What an accepted header's path can be. *)
Lemma accepted cs p st : ecomps cs -> short cs -> node_at cs p st -> PathIsLexicographicallyOrdered (path_of cs) p = true ->
  exists cs', ecomps cs' /\ short cs' /\ p = path_of cs' /\ ccmp cs cs' <> Gt /\ nest cs' st.
Proof.
  intros He Hs [Hp Hn] Ho. destruct st as [|[p0 n] st].
  - subst p. change (bs "/") with (path_of []) in Ho. apply (back_rejected [] cs He) in Ho. subst cs.
    exists []. split; [exact He|]. split; [exact Hs|]. split; [reflexivity|]. split; [discriminate|exact I].
  - destruct Hp as (-> & V & Ln). cbn [nest] in Hn. destruct Hn as (b & -> & Hb & (ds & ->) & Hn). assert (Sb : short b) by (eapply short_pre; [|exact Hs]; eexists; reflexivity). destruct (join_any b n Hb V) as [[En E0]|[E0|E0]]; rewrite E0 in *.
    + exists (b ++ [n]). split; [apply Forall_app; split; [exact Hb|constructor; [exact En|constructor]]|]. split; [apply Forall_app; split; [exact Sb|constructor; [exact Ln|constructor]]|]. split; [reflexivity|].
      split; [apply next_sibling; assumption|]. cbn [nest]. exists b. repeat (split; [auto|]); [|exact Hn]. eexists. reflexivity.
    + exists b. split; [exact Hb|]. split; [exact Sb|]. split; [reflexivity|].
      assert (ds = []) as -> by (eapply back_rejected; eassumption).
      rewrite app_nil_r, ccmp_refl. split; [discriminate|]. exists b. repeat (split; [auto|]); [apply pre_refl|exact Hn].
    + assert (P : pre (removelast b) b).
      { destruct b as [|x b] using rev_ind; [apply pre_refl|]. rewrite removelast_last. eexists. reflexivity. }
      revert P Ho E0. generalize (removelast b). intros c (e & E) Ho E0. subst b. rewrite <- app_assoc in He, Ho.
      assert (X : e ++ ds = []) by (eapply back_rejected; eassumption). apply app_eq_nil in X. destruct X as [-> ->].
      rewrite app_nil_r in *. exists c. split; [exact Hb|]. split; [exact Sb|]. split; [reflexivity|].
      rewrite app_nil_r, ccmp_refl. split; [discriminate|]. exists c. repeat (split; [auto|]); [apply pre_refl|exact Hn].
Qed.
(** [path_list hs css]: the headers' paths have the components [css]. *)
Definition path_list (hs : list header) (css : list (list bytes)) : Prop :=
  map hd_path hs = map path_of css /\ Forall ecomps css /\ StronglySorted (fun a b => ccmp a b <> Gt) css.
Definition xinv (hs : list header) (r : rd) : Prop :=
  exists css, path_list hs css /\ Forall short css /\
  (rd_err r = None -> rd_closed r = false ->
    (hs = [] /\ css = [] /\ rd_gor r = GFirst /\ rd_prev r = []) \/
    exists css0 cs, css = css0 ++ [cs] /\ rd_prev r = path_of cs /\ rd_gor r <> GFirst /\ gor_in cs (rd_gor r)).
Lemma ss_snoc {A} (R : A -> A -> Prop) l x : StronglySorted R l -> Forall (fun y => R y x) l -> StronglySorted R (l ++ [x]).
Proof.
  induction l as [|a l IH]; intros H F; cbn [app]; [repeat constructor|]. inversion H; subst. inversion F; subst.
  constructor; [apply IH; assumption|]. apply Forall_app. split; [assumption|]. constructor; [assumption|constructor].
Qed.
Lemma path_list_snoc hs css0 c h c' : path_list hs (css0 ++ [c]) -> ecomps c' -> hd_path h = path_of c' -> ccmp c c' <> Gt ->
  path_list (hs ++ [h]) ((css0 ++ [c]) ++ [c']).
Proof.
  intros (P1 & P2 & P3) E H O. split; [|split].
  - rewrite !map_app, P1, map_app. cbn [map]. rewrite H. reflexivity.
  - apply Forall_app. split; [exact P2|]. constructor; [exact E|constructor].
  - apply ss_snoc; [exact P3|]. apply Forall_forall. intros x Hx. apply in_app_iff in Hx. destruct Hx as [Hx|[<-|[]]]; [|exact O].
    eapply ccmp_le_trans; [|exact O]. clear -P3 Hx. induction css0 as [|y l IH]; [destruct Hx|]. inversion P3 as [|? ? Q1 Q2]; subst.
    destruct Hx as [->|Hx]; [|apply IH; assumption]. apply (proj1 (Forall_forall _ _) Q2). apply in_app_iff. right. left. reflexivity.
Qed.
Lemma xinv_err hs r e : rd_err r = Some e -> (exists css, path_list hs css /\ Forall short css) -> xinv hs r.
Proof. intros He (css & P & Q). exists css. split; [exact P|]. split; [exact Q|]. congruence. Qed.
Lemma next_x hs r x r' : xinv hs r -> rd_closed r = false -> Next r = (x, r') -> (forall w, x <> Panic w) ->
  xinv (match x with Ok h => hs ++ [h] | _ => hs end) r'.
Proof.
  intros (css & P & PS & HI) Hcl H HP. unfold Next in H. destruct (rd_err r) as [e|] eqn:Herr.
  { injection H as <- <-. eapply xinv_err; eauto. }
  rewrite Hcl in H. specialize (HI eq_refl Hcl).
  destruct HI as [(-> & -> & Hg & Hp)|(css0 & cs & -> & Hp & Hg & Hin)].
  - rewrite Hg in H. cbn [resume] in H. assert (HS : step_in [] (run_all (CNode (bs "/")) [] (rd_src r))).
    { apply run_all_in. split; [reflexivity|exact I]. }
    destruct (run_all (CNode (bs "/")) [] (rd_src r)) as [c st s|h w st ct s|e s].
    + injection H as <- <-. exfalso. eapply HP. reflexivity.
    + rewrite Hp in H. replace (PathIsLexicographicallyOrdered [] (hd_path h)) with true in H by (destruct (hd_path h); reflexivity).
      injection H as <- <-. destruct HS as [HN HW]. assert (E : exists c, ecomps c /\ short c /\ hd_path h = path_of c /\ nest c st).
      { destruct HN as [HN1 HN2]. destruct st as [|[p n] st]; [exists []; split; [constructor|split; [constructor|auto]]|].
        destruct HN1 as (E & V & Ln). destruct HN2 as (b & -> & Hb & Pb & HN2). apply pre_nil in Pb as Eb. subst b.
        assert (J : (NarSpec.entry_name n /\ Join2 (path_of []) n = path_of ([] ++ [n])) \/ Join2 (path_of []) n = path_of []) by (destruct (join_any [] n Hb V) as [J|[J|J]]; auto).
        destruct J as [[En E2]|E2]; rewrite E2 in E.
        - exists [n]. split; [constructor; [exact En|constructor]|]. split; [constructor; [exact Ln|constructor]|]. split; [exact E|]. exists []. repeat (split; [auto|]); [eexists; reflexivity|exact HN2].
        - exists []. split; [exact Hb|]. split; [constructor|]. split; [exact E|]. exists []. auto. }
      destruct E as (c & Ec & Es & Eh & En). exists [c]. split; [|split; [constructor; [exact Es|constructor]|]].
      * split; [cbn; rewrite Eh; reflexivity|]. split; [constructor; [exact Ec|constructor]|]. repeat constructor.
      * intros _ _. right. exists [], c. split; [reflexivity|]. split; [exact Eh|]. split; [discriminate|]. split; [exact En|].
        destruct w; [exact I..|]. rewrite HW. exact Eh.
    + injection H as <- <-. eapply xinv_err; [reflexivity|eauto].
  - assert (Es : short cs) by (apply Forall_app in PS; destruct PS as [_ PS]; inversion PS; assumption).
    assert (Ec : ecomps cs).
    { destruct P as (_ & P & _). apply Forall_app in P. destruct P as [_ P]. inversion P; assumption. }
    pose proof (resume_in cs _ (rd_content r) (rd_src r) Ec Hg Hin) as HS.
    destruct (resume (rd_gor r) (rd_content r) (rd_src r)) as [[c st s|h w st ct s|e s] ct0]; cbn [fst step_in] in HS.
    + injection H as <- <-. exfalso. eapply HP. reflexivity.
    + destruct HS as [HN HW]. rewrite Hp in H. destruct (PathIsLexicographicallyOrdered (path_of cs) (hd_path h)) eqn:Ho; injection H as <- <-.
      * destruct (accepted cs _ st Ec Es HN Ho) as (c' & C1 & CS & C2 & C3 & C4). exists ((css0 ++ [cs]) ++ [c']).
        split; [apply path_list_snoc; assumption|]. split; [apply Forall_app; split; [exact PS|constructor; [exact CS|constructor]]|]. intros _ _. right. exists (css0 ++ [cs]), c'. split; [reflexivity|]. split; [exact C2|].
        split; [discriminate|]. split; [exact C4|]. destruct w; [exact I..|]. rewrite HW. exact C2.
      * eapply xinv_err; [reflexivity|eauto].
    + injection H as <- <-. eapply xinv_err; [reflexivity|eauto].
Qed.
Lemma read_x hs r n b e r' : xinv hs r -> rd_Read n r = (b, e, r') -> xinv hs r'.
Proof.
  intros (css & P & PS & HI) H. unfold rd_Read in H. destruct (rd_content r) as [br|].
  - destruct (br_read n br (rd_src r)) as [[b0 e0] [br' s']]. injection H as <- <- <-. exists css. split; [exact P|]. split; [exact PS|exact HI].
  - injection H as <- <- <-. exists css. split; [exact P|]. split; [exact PS|exact HI].
Qed.
Lemma run_x ops : forall hs n0 r l r', rinv hs n0 r -> xinv hs r -> rd_closed r = false -> no_close ops ->
  rd_run ops r = (l, r') -> xinv (hs ++ headers_of l) r'.
Proof.
  induction ops as [|op ops IH]; intros hs n0 r l r' Hi Hx Hcl Hnc H; cbn [rd_run] in H.
  - injection H as <- <-. cbn [headers_of]. rewrite app_nil_r. exact Hx.
  - destruct (rd_step op r) as [x r1] eqn:E1. destruct (rd_run ops r1) as [l1 r2] eqn:E2. injection H as <- <-.
    assert (Hnc' : no_close ops) by (intros Hin; apply Hnc; right; exact Hin).
    destruct op as [|n|]; cbn [rd_step] in E1.
    + destruct (Next r) as [y r1'] eqn:E. injection E1 as <- <-.
      destruct (next_inv _ _ _ _ _ Hi E) as (N1 & N2 & N3). destruct (N3 Hcl) as [N4 N5].
      pose proof (next_x _ _ _ _ Hx Hcl E N5) as NX. destruct y as [h|e|w].
      * pose proof (IH _ _ _ _ _ (N1 h eq_refl) NX N4 Hnc' E2) as J. cbn [headers_of]. rewrite <- app_assoc in J. exact J.
      * exact (IH _ _ _ _ _ (N2 ltac:(discriminate)) NX N4 Hnc' E2).
      * elim (N5 w). reflexivity.
    + destruct (rd_Read n r) as [[b e] r1'] eqn:E. injection E1 as <- <-.
      destruct (read_inv _ _ _ _ _ _ _ Hi E) as (N1 & N2 & _). pose proof (read_x _ _ _ _ _ _ Hx E) as NX.
      exact (IH _ _ _ _ _ N1 NX ltac:(congruence) Hnc' E2).
    + elim Hnc. left. reflexivity.
Qed.
Lemma new_x s r s1 : NewReader s = (Ok r, s1) -> xinv [] r.
Proof.
  unfold NewReader. destruct (expectString s narVersionMagic1) as [[[]|] s']; try discriminate. intros H. injection H as <- <-.
  exists []. split; [repeat constructor|]. split; [constructor|]. intros _ _. left. auto.
Qed.
Lemma reported_short s r s1 ops l r' : NewReader s = (Ok r, s1) -> no_close ops -> rd_run ops r = (l, r') ->
  exists css, path_list (headers_of l) css /\ Forall short css.
Proof.
  intros HN Hc HR. destruct (NarReaderAny.new_inv _ _ _ HN) as (H1 & H2 & _).
  destruct (run_x ops [] _ r l r' H1 (new_x _ _ _ HN) H2 Hc HR) as (css & P & Q & _). exists css. auto.
Qed.
Lemma reported s r s1 ops l r' : NewReader s = (Ok r, s1) -> no_close ops -> rd_run ops r = (l, r') ->
  exists css, path_list (headers_of l) css.
Proof.
  intros HN Hc HR. destruct (NarReaderAny.new_inv _ _ _ HN) as (H1 & H2 & _).
  destruct (run_x ops [] _ r l r' H1 (new_x _ _ _ HN) H2 Hc HR) as (css & P & _). exists css. exact P.
Qed.

(** * Joining a reported path to a directory *)
Lemma Clean_slash d : d <> [] -> Clean (d ++ [slash]) = Clean d.
Proof.
  intros H. assert (R : is_rooted (d ++ [slash]) = is_rooted d) by (destruct d; [congruence|reflexivity]).
  unfold Clean, clean_comps. rewrite R. change [slash] with (slash :: []). rewrite split_snoc by (intros []).
  assert (X : forall l r acc, clean_go r acc (l ++ [[]]) = clean_go r acc l).
  { clear. induction l as [|c l IH]; intros r acc; [reflexivity|]. cbn [app clean_go].
    destruct (beq c [] || beq c dot); [apply IH|]. destruct (beq c dotdot); [|apply IH]. destruct acc as [|y acc]; [destruct r; apply IH|]. destruct (beq y dotdot); apply IH. }
  rewrite X. reflexivity.
Qed.
Lemma join_within dest cs : dest <> [] -> ecomps cs -> Join2 dest (path_of cs) = fold_left child cs (Clean dest).
Proof.
  intros Hd. assert (J : forall d b, d <> [] -> Join2 d b = Clean (d ++ slash :: b)) by (intros d b H; unfold Join2; destruct d; [congruence|destruct b; reflexivity]).
  rewrite J by exact Hd. induction cs as [|n cs IH] using rev_ind; intros He.
  - cbn [fold_left]. unfold path_of. cbn [join_byte]. change (dest ++ [slash; "/"%byte]) with (dest ++ [slash] ++ [slash]).
    rewrite app_assoc, !Clean_slash; [reflexivity|exact Hd|destruct dest; discriminate].
  - apply Forall_app in He. destruct He as [He Hn]. apply Forall_inv in Hn. specialize (IH He). rewrite fold_left_app. cbn [fold_left].
    assert (Hb : entry_name n) by (destruct Hn as (N1 & N2 & N3 & N4 & _); repeat split; assumption). rewrite <- IH. destruct cs as [|c cs].
    + change (dest ++ slash :: path_of ([] ++ [n])) with (dest ++ [slash] ++ slash :: n). rewrite app_assoc.
      rewrite <- J by (destruct dest; discriminate). rewrite Join_child by (exact Hb || (destruct dest; discriminate)). f_equal.
      change (dest ++ slash :: path_of []) with (dest ++ [slash] ++ [slash]). rewrite app_assoc. symmetry. apply Clean_slash. destruct dest; discriminate.
    + rewrite <- Join_child by (exact Hb || (destruct dest; discriminate)). rewrite J by (destruct dest; discriminate). f_equal.
      rewrite <- app_assoc. f_equal. cbn [app]. f_equal. unfold path_of. change "/"%byte with slash. cbn [app]. f_equal. exact (join_app (c :: cs) n ltac:(discriminate)).
Qed.

(** * Consequences *)
Lemma path_list_at hs css l1 h l2 : path_list hs css -> hs = l1 ++ h :: l2 ->
  exists k1 c k2, css = k1 ++ c :: k2 /\ hd_path h = path_of c /\ ecomps c /\ path_list l1 k1 /\ path_list l2 k2 /\
    Forall (fun x => ccmp c x <> Gt) k2.
Proof.
  intros (P1 & P2 & P3) ->. rewrite map_app in P1. cbn [map] in P1. symmetry in P1. apply map_eq_app in P1.
  destruct P1 as (k1 & k2 & -> & Q1 & Q2). destruct k2 as [|c k2]; [discriminate|]. cbn [map] in Q2. exists k1, c, k2.
  injection Q2 as Q2 Q3. apply Forall_app in P2. destruct P2 as [P2 P2']. inversion P2'; subst.
  assert (X : StronglySorted (fun a b => ccmp a b <> Gt) k1 /\ StronglySorted (fun a b => ccmp a b <> Gt) (c :: k2)).
  { clear -P3. induction k1 as [|x k1 IH]; [split; [constructor|exact P3]|]. inversion P3 as [|? ? R1 R2]; subst. destruct (IH R1) as [I1 I2].
    split; [|exact I2]. constructor; [exact I1|]. apply Forall_app in R2. apply R2. }
  destruct X as [X1 X2]. inversion X2; subst. repeat (split; [auto; fail|]). repeat split; auto.
Qed.
Lemma path_list_in hs css h : path_list hs css -> In h hs -> exists c, hd_path h = path_of c /\ ecomps c.
Proof.
  intros P H. apply in_split in H. destruct H as (l1 & l2 & E). destruct (path_list_at _ _ _ _ _ P E) as (k1 & c & k2 & _ & H1 & H2 & _). eauto.
Qed.
Lemma parents hs css : tree_like hs -> path_list hs css ->
  forall m l1 h l2 cs n, length l1 = m -> hs = l1 ++ h :: l2 -> ecomps (cs ++ [n]) -> hd_path h = path_of (cs ++ [n]) ->
  exists a d b, l1 = a ++ d :: b /\ hd_type d = bs "directory" /\ hd_path d = path_of cs.
Proof.
  intros [T1 T2] P m. induction m as [m IH] using lt_wf_ind. intros l1 h l2 cs n Hm E He Hp.
  assert (El : l1 <> []).
  { intros ->. cbn [app] in E. subst hs. rewrite T1 in Hp. change (bs "/") with (path_of []) in Hp.
    apply e_path_of_inj in Hp; [|constructor|exact He]. destruct cs; discriminate. }
  destruct (T2 l1 h l2 E El) as (d & x & Hd & Ht & X1 & X2 & Hj). apply in_split in Hd. destruct Hd as (a & b & ->).
  rewrite app_length in Hm. cbn [length] in Hm.
  assert (Ed : hs = a ++ d :: (b ++ h :: l2)) by (rewrite E, <- app_assoc; reflexivity).
  destruct (path_list_at _ _ _ _ _ P Ed) as (_ & c & _ & _ & Hc & Hec & _).
  assert (V : IsValidNodeName x = true) by (apply valid_name_iff; auto). rewrite Hc in Hj.
  destruct (join_any c x Hec V) as [[En J]|[J|J]]; rewrite J, Hp in Hj.
  - apply e_path_of_inj in Hj; [|exact He|apply Forall_app; split; [exact Hec|constructor; [exact En|constructor]]].
    apply app_inj_tail in Hj. destruct Hj as [-> _]. exists a, d, b. auto.
  - apply e_path_of_inj in Hj; [|exact He|exact Hec]. subst c.
    destruct (IH (length a) ltac:(lia) a d _ cs n eq_refl Ed He Hc) as (a1 & d1 & b1 & -> & D1 & D2).
    exists a1, d1, (b1 ++ d :: b). rewrite <- app_assoc. auto.
  - destruct c as [|y c _] using rev_ind.
    + apply e_path_of_inj in Hj; [|exact He|constructor]. destruct cs; discriminate.
    + rewrite removelast_last in Hj. pose proof Hec as Hec2. apply Forall_app in Hec2. destruct Hec2 as [Hec2 _].
      apply e_path_of_inj in Hj; [|exact He|exact Hec2]. subst c.
      destruct (IH (length a) ltac:(lia) a d _ _ y eq_refl Ed Hec Hc) as (a1 & d1 & b1 & -> & D1 & D2).
      rewrite app_length in Hm. cbn [length] in Hm. rewrite <- app_assoc in Ed.
      destruct (IH (length a1) ltac:(lia) a1 d1 _ cs n eq_refl Ed He D2) as (a2 & d2 & b2 & -> & D3 & D4).
      exists a2, d2, (b2 ++ d1 :: b1 ++ d :: b). split; [rewrite <- !app_assoc; cbn [app]; rewrite <- ?app_assoc; reflexivity|auto].
Qed.
Lemma ancestors hs css : tree_like hs -> path_list hs css ->
  forall ds l1 h l2 cs, hs = l1 ++ h :: l2 -> ecomps (cs ++ ds) -> ds <> [] -> hd_path h = path_of (cs ++ ds) ->
  exists a d b, l1 = a ++ d :: b /\ hd_type d = bs "directory" /\ hd_path d = path_of cs.
Proof.
  intros T P ds. induction ds as [|n ds IH] using rev_ind; intros l1 h l2 cs E He Hn Hp; [congruence|]. clear Hn. rewrite app_assoc in He, Hp.
  destruct (parents hs css T P _ l1 h l2 (cs ++ ds) n eq_refl E He Hp) as (a & d & b & -> & D1 & D2).
  destruct ds as [|x ds _] using rev_ind; [rewrite app_nil_r in D2; exists a, d, b; auto|].
  apply Forall_app in He. destruct He as [He _].
  assert (E2 : hs = a ++ d :: (b ++ h :: l2)) by (rewrite E, <- app_assoc; reflexivity).
  destruct (IH a d _ cs E2 He ltac:(destruct ds; discriminate) D2) as (a1 & d1 & b1 & -> & D3 & D4).
  exists a1, d1, (b1 ++ d :: b). rewrite <- app_assoc. auto.
Qed.
Lemma ccmp_between cs : forall x ds, ccmp cs x <> Gt -> ccmp x (cs ++ ds) <> Gt -> pre cs x.
Proof.
  induction cs as [|c cs IH]; intros x ds H1 H2; [exists x; reflexivity|]. destruct x as [|y x]; [cbn in H1; congruence|].
  cbn [app ccmp] in *. rewrite bcmp_antisym in H2. destruct (bcmp c y) eqn:E; cbn [CompOpp] in H2; try congruence.
  apply bcmp_eq in E. subst y. destruct (IH x ds H1 H2) as (z & ->). exists z. reflexivity.
Qed.
Lemma no_repeats_nodup hs css : path_list hs css -> no_repeats hs -> NoDup (map hd_path hs).
Proof.
  revert css. induction hs as [|h hs IH]; intros css P R; [constructor|]. cbn [map].
  destruct (path_list_at (h :: hs) css [] h hs P eq_refl) as (k1 & c & k2 & _ & Hc & Hec & _ & P2 & F).
  constructor.
  - intros Hin. apply in_map_iff in Hin. destruct Hin as (g & Hg & Hin). destruct hs as [|h2 hs]; [destruct Hin|].
    specialize (R [] h h2 hs eq_refl).
    destruct (path_list_at (h2 :: hs) k2 [] h2 hs P2 eq_refl) as ([|? ?] & c2 & k3 & E2 & Hc2 & Hec2 & P3 & P4 & F2); [|destruct P3 as [P3 _]; discriminate].
    cbn [app] in E2. subst k2. inversion F as [|? ? F1 F3]; subst.
    assert (S : ccmp c c2 = Lt).
    { destruct (ccmp c c2) eqn:EC; [exfalso|reflexivity|congruence]. apply ccmp_eq in EC. subst c2. congruence. }
    assert (X : exists c3, hd_path g = path_of c3 /\ ecomps c3 /\ ccmp c2 c3 <> Gt).
    { destruct Hin as [<-|Hin]; [exists c2; rewrite ccmp_refl; repeat split; auto; discriminate|].
      apply in_split in Hin. destruct Hin as (m1 & m2 & ->). destruct (path_list_at _ _ _ _ _ P4 eq_refl) as (j1 & c3 & j2 & -> & Q1 & Q2 & _).
      exists c3. split; [exact Q1|]. split; [exact Q2|]. apply (proj1 (Forall_forall _ _) F2). apply in_app_iff. right. left. reflexivity. }
    destruct X as (c3 & G1 & G2 & G3). rewrite Hg, Hc in G1. apply e_path_of_inj in G1; [|assumption..]. subst c3.
    destruct (ccmp c2 c) eqn:EC; [| |congruence].
    + apply ccmp_eq in EC. subst c2. rewrite ccmp_refl in S. discriminate.
    + pose proof (ccmp_lt_trans _ _ _ S EC) as Y. rewrite ccmp_refl in Y. discriminate.
  - apply (IH k2 P2). intros l1 h1 h2 l2 E. apply (R (h :: l1) h1 h2 l2). rewrite E. reflexivity.
Qed.
