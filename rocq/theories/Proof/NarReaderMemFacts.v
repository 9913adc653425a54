From Verif Require Import Base.Bytes Model.GoIO Model.GoStd Model.Wire Model.Nar Model.NarReader Model.NarReaderMem Spec.NarHist Spec.MemSpec.
Ltac Zify.zify_post_hook ::= idtac.

Section S.
Variable mem : N.
Lemma full_same s max : (max <= mem)%N -> (max < 2 ^ 63)%N -> m_ReadBytesFull mem s max = ReadBytesFull s max.
Proof.
  intros H1 H2. unfold m_ReadBytesFull, ReadBytesFull. destruct (ReadBytes s) as [[[n br]|?|?] s1]; auto.
  destruct (N.ltb_spec max n); auto. destruct (N.ltb_spec mem n); [lia|]. destruct (N.leb_spec (2 ^ 63) n); [lia|]. reflexivity.
Qed.
Hypothesis Hm : (4095 <= mem)%N.
Lemma expect_same s x : (lenN x <= 4095)%N -> m_expectString mem s x = expectString s x.
Proof. intros H. unfold m_expectString, expectString, m_ReadString, ReadString. rewrite full_same; [reflexivity|lia|]. change (2 ^ 63)%N with 9223372036854775808%N. lia. Qed.
Lemma tok_same s n : (n <= 4095)%N -> m_tok mem s n = tok s n.
Proof. intros H. unfold m_tok, tok, m_ReadString, ReadString. rewrite full_same; [reflexivity|lia|]. change (2 ^ 63)%N with 9223372036854775808%N. lia. Qed.
Ltac le := first [vm_compute; discriminate].
Ltac one := first
  [ rewrite expect_same by le | rewrite tok_same by le | rewrite full_same by (try le; lia) ].
Lemma head_same p st s : m_parse_head mem p st s = parse_head p st s.
Proof.
  unfold m_parse_head, parse_head. rewrite expect_same by le. destruct (expectString s (bs "(")) as [[?|] s1]; auto.
  rewrite expect_same by le. destruct (expectString s1 (bs "type")) as [[?|] s2]; auto.
  rewrite tok_same by le. destruct (tok s2 tokenLenMax) as [[t|?] s3]; auto.
  destruct (beq t (bs "regular")).
  - rewrite tok_same by le. destruct (tok s3 10) as [[u|?] s4]; auto. destruct (beq u (bs "executable")); [|reflexivity].
    rewrite full_same by (try le; lia). destruct (ReadBytesFull s4 0) as [[?|?|?] s5]; auto. rewrite tok_same by le. reflexivity.
  - destruct (beq t (bs "symlink")); [|reflexivity]. rewrite expect_same by le. destruct (expectString s3 (bs "target")) as [[?|] s4]; auto.
    rewrite tok_same by le. reflexivity.
Qed.
Lemma step_same c st s : m_pstep1 mem c st s = pstep1 c st s.
Proof.
  destruct c as [p|p|]; cbn [m_pstep1 pstep1].
  - apply head_same.
  - rewrite tok_same by le. destruct (tok s tokenLenMax) as [[t|?] s1]; auto. destruct (beq t (bs "entry")); [|reflexivity].
    rewrite expect_same by le. destruct (expectString s1 (bs "(")) as [[?|] s2]; auto.
    rewrite expect_same by le. destruct (expectString s2 (bs "name")) as [[?|] s3]; auto.
    rewrite tok_same by le. destruct (tok s3 nameLenMax) as [[n|?] s4]; auto. rewrite expect_same by le. reflexivity.
  - destruct st as [|[p n] st]; auto. rewrite expect_same by le. reflexivity.
Qed.
Lemma run_same f : forall c st s, m_run mem f c st s = run f c st s.
Proof. induction f as [|f IH]; intros; cbn [m_run run]; auto. rewrite step_same. destruct (pstep1 c st s); auto. Qed.
Lemma run_all_same c st s : m_run_all mem c st s = run_all c st s.
Proof. apply run_same. Qed.
Lemma new_same s : m_NewReader mem s = NewReader s.
Proof. unfold m_NewReader, NewReader. rewrite expect_same by le. reflexivity. Qed.
Lemma resume_same g c s : m_resume mem g c s = resume g c s.
Proof.
  destruct g as [|[| |p] st| |]; cbn [m_resume resume]; auto; try (rewrite run_all_same; reflexivity).
  - destruct c as [br|]; auto. destruct (br_close br s) as [[?|] [br' s1]]; auto. rewrite tok_same by le.
    destruct (tok s1 tokenLenMax) as [[t|?] s2]; auto. destruct (close_paren t st s2); auto. rewrite run_all_same. reflexivity.
  - rewrite tok_same by le. destruct (tok s tokenLenMax) as [[t|?] s2]; auto. destruct (close_paren t st s2); auto. rewrite run_all_same. reflexivity.
Qed.
Lemma next_same r : m_Next mem r = Next r.
Proof. unfold m_Next, Next. rewrite resume_same. reflexivity. Qed.
Lemma close_same r : m_rd_Close mem r = rd_Close r.
Proof. unfold m_rd_Close, rd_Close. destruct (rd_gor r); auto. rewrite run_all_same. reflexivity. Qed.
Lemma calls_same ops : forall r, m_calls mem ops r = rd_run ops r.
Proof.
  induction ops as [|op ops IH]; intros r; cbn [m_calls rd_run]; auto.
  assert (m_step mem op r = rd_step op r) as ->. { destruct op; cbn [m_step rd_step]; rewrite ?next_same, ?close_same; reflexivity. }
  destruct (rd_step op r) as [x r1]. rewrite IH. reflexivity.
Qed.
End S.

(** Names. *)
From Verif Require Import Base.BytesFacts Proof.BackendProps Proof.NarReaderAny.
Definition short (x : bytes) : Prop := (lenN x <= 255)%N.
Lemma clean_short rt l : forall acc, Forall short acc -> Forall short l -> Forall short (clean_go rt acc l).
Proof.
  induction l as [|c l IH]; intros acc Ha Hl; cbn [clean_go]; [apply Forall_rev; exact Ha|].
  inversion Hl; subst. destruct (beq c [] || beq c dot); [auto|]. destruct (beq c dotdot).
  - destruct acc as [|x acc']; [destruct rt; auto|]. inversion Ha; subst. destruct (beq x dotdot); auto.
  - apply IH; auto.
Qed.
Lemma clean_nosep rt l : forall acc, Forall (fun x => ~ In slash x) acc -> Forall (fun x => ~ In slash x) l -> Forall (fun x => ~ In slash x) (clean_go rt acc l).
Proof.
  induction l as [|c l IH]; intros acc Ha Hl; cbn [clean_go]; [apply Forall_rev; exact Ha|].
  inversion Hl; subst. destruct (beq c [] || beq c dot); [auto|]. destruct (beq c dotdot).
  - destruct acc as [|x acc']; [destruct rt; auto|]. inversion Ha; subst. destruct (beq x dotdot); auto.
  - apply IH; auto.
Qed.
Definition Q (p : bytes) : Prop := Forall short (split_byte p slash).
Lemma Clean_Q p : Q p -> Q (Clean p).
Proof.
  intros H. unfold Clean, clean_comps, Q in *. set (cs := clean_go (is_rooted p) [] (split_byte p slash)).
  assert (H1 : Forall short cs) by (apply clean_short; auto).
  assert (H2 : Forall (fun x => ~ In slash x) cs) by (apply clean_nosep; [constructor|apply split_no_sep]).
  assert (HJ : Forall short (split_byte (join_byte cs slash) slash)).
  { destruct cs as [|c cs]; [repeat constructor; unfold short; cbn; lia|]. rewrite join_split; auto. discriminate. }
  destruct (is_rooted p).
  - change (slash :: join_byte cs slash) with ([] ++ slash :: join_byte cs slash). rewrite split_app by (intros []).
    constructor; [unfold short; cbn; lia|exact HJ].
  - destruct cs; [vm_compute; repeat constructor; discriminate|exact HJ].
Qed.
Lemma Join_Q p n : p <> [] -> Q p -> IsValidNodeName n = true -> short n -> Q (Join2 p n).
Proof.
  intros Hp HQ V Hn. apply valid_name_iff in V. destruct V as [V _].
  assert (Join2 p n = Clean (p ++ slash :: n)) as -> by (destruct p; [congruence|]; destruct n; reflexivity).
  apply Clean_Q. unfold Q. rewrite split_snoc by exact V. apply Forall_app. auto.
Qed.
Definition G (p : bytes) : Prop := is_rooted p = true /\ Q p.
Lemma Join_G p n : G p -> IsValidNodeName n = true -> short n -> G (Join2 p n).
Proof.
  intros [R HQ] V Hn. assert (p <> []) by (destruct p; [discriminate R|discriminate]). split; [|apply Join_Q; auto].
  assert (Join2 p n = Clean (p ++ slash :: n)) as -> by (destruct p; [congruence|]; destruct n; reflexivity).
  unfold Clean. assert (is_rooted (p ++ slash :: n) = true) as -> by (destruct p; [discriminate R|exact R]). reflexivity.
Qed.
Lemma G_root : G (bs "/").
Proof. split; [reflexivity|]. vm_compute. repeat constructor; discriminate. Qed.
Definition stG (st : list frame) : Prop := Forall (fun f => G (f_path f)) st.
Definition pcG (c : pc) : Prop := match c with CNode p | CLoop p => G p | CRet => True end.
Definition psG (r : pstep) : Prop :=
  match r with
  | PGo c st _ => pcG c /\ stG st
  | PYield h w st _ _ => G (hd_path h) /\ stG st /\ (match w with WDir p => G p | _ => True end)
  | PStop _ _ => True
  end.
Lemma head_G p st s : G p -> stG st -> psG (parse_head p st s).
Proof.
  intros HG HS. unfold parse_head. destruct (expectString s (bs "(")) as [[?|] s1]; [exact I|].
  destruct (expectString s1 (bs "type")) as [[?|] s2]; [exact I|].
  destruct (tok s2 tokenLenMax) as [[t|?] s3]; [|exact I].
  destruct (beq t (bs "regular")).
  - destruct (tok s3 10) as [[u|?] s4]; [|exact I].
    destruct (beq u (bs "executable")).
    + destruct (ReadBytesFull s4 0) as [[?|?|?] s5]; try exact I. destruct (tok s5 tokenLenMax) as [[v|?] s6]; [|exact I].
      destruct (negb (beq v (bs "contents"))); [exact I|]. destruct (ReadBytes s6) as [[[n br]|?|?] s7]; try exact I.
      destruct (2 ^ 63 - 1 <? n)%N; [exact I|]. repeat split; auto; apply HG.
    + destruct (negb (beq u (bs "contents"))); [exact I|]. destruct (ReadBytes s4) as [[[n br]|?|?] s7]; try exact I.
      destruct (2 ^ 63 - 1 <? n)%N; [exact I|]. repeat split; auto; apply HG.
  - destruct (beq t (bs "symlink")).
    + destruct (expectString s3 (bs "target")) as [[?|] s4]; [exact I|]. destruct (tok s4 pathLenMax) as [[u|?] s5]; [|exact I]. repeat split; auto; apply HG.
    + destruct (beq t (bs "directory")); [repeat split; auto; apply HG|]. unfold close_paren. destruct (beq t (bs ")")); cbn; auto.
Qed.
Lemma step_G c st s : pcG c -> stG st -> psG (pstep1 c st s).
Proof.
  intros HC HS. destruct c as [p|p|]; cbn [pstep1 pcG] in *.
  - apply head_G; assumption.
  - destruct (tok s tokenLenMax) as [[t|?] s1]; [|exact I]. destruct (beq t (bs "entry")).
    + destruct (expectString s1 (bs "(")) as [[?|] s2]; [exact I|]. destruct (expectString s2 (bs "name")) as [[?|] s3]; [exact I|].
      destruct (tok s3 nameLenMax) as [[n|?] s4] eqn:E; [|exact I]. destruct (IsValidNodeName n) eqn:V; cbn [negb]; [|exact I].
      apply tok_bound in E. destruct (expectString s4 (bs "node")) as [[?|] s5]; [exact I|]. cbn [psG pcG]. split; [apply Join_G; auto|]. constructor; assumption.
    + destruct (beq t (bs ")")); cbn; auto.
  - destruct st as [|[p n] st]; [exact I|]. inversion HS; subst. destruct (expectString s (bs ")")) as [[?|] s1]; [exact I|].
    destruct (beq n (bs ")")); cbn; auto.
Qed.
Lemma run_G f : forall c st s, pcG c -> stG st -> psG (run f c st s).
Proof.
  induction f as [|f IH]; intros c st s HC HS; cbn [run]; [exact I|]. pose proof (step_G c st s HC HS) as H.
  destruct (pstep1 c st s) as [c' st' s'|h w st' ct s'|e s']; [|exact H..]. destruct H. apply IH; assumption.
Qed.
Definition gorG (g : gor) : Prop := match g with GWait w st => stG st /\ match w with WDir p => G p | _ => True end | _ => True end.
Lemma resume_G g c s : gorG g -> psG (fst (resume g c s)).
Proof.
  destruct g as [|w st| |]; cbn [resume gorG fst]; try (intros; exact I).
  - intros _. apply run_G; [exact G_root|constructor].
  - intros [HS HW].
    assert (T : forall s1, psG (let '(t, s) := tok s1 tokenLenMax in match t with inr er => PStop er s
       | inl t => match close_paren t st s with PGo c st s => run_all c st s | r => r end end)).
    { intros s1. destruct (tok s1 tokenLenMax) as [[t|?] s2]; [|exact I]. unfold close_paren. destruct (beq t (bs ")")); [|exact I]. apply run_G; [exact I|exact HS]. }
    destruct w as [| |p]; cbn [resume fst].
    + destruct c as [br|]; [|exact I]. destruct (br_close br s) as [[?|] [br' s1]]; [exact I|]. apply T.
    + apply T.
    + apply run_G; assumption.
Qed.
Lemma next_G r x r' : gorG (rd_gor r) -> Next r = (x, r') -> gorG (rd_gor r') /\ (forall h, x = Ok h -> G (hd_path h)).
Proof.
  intros H HN. unfold Next in HN. destruct (rd_err r); [split; [congruence|intros h Hh; congruence]|]. destruct (rd_closed r); [split; [congruence|intros h Hh; congruence]|].
  pose proof (resume_G (rd_gor r) (rd_content r) (rd_src r) H) as R. destruct (resume (rd_gor r) (rd_content r) (rd_src r)) as [ps ct]. cbn [fst] in R.
  destruct ps as [c st s|h w st c s|e s]; cbn [psG] in R.
  - assert (x = Panic "unreachable") by congruence. assert (r' = RD s GExit None (rd_prev r) ct false) as -> by congruence. split; [exact I|]. intros h Hh. congruence.
  - destruct R as (R1 & R2 & R3). destruct (PathIsLexicographicallyOrdered (rd_prev r) (hd_path h)).
    + assert (r' = RD s (GWait w st) None (hd_path h) c false) as -> by congruence. split; [split; assumption|]. intros h' Hh. assert (h' = h) by congruence. subst. exact R1.
    + assert (r' = RD s (GWait w st) (Some (EMsg "received header in the wrong order")) (rd_prev r) c false) as -> by congruence. split; [split; assumption|]. intros h' Hh. congruence.
  - assert (r' = RD s GExit (Some e) (rd_prev r) ct false) as -> by congruence. split; [exact I|]. intros h' Hh. congruence.
Qed.
Lemma close_G r x r' : gorG (rd_gor r) -> rd_Close r = (x, r') -> gorG (rd_gor r').
Proof.
  intros H HC. unfold rd_Close in HC.
  assert (K : r' = r \/ rd_gor r' = GExit \/ rd_gor r' = GBlocked).
  { destruct (rd_err r) as [[]|]; try (left; congruence); destruct (rd_closed r); try (left; congruence); destruct (rd_gor r) as [|w st| |] eqn:EG; try (destruct (run_all CRet st (rd_src r))); injection HC as _ <-; cbn; auto. }
  destruct K as [->|[E|E]]; [exact H|rewrite E; exact I..].
Qed.
Lemma run_names ops : forall r l r', gorG (rd_gor r) -> rd_run ops r = (l, r') -> forall h, In (SNext (Ok h)) l -> G (hd_path h).
Proof.
  induction ops as [|op ops IH]; intros r l r' H HR h Hin; cbn [rd_run] in HR.
  - injection HR as <- <-. destruct Hin.
  - destruct (rd_step op r) as [x r1] eqn:E1. destruct (rd_run ops r1) as [l1 r2] eqn:E2. injection HR as <- <-.
    assert (K : gorG (rd_gor r1) /\ (x = SNext (Ok h) -> G (hd_path h))).
    { destruct op as [|n|]; cbn [rd_step] in E1.
      - destruct (Next r) as [y r0] eqn:EN. injection E1 as <- <-. destruct (next_G _ _ _ H EN) as [N1 N2]. split; [exact N1|]. intros Hx. apply N2. congruence.
      - unfold rd_Read in E1. destruct (rd_content r) as [br|]; [destruct (br_read n br (rd_src r)) as [[b e] [br' s']]|]; injection E1 as <- <-; (split; [exact H|discriminate]).
      - destruct (rd_Close r) as [y r0] eqn:EC. injection E1 as <- <-. split; [exact (close_G _ _ _ H EC)|discriminate]. }
    destruct K as [K1 K2]. destruct Hin as [->|Hin]; [auto|]. exact (IH _ _ _ K1 E2 h Hin).
Qed.
