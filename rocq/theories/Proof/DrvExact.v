(** Exactly which derivations can be read back (C49). *)
From Verif Require Import Base.Bytes Base.BytesFacts Model.GoIO Model.GoStd Model.Nixhash Model.Storepath Model.Derivation Model.DrvParser Spec.StorePathSpec Spec.DerivationSpec Spec.RoundSpec
  Proof.StorePathProps Proof.DrvEncode Proof.DrvParse Proof.DrvRound Proof.DrvValidate Proof.DrvText Proof.DrvAny Proof.DrvAccept.
Ltac Zify.zify_post_hook ::= idtac.

(** * The scan *)
Definition st : Type := Z * bool * bool.
Definition move (d : Z) (c : byte) : Z := (d + bracket c)%Z.
Definition nx (x : st) (c : byte) : st :=
  let '(d, e, i) := x in
  if e then (d, false, i) else if byte_eqb c "\"%byte then (d, true, i) else if byte_eqb c x22 then (d, false, negb i)
  else if i then (d, false, true) else (move d c, false, false).
Definition hit (l : Z) (x : st) (c : byte) : bool := let '(d, e, i) := x in negb e && negb i && byte_eqb c ","%byte && Z.eqb d l.
Definition ev (x : st) (s : bytes) : st := fold_left nx s x.
Fixpoint run (l : Z) (x : st) (s : bytes) : option st :=
  match s with [] => Some x | c :: s' => if hit l x c then None else run l (nx x c) s' end.
Definition at_ (d : Z) : st := (d, false, false).
Lemma run_ev l s : forall x y, run l x s = Some y -> ev x s = y.
Proof. induction s as [|c s IH]; intros x y H; cbn in *; [congruence|]. destruct (hit l x c); [discriminate|]. apply IH, H. Qed.
Lemma ev_app x a b : ev x (a ++ b) = ev (ev x a) b.
Proof. apply fold_left_app. Qed.
Lemma run_app l a : forall x b, run l x (a ++ b) = match run l x a with Some y => run l y b | None => None end.
Proof. induction a as [|c a IH]; intros x b; cbn; [reflexivity|]. destruct (hit l x c); [reflexivity|apply IH]. Qed.
Definition up (n : Z) (x : st) : st := let '(d, e, i) := x in ((d + n)%Z, e, i).
Lemma nx_up n x c : nx (up n x) c = up n (nx x c).
Proof.
  destruct x as [[d e] i]. unfold nx, up, move. destruct e; [reflexivity|]. destruct (byte_eqb c "\"); [reflexivity|]. destruct (byte_eqb c x22); [reflexivity|]. destruct i; [reflexivity|].
  f_equal; f_equal. lia.
Qed.
Lemma hit_up n l x c : hit (l + n) (up n x) c = hit l x c.
Proof. destruct x as [[d e] i]. unfold hit, up. f_equal. apply eq_true_iff_eq. rewrite !Z.eqb_eq. lia. Qed.
Lemma run_up n l s : forall x, run (l + n) (up n x) s = option_map (up n) (run l x s).
Proof. induction s as [|c s IH]; intros x; cbn [run]; [reflexivity|]. rewrite hit_up, nx_up. destruct (hit l x c); [reflexivity|apply IH]. Qed.
Lemma ev_up n s : forall x, ev (up n x) s = up n (ev x s).
Proof. induction s as [|c s IH]; intros x; [reflexivity|]. unfold ev in *. cbn [fold_left]. rewrite nx_up. apply IH. Qed.
Lemma run_shift n l d d' s : run l (at_ d) s = Some (at_ d') -> run (l + n) (at_ (d + n)) s = Some (at_ (d' + n)).
Proof. intros H. change (at_ (d + n)) with (up n (at_ d)). rewrite run_up, H. reflexivity. Qed.
Lemma ev_shift n d d' s : ev (at_ d) s = at_ d' -> ev (at_ (d + n)) s = at_ (d' + n).
Proof. intros H. change (at_ (d + n)) with (up n (at_ d)). rewrite ev_up, H. reflexivity. Qed.
Lemma settles_run l s : forall d e i d', settles l d e i s = Some d' <-> run l (d, e, i) s = Some (at_ d').
Proof.
  induction s as [|c s IH]; intros d e i d'.
  - unfold at_. cbn [settles run]. destruct e, i; cbn [orb]; (split; intros H; [try discriminate H; injection H as H; subst; reflexivity|try discriminate H; injection H as H; subst; reflexivity]).
  - destruct e; [cbn [settles run hit negb andb nx]; apply IH|].
    cbn [settles run]. unfold nx, hit. cbn [negb andb]. destruct (byte_eqb c "\") eqn:B; [apply byte_eqb_eq in B; subst c; rewrite andb_false_r; apply IH|].
    destruct (byte_eqb c x22) eqn:Q; [apply byte_eqb_eq in Q; subst c; rewrite andb_false_r; apply IH|]. destruct i; cbn [negb andb]; [apply IH|].
    destruct (byte_eqb c "," && (d =? l)%Z); [split; discriminate|]. apply IH.
Qed.
Lemma move_eq d c : move d c = (if byte_eqb c "["%byte then (d + 1)%Z else if byte_eqb c "]"%byte then (d - 1)%Z
  else if byte_eqb c "("%byte then (d + 1)%Z else if byte_eqb c ")"%byte then (d - 1)%Z else d).
Proof. unfold move, bracket. destruct c; cbn [byte_eqb]; try apply Z.add_0_r; reflexivity. Qed.

(** * Pieces *)
Lemma cons_eq {A} (x y : A) l k : x :: l = y :: k -> x = y /\ l = k.
Proof. intros H. injection H. auto. Qed.
Lemma pieces_run s : forall d e i cur y t, run 1 (d, e, i) s = Some y -> t <> [] -> pieces d e i cur (s ++ t) = pieces (fst (fst y)) (snd (fst y)) (snd y) (cur ++ s) t.
Proof.
  induction s as [|c s IH]; intros d e i cur y t H N.
  - cbn in H. injection H as <-. cbn [fst snd app]. rewrite app_nil_r. reflexivity.
  - cbn [run] in H. cbn [app]. rewrite pieces_eq. destruct (hit 1 (d, e, i) c) eqn:HH; [discriminate|]. assert (A : forall z, cur ++ c :: z = (cur ++ [c]) ++ z) by (intros z; rewrite <- app_assoc; reflexivity). rewrite (A s). unfold nx in H. unfold hit in HH.
    destruct e; [apply IH; assumption|]. destruct (byte_eqb c "\"); [apply IH; assumption|]. destruct (byte_eqb c x22); [apply IH; assumption|]. destruct i; [apply IH; assumption|].
    cbn [negb andb] in HH. rewrite andb_comm in HH. cbv zeta. rewrite <- move_eq. destruct (s ++ t) as [|z zs] eqn:E; [destruct s; [destruct t; [congruence|discriminate E]|discriminate E]|]. rewrite <- E. rewrite HH. apply IH; assumption.
Qed.
Lemma pieces_step t : forall d e i cur y ys, pieces d e i cur t = y :: ys -> exists m z, y = cur ++ m /\ run 1 (d, e, i) m = Some (at_ z) /\
  ((exists c, t = m ++ [c] /\ ys = []) \/ (z = 1%Z /\ exists t', t' <> [] /\ t = m ++ ","%byte :: t' /\ ys = pieces 1 false false [] t')).
Proof.
  induction t as [|c t IH]; intros d e i cur y ys H; [discriminate H|]. rewrite pieces_eq in H.
  assert (K : forall d' e' i', (d', e', i') = nx (d, e, i) c -> hit 1 (d, e, i) c = false -> pieces d' e' i' (cur ++ [c]) t = y :: ys -> exists m z, y = cur ++ m /\ run 1 (d, e, i) m = Some (at_ z) /\
    ((exists c0, c :: t = m ++ [c0] /\ ys = []) \/ (z = 1%Z /\ exists t', t' <> [] /\ c :: t = m ++ ","%byte :: t' /\ ys = pieces 1 false false [] t'))).
  { intros d' e' i' N HH P. destruct (IH _ _ _ _ _ _ P) as (m & z & E & R & C). exists (c :: m), z. split; [rewrite E, <- app_assoc; reflexivity|]. split; [cbn [run]; rewrite HH, <- N; exact R|].
    destruct C as [(c0 & -> & ->)|(-> & t' & T & -> & ->)]; [left; exists c0; auto|right; split; [reflexivity|]; exists t'; auto]. }
  unfold nx, hit in K. destruct e; [eapply K; [reflexivity|reflexivity|exact H]|]. destruct (byte_eqb c "\") eqn:B; [eapply K; [reflexivity| |exact H]; apply byte_eqb_eq in B; subst c; cbn; rewrite andb_false_r; reflexivity|].
  destruct (byte_eqb c x22) eqn:Q; [eapply K; [reflexivity| |exact H]; apply byte_eqb_eq in Q; subst c; cbn; rewrite andb_false_r; reflexivity|]. destruct i; [eapply K; [reflexivity|reflexivity|exact H]|].
  cbv zeta in H. rewrite <- move_eq in H. destruct t as [|z t].
  - injection H as <- <-. exists [], d. rewrite app_nil_r. split; [reflexivity|]. split; [reflexivity|]. left. exists c. auto.
  - destruct ((d =? 1)%Z && byte_eqb c ",") eqn:G; [|eapply K; [reflexivity| |exact H]; cbn [negb andb]; rewrite andb_comm; exact G]. apply andb_prop in G. destruct G as (G1 & G2). apply Z.eqb_eq in G1. apply byte_eqb_eq in G2. subst d c.
    apply cons_eq in H. destruct H as (<- & <-). exists [], 1%Z. rewrite app_nil_r. split; [reflexivity|]. split; [reflexivity|]. right. split; [reflexivity|]. exists (z :: t). split; [discriminate|]. split; reflexivity.
Qed.

(** * Read and written text side by side *)
Definition closed_piece (y : bytes) : Prop := exists z, run 1 (at_ 1) y = Some (at_ z).
Definition aligned (y x : bytes) : Prop := closed_piece y -> forall R R', y ++ R = x ++ R' -> y = x \/ (exists z, z <> [] /\ y = x ++ z /\ ev (at_ 1) x = at_ 1).
Definition token (x : bytes) : Prop := x = quoted [] \/ x = bs "[]".
Definition closer (c : byte) : Prop := c = ")"%byte \/ c = "]"%byte.
Lemma token_run l x : l <> 1%Z \/ True -> token x -> run l (at_ 1) x = Some (at_ 1).
Proof. intros _ [->| ->]; reflexivity. Qed.
Lemma pieces_comma cur t : t <> [] -> pieces 1 false false cur (","%byte :: t) = cur :: pieces 1 false false [] t.
Proof. intros N. rewrite pieces_eq. destruct t; [congruence|reflexivity]. Qed.
Lemma pieces_closer d cur c : closer c -> pieces d false false cur [c] = [cur].
Proof. intros [->| ->]; rewrite pieces_eq; reflexivity. Qed.
Lemma snoc_last {A} (s : list A) c u x : s ++ [c] = u ++ [x] -> c = x.
Proof. intros H. apply app_inj_tail in H. tauto. Qed.
Lemma lost_tail c' R R' xs2 t : closer c' -> Forall token xs2 -> xs2 <> [] -> pieces 1 false false [] t = [] -> (exists s c, t = s ++ [c] /\ closer c) ->
  t ++ R = join_byte xs2 ","%byte ++ c' :: R' -> exists z, z <> [] /\ t = join_byte xs2 ","%byte ++ [c'] ++ z /\ ev (at_ 1) (join_byte xs2 ","%byte) = at_ 1.
Proof.
  intros HC T N P (s & c & E & CL) H. destruct xs2 as [|tok xs2]; [congruence|]. inversion T as [|? ? T1 T2]; subst x l.
  assert (J : exists w, join_byte (tok :: xs2) ","%byte ++ c' :: R' = tok ++ w /\ ((xs2 = [] /\ w = c' :: R') \/ (xs2 <> [] /\ w = ","%byte :: join_byte xs2 ","%byte ++ c' :: R'))).
  { destruct xs2 as [|k xs2]; [exists (c' :: R'); auto|]. eexists. cbn [join_byte]. rewrite <- app_assoc. split; [reflexivity|]. right. split; [discriminate|reflexivity]. }
  destruct J as (w & J & C). rewrite J in H.
  assert (U : exists u, u <> [] /\ t = tok ++ u).
  { assert (L : exists a b, tok = [a; b] /\ ~ closer a /\ (closer b -> tok = bs "[]")) by (destruct T1 as [->| ->]; [exists x22, x22|exists "["%byte, "]"%byte]; (split; [reflexivity|]; split; [intros [X|X]; discriminate X|]; try (intros _; reflexivity); intros [X|X]; discriminate X)).
    destruct L as (a & b & -> & La & Lb). destruct t as [|t1 [|t2 u]].
    - destruct s; discriminate E.
    - exfalso. injection H as H _. change [t1] with ([] ++ [t1]) in E. apply snoc_last in E. apply La. congruence.
    - injection H as -> -> H. destruct u as [|u1 u]; [|exists (u1 :: u); split; [discriminate|reflexivity]]. exfalso. change [a; b] with ([a] ++ [b]) in E. apply snoc_last in E. subst c. rewrite (Lb CL) in P. discriminate P. }
  destruct U as (u & NU & ->). rewrite <- app_assoc in H. apply app_inv_head in H. rewrite (pieces_run tok 1 false false [] (at_ 1) u (token_run 1 tok (or_intror I) T1) NU) in P. cbn [fst snd at_ app] in P.
  destruct u as [|x u]; [congruence|]. destruct C as [(-> & ->)|(N2 & ->)]; injection H as -> H.
  - exists u. split; [intros ->; rewrite (pieces_closer _ _ _ HC) in P; discriminate P|]. split; [reflexivity|]. apply (run_ev 1). apply token_run; auto.
  - exfalso. destruct u as [|u1 u]; [apply snoc_last in E; subst c; destruct CL as [X|X]; discriminate X|]. rewrite pieces_comma in P by discriminate. discriminate P.
Qed.
Lemma list_aligned c' R R' : closer c' -> forall xs1 xs2 ys t, Forall2 aligned ys xs1 -> Forall token xs2 -> xs1 ++ xs2 <> [] ->
  pieces 1 false false [] t = ys -> (exists s c, t = s ++ [c] /\ closer c) -> t ++ R = join_byte (xs1 ++ xs2) ","%byte ++ c' :: R' ->
  (t = join_byte (xs1 ++ xs2) ","%byte ++ [c'] /\ ys = xs1 ++ xs2) \/
  (exists z, z <> [] /\ t = join_byte (xs1 ++ xs2) ","%byte ++ [c'] ++ z /\ ev (at_ 1) (join_byte (xs1 ++ xs2) ","%byte) = at_ 1).
Proof.
  intros HC. induction xs1 as [|x xs1 IH]; intros xs2 ys t F T N P CL H.
  - inversion F as [E|]; rewrite <- E in P. right. apply (lost_tail c' R R'); auto.
  - destruct ys as [|y ys']; [inversion F|]. inversion F as [|? ? ? ? A F']; subst. cbn [app] in H |- *. destruct (pieces_step _ _ _ _ _ _ _ P) as (m & z & EY & RU & C). cbn [app] in EY. subst m. change (1%Z, false, false) with (at_ 1) in RU.
    assert (J : (xs1 ++ xs2 = [] /\ join_byte (x :: xs1 ++ xs2) ","%byte = x) \/ (xs1 ++ xs2 <> [] /\ join_byte (x :: xs1 ++ xs2) ","%byte = x ++ ","%byte :: join_byte (xs1 ++ xs2) ","%byte)).
    { destruct (xs1 ++ xs2) as [|k l]; [left; auto|right; split; [discriminate|reflexivity]]. }
    assert (Y : exists w, w <> [] /\ t = y ++ w) by (destruct C as [(c & -> & _)|(_ & t' & _ & -> & _)]; eexists; (split; [|reflexivity]); discriminate).
    destruct Y as (w & NW & TW). assert (Q : exists R1, y ++ (w ++ R) = x ++ R1) by (rewrite app_assoc, <- TW, H; destruct J as [(_ & ->)|(_ & ->)]; [|rewrite <- app_assoc]; eauto).
    destruct Q as (R1 & Q). destruct (A (ex_intro _ z RU) _ _ Q) as [->|(v & NV & -> & EV)].
    + destruct C as [(c & ET & ->)|(-> & t' & NT & ET & EYS)].
      * inversion F'; subst xs1. cbn [app] in *. rewrite ET in H. rewrite <- app_assoc in H. destruct J as [(-> & J)|(N2 & J)]; rewrite J in *.
        -- apply app_inv_head in H. injection H as -> _. left. split; [exact ET|reflexivity].
        -- rewrite <- app_assoc in H. apply app_inv_head in H. injection H as -> _. destruct CL as (s & c & E & CL). rewrite ET in E. symmetry in E. apply snoc_last in E. subst c. destruct CL as [X|X]; discriminate X.
      * rewrite ET in H. rewrite <- app_assoc in H. cbn [app] in H. destruct J as [(_ & J)|(N2 & J)]; rewrite J in *.
        -- apply app_inv_head in H. injection H as <- _. destruct HC as [X|X]; discriminate X.
        -- rewrite <- app_assoc in H. apply app_inv_head in H. cbn [app] in H. injection H as H.
           assert (CL' : exists s c, t' = s ++ [c] /\ closer c). { destruct CL as (s & c & E & CL). destruct (exists_last NT) as (s' & c0 & ->). exists s', c0. split; [reflexivity|]. rewrite ET, app_comm_cons, app_assoc in E. apply snoc_last in E. subst c0. exact CL. }
           destruct (IH xs2 ys' t' F' T N2 (eq_sym EYS) CL' H) as [(E1 & E2)|(v & NV & E1 & E2)].
           ++ left. split; [rewrite ET, E1, <- app_assoc; reflexivity|]. cbn [app]. congruence.
           ++ right. exists v. split; [exact NV|]. split; [rewrite ET, E1, <- app_assoc; reflexivity|]. rewrite ev_app, (run_ev _ _ _ _ RU). exact E2.
    + right. rewrite TW, <- !app_assoc in H. destruct J as [(_ & J)|(N2 & J)]; rewrite J in *.
      * apply app_inv_head in H. destruct v as [|v0 v]; [congruence|]. cbn [app] in H. injection H as -> H. exists (v ++ w). split; [destruct v; [exact NW|discriminate]|]. split; [rewrite TW, <- app_assoc; reflexivity|exact EV].
      * exfalso. rewrite <- app_assoc in H. apply app_inv_head in H. destruct v as [|v0 v]; [congruence|]. cbn [app] in H. injection H as -> _.
        rewrite run_app in RU. destruct (run 1 (at_ 1) x) as [q|] eqn:RX; [|discriminate RU]. pose proof (run_ev _ _ _ _ RX) as RE. rewrite EV in RE. subst q. cbn in RU. discriminate RU.
Qed.
Definition opener (c : byte) : Prop := c = "("%byte \/ c = "["%byte.
Definition node (o c : byte) (xs : list bytes) : bytes := [o] ++ join_byte xs ","%byte ++ [c].
Lemma ev_node o c xs : opener o -> closer c -> ev (at_ 1) (join_byte xs ","%byte) = at_ 1 -> ev (at_ 1) (node o c xs) = at_ 1.
Proof.
  intros HO HC E. unfold node. rewrite !ev_app. replace (ev (at_ 1) [o]) with (at_ (1 + 1)) by (destruct HO as [->| ->]; reflexivity). rewrite (ev_shift 1 1 1 _ E). destruct HC as [->| ->]; reflexivity.
Qed.
Lemma node_aligned o c xs1 xs2 y ys : opener o -> closer c -> array_of y ys -> Forall2 aligned ys xs1 -> Forall token xs2 -> (ys = [] -> xs2 = []) -> forall R R', y ++ R = node o c (xs1 ++ xs2) ++ R' ->
  (y = node o c (xs1 ++ xs2) /\ ys = xs1 ++ xs2) \/ (exists z, z <> [] /\ y = node o c (xs1 ++ xs2) ++ z /\ ev (at_ 1) (node o c (xs1 ++ xs2)) = at_ 1).
Proof.
  intros HO HC A F T N R R' H.
  assert (Z : xs1 ++ xs2 = [] -> length y >= 3 -> exists z, z <> [] /\ y = node o c (xs1 ++ xs2) ++ z /\ ev (at_ 1) (node o c (xs1 ++ xs2)) = at_ 1).
  { intros E L. rewrite E in *. cbn [node join_byte app] in *. destruct y as [|a [|b [|d z]]]; cbn [length] in L; try (exfalso; lia). injection H as -> -> H. exists (d :: z). split; [discriminate|]. split; [reflexivity|]. apply (ev_node o c [] HO HC). reflexivity. }
  destruct A as [(L & ->)|(o1 & s & c1 & -> & NS & CL & E)].
  - rewrite (N eq_refl) in *. inversion F; subst. cbn [app node join_byte] in *. destruct y as [|a [|b [|]]]; try discriminate L. injection H as -> -> _. left. auto.
  - destruct (list_eq_dec (list_eq_dec byte_eq_dec) (xs1 ++ xs2) []) as [X|X].
    + right. apply Z; [exact X|]. destruct s; [congruence|]. cbn [length]. rewrite app_length. cbn. lia.
    + unfold node in H. cbn [app] in H. injection H as -> H. assert (CL' : exists s0 c0, s ++ [c1] = s0 ++ [c0] /\ closer c0) by (exists s, c1; split; [reflexivity|]; destruct CL as [(_ & ->)|(_ & ->)]; [left|right]; reflexivity).
      rewrite <- (app_assoc _ [c] R') in H. destruct (list_aligned c R R' HC xs1 xs2 ys (s ++ [c1]) F T X (eq_sym E) CL' H) as [(E1 & E2)|(z & NZ & E1 & E2)].
      * left. split; [unfold node; rewrite E1; reflexivity|exact E2].
      * right. exists z. split; [exact NZ|]. split; [unfold node; rewrite E1; cbn [app]; rewrite <- app_assoc; reflexivity|apply ev_node; assumption].
Qed.
Lemma node_same o c xs1 xs2 ys : opener o -> closer c -> array_of (node o c (xs1 ++ xs2)) ys -> Forall2 aligned ys xs1 -> Forall token xs2 -> (ys = [] -> xs2 = []) -> ys = xs1 ++ xs2.
Proof.
  intros HO HC A F T N. destruct (node_aligned o c xs1 xs2 _ ys HO HC A F T N [] [] eq_refl) as [(_ & E)|(z & NZ & E & _)]; [exact E|].
  exfalso. rewrite <- (app_nil_r (node o c (xs1 ++ xs2))) in E at 1. apply app_inv_head in E. congruence.
Qed.

(** * Strings *)
Lemma aligned_refl x : aligned x x.
Proof. intros _ R R' _. left. reflexivity. Qed.
Lemma instring_run d c : ev (d, false, true) [c] = if byte_eqb c "\"%byte then (d, true, true) else if byte_eqb c x22 then (d, false, false) else (d, false, true).
Proof. unfold ev. cbn [fold_left nx negb]. reflexivity. Qed.
Lemma lit_prefix : forall n z w d R R', length z <= n -> literal z -> w ++ x22 :: R = z ++ x22 :: R' -> length w <= length z -> snd (ev (d, false, true) (w ++ [x22])) = false -> w = z.
Proof.
  induction n as [|n IH]; intros z w d R R' L LT H LE S.
  - destruct z; [|cbn in L; exfalso; lia]. destruct w; [reflexivity|cbn in LE; exfalso; lia].
  - destruct z as [|a z]; [destruct w; [reflexivity|cbn in LE; exfalso; lia]|]. cbn [literal] in LT. destruct (byte_eqb a "\") eqn:B.
    + apply byte_eqb_eq in B. subst a. destruct z as [|b z]; [destruct LT|]. destruct w as [|w0 w]; [discriminate H|]. cbn [app] in H. injection H as -> H. destruct w as [|w1 w].
      * cbn in S. discriminate S.
      * cbn [app] in H. injection H as -> H. do 2 f_equal. cbn [length] in *. eapply IH; [|exact LT|exact H| |]; [lia|lia|]. change (("\"%byte :: b :: w) ++ [x22]) with (["\"%byte] ++ [b] ++ w ++ [x22]) in S. rewrite (ev_app _ ["\"%byte]), (ev_app _ [b]) in S. exact S.
    + destruct LT as (NQ & LT). destruct w as [|w0 w]; [injection H as H _; congruence|]. cbn [app] in H. injection H as -> H. f_equal. cbn [length] in *. eapply IH; [|exact LT|exact H| |]; [lia|lia|].
      change ((a :: w) ++ [x22]) with ([a] ++ w ++ [x22]) in S. rewrite ev_app, instring_run, B in S. destruct (byte_eqb a x22) eqn:Q; [apply byte_eqb_eq in Q; congruence|]. exact S.
Qed.
Lemma aligned_escaped w z : literal z -> length w <= length z -> aligned (quoted w) (quoted z).
Proof.
  intros LT LE (q & RU) R R' H. left. f_equal. apply run_ev in RU. unfold quoted in *. rewrite ev_app in RU. change (ev (at_ 1) [x22]) with (1%Z, false, true) in RU. cbn [app] in H. injection H as H. rewrite <- !app_assoc in H. cbn [app] in H.
  eapply (lit_prefix (length z) z w 1 R R'); [lia|exact LT|exact H|exact LE|]. rewrite RU. reflexivity.
Qed.
Lemma unescaped_len : forall n w, length w <= n -> length w <= length (escaped (unescaped w)).
Proof.
  assert (E1 : forall c s, escaped (c :: s) = escaped_char c ++ escaped s) by reflexivity. assert (E2 : forall c, 1 <= length (escaped_char c)) by (intros c; destruct c; cbn; lia).
  induction n as [|n IH]; intros w L; [destruct w; cbn in *; [lia|exfalso; lia]|]. destruct w as [|c w]; [cbn; lia|]. cbn [length] in L.
  assert (G : unescaped (c :: w) = c :: unescaped w -> length (c :: w) <= length (escaped (unescaped (c :: w)))).
  { intros ->. rewrite E1, app_length. pose proof (IH w ltac:(lia)). pose proof (E2 c). cbn [length]. lia. }
  destruct (byte_eqb c "\") eqn:B.
  - apply byte_eqb_eq in B. subst c. destruct w as [|x w]; [apply G; reflexivity|]. destruct (unescaped_char x) as [y|] eqn:U.
    + replace (unescaped ("\"%byte :: x :: w)) with (y :: unescaped w) by (cbn [unescaped]; rewrite U; reflexivity). rewrite E1, app_length. cbn [length] in *. pose proof (IH w ltac:(lia)).
      assert (length (escaped_char y) = 2) by (destruct x; try discriminate U; injection U as <-; reflexivity). lia.
    + apply G. cbn [unescaped]. rewrite U. reflexivity.
  - apply G. destruct c; try reflexivity. discriminate B.
Qed.

(** * What is read from written text was written *)
Definition out_items (no : bytes * output) : list bytes := map quoted [fst no; o_path (snd no); o_algo (snd no); o_hash (snd no)].
Lemma open1 : opener "("%byte. Proof. left. reflexivity. Qed.
Lemma open2 : opener "["%byte. Proof. right. reflexivity. Qed.
Lemma close1 : closer ")"%byte. Proof. left. reflexivity. Qed.
Lemma close2 : closer "]"%byte. Proof. right. reflexivity. Qed.
Lemma all_aligned xs : Forall2 aligned xs xs.
Proof. induction xs; constructor; [apply aligned_refl|assumption]. Qed.
Lemma brackets_aligned w l : array_of w (map quoted l) -> aligned w (brackets (map quoted l)).
Proof.
  intros A _ R R' H. change (brackets (map quoted l)) with (node "[" "]" (map quoted l)) in *. rewrite <- (app_nil_r (map quoted l)) in H |- *.
  destruct (node_aligned _ _ (map quoted l) [] w (map quoted l) open2 close2 A (all_aligned _) (Forall_nil _) (fun _ => eq_refl) R R' H) as [(E & _)|E]; auto.
Qed.
Lemma out_split v no : reads_output v no -> exists items rest, array_of v items /\ out_items no = items ++ rest /\ Forall token rest /\ (items = [] -> rest = []).
Proof. intros (_ & items & rest & A & E & N & T). exists items, rest. split; [exact A|]. split; [symmetry; exact E|]. split; [eapply Forall_impl; [|exact T]; intros x ->; left; reflexivity|]. intros X. congruence. Qed.
Lemma out_aligned v no : reads_output v no -> aligned v (output_text no).
Proof.
  intros H _ R R' E. destruct (out_split v no H) as (items & rest & A & S & T & N). change (output_text no) with (node "(" ")" (out_items no)) in *. rewrite S in *.
  destruct (node_aligned _ _ items rest v items open1 close1 A (all_aligned _) T N R R' E) as [(X & _)|X]; auto.
Qed.
Lemma out_full no : reads_output (output_text no) no -> array_of (output_text no) (out_items no).
Proof.
  intros H. destruct (out_split _ no H) as (items & rest & A & S & T & N). change (output_text no) with (node "(" ")" (out_items no)) in *.
  assert (E : items = out_items no) by (rewrite S in A |- *; exact (node_same _ _ items rest items open1 close1 A (all_aligned _) T N)). rewrite <- E at 2. exact A.
Qed.
Definition in_items (pn : bytes * list bytes) : list bytes := [quoted (fst pn); brackets (map quoted (snd pn))].
Lemma in_split v pn : reads_input v pn -> exists ys xs rest, array_of v ys /\ Forall2 aligned ys xs /\ in_items pn = xs ++ rest /\ Forall token rest /\ (ys = [] -> rest = []) /\
  (ys = in_items pn -> array_of (brackets (map quoted (snd pn))) (map quoted (snd pn))).
Proof.
  intros (_ & w & [(A & B)|(A & E)]).
  - exists [quoted (fst pn); w], (in_items pn), []. split; [exact A|]. split; [constructor; [apply aligned_refl|constructor; [apply brackets_aligned, B|constructor]]|]. rewrite app_nil_r. split; [reflexivity|]. split; [constructor|]. split; [reflexivity|].
    intros X. unfold in_items in X. injection X as X. rewrite <- X. exact B.
  - exists [quoted (fst pn)], [quoted (fst pn)], [bs "[]"]. split; [exact A|]. split; [apply all_aligned|]. unfold in_items. rewrite E. split; [reflexivity|]. split; [constructor; [right; reflexivity|constructor]|]. split; discriminate.
Qed.
Lemma in_aligned v pn : reads_input v pn -> aligned v (input_text pn).
Proof.
  intros H _ R R' E. destruct (in_split v pn H) as (ys & xs & rest & A & F & S & T & N & _). change (input_text pn) with (node "(" ")" (in_items pn)) in *. rewrite S in *.
  destruct (node_aligned _ _ xs rest v ys open1 close1 A F T N R R' E) as [(X & _)|X]; auto.
Qed.
Lemma in_full pn : reads_input (input_text pn) pn -> array_of (input_text pn) (in_items pn) /\ array_of (brackets (map quoted (snd pn))) (map quoted (snd pn)).
Proof.
  intros H. destruct (in_split _ pn H) as (ys & xs & rest & A & F & S & T & N & B). change (input_text pn) with (node "(" ")" (in_items pn)) in *.
  assert (E : ys = in_items pn) by (rewrite S in A |- *; exact (node_same _ _ xs rest ys open1 close1 A F T N)). split; [rewrite <- E at 2; exact A|exact (B E)].
Qed.
Definition env_items (kv : bytes * bytes) : list bytes := [quoted (fst kv); quoted (escaped (snd kv))].
Lemma env_split v kv : reads_env v kv -> exists ys xs rest, array_of v ys /\ Forall2 aligned ys xs /\ env_items kv = xs ++ rest /\ Forall token rest /\ (ys = [] -> rest = []).
Proof.
  intros (_ & w & U & [A|(A & E)]).
  - exists [quoted (fst kv); quoted w], (env_items kv), []. split; [exact A|]. split; [constructor; [apply aligned_refl|constructor; [|constructor]]|rewrite app_nil_r; split; [reflexivity|]; split; [constructor|reflexivity]].
    apply aligned_escaped; [apply literal_escaped|]. rewrite U. apply (unescaped_len (length w)). lia.
  - exists [quoted (fst kv)], [quoted (fst kv)], [quoted []]. split; [exact A|]. split; [apply all_aligned|]. unfold env_items. rewrite U, E. split; [reflexivity|]. split; [constructor; [left; reflexivity|constructor]|]. discriminate.
Qed.
Lemma env_aligned v kv : reads_env v kv -> aligned v (env_text kv).
Proof.
  intros H _ R R' E. destruct (env_split v kv H) as (ys & xs & rest & A & F & S & T & N). change (env_text kv) with (node "(" ")" (env_items kv)) in *. rewrite S in *.
  destruct (node_aligned _ _ xs rest v ys open1 close1 A F T N R R' E) as [(X & _)|X]; auto.
Qed.
Lemma env_full kv : reads_env (env_text kv) kv -> array_of (env_text kv) (env_items kv).
Proof.
  intros H. destruct (env_split _ kv H) as (ys & xs & rest & A & F & S & T & N). change (env_text kv) with (node "(" ")" (env_items kv)) in *.
  assert (E : ys = env_items kv) by (rewrite S in A |- *; exact (node_same _ _ xs rest ys open1 close1 A F T N)). rewrite <- E at 2. exact A.
Qed.
Section Lists.
Context {V : Type}.
Variables (reads : bytes -> V -> Prop) (text : V -> bytes).
Hypothesis al : forall v x, reads v x -> aligned v (text x).
Lemma entries_aligned items l : Forall2 reads items l -> Forall2 aligned items (map text l).
Proof. induction 1; constructor; auto. Qed.
Lemma map_aligned f items l : array_of f items -> Forall2 reads items l -> aligned f (brackets (map text l)).
Proof.
  intros A F _ R R' H. change (brackets (map text l)) with (node "[" "]" (map text l)) in *. rewrite <- (app_nil_r (map text l)) in H |- *.
  destruct (node_aligned _ _ (map text l) [] f items open2 close2 A (entries_aligned _ _ F) (Forall_nil _) (fun _ => eq_refl) R R' H) as [(E & _)|E]; auto.
Qed.
Lemma map_full items l : array_of (brackets (map text l)) items -> Forall2 reads items l -> items = map text l /\ Forall (fun x => reads (text x) x) l.
Proof.
  intros A F. assert (E : items = map text l). { change (brackets (map text l)) with (node "[" "]" (map text l)) in A. rewrite <- (app_nil_r (map text l)) in A |- *. exact (node_same _ _ (map text l) [] items open2 close2 A (entries_aligned _ _ F) (Forall_nil _) (fun _ => eq_refl)). }
  split; [exact E|]. subst items. clear A. induction l as [|x l IH]; [constructor|]. cbn [map] in F. inversion F; subst. constructor; auto.
Qed.
End Lists.
Definition body_items outs ins srcs plat bld args env : list bytes :=
  [brackets (map output_text outs); brackets (map input_text ins); brackets (map quoted srcs); quoted (escaped plat); quoted (escaped bld); brackets (map quoted args); brackets (map env_text env)].
(** Every level is read as it was written. *)
Lemma read_back json d : let outs := d_outputs d in let ins := d_inputs d in let env := d_env d in
  reads_drv json (drv_text outs ins (d_srcs d) (d_platform d) (d_builder d) (d_args d) env) d ->
  plain_text (d_platform d) /\ plain_text (d_builder d) /\
  array_of (node "(" ")" (body_items outs ins (d_srcs d) (d_platform d) (d_builder d) (d_args d) env)) (body_items outs ins (d_srcs d) (d_platform d) (d_builder d) (d_args d) env) /\
  array_of (brackets (map output_text outs)) (map output_text outs) /\ Forall (fun no => array_of (output_text no) (out_items no)) outs /\
  array_of (brackets (map input_text ins)) (map input_text ins) /\ Forall (fun pn => array_of (input_text pn) (in_items pn) /\ array_of (brackets (map quoted (snd pn))) (map quoted (snd pn))) ins /\
  array_of (brackets (map quoted (d_srcs d))) (map quoted (d_srcs d)) /\ array_of (brackets (map quoted (d_args d))) (map quoted (d_args d)) /\
  array_of (brackets (map env_text env)) (map env_text env) /\ Forall (fun kv => array_of (env_text kv) (env_items kv)) env.
Proof.
  intros outs ins env (body & f0 & f1 & f2 & f5 & f6 & os & is & es & ET & A & A0 & F0 & _ & A1 & F1 & _ & A2 & A5 & A6 & F6 & _ & _).
  unfold drv_text in ET. apply app_inv_head in ET. change (parens _) with (node "(" ")" (body_items outs ins (d_srcs d) (d_platform d) (d_builder d) (d_args d) env)) in ET. rewrite <- ET in A. clear ET body.
  assert (E : [f0; f1; f2; quoted (d_platform d); quoted (d_builder d); f5; f6] = body_items outs ins (d_srcs d) (d_platform d) (d_builder d) (d_args d) env ++ []).
  { rewrite <- (app_nil_r (body_items _ _ _ _ _ _ _)) in A. refine (node_same _ _ _ [] _ open1 close1 A _ (Forall_nil _) (fun _ => eq_refl)).
    repeat (constructor; [|]); [..|constructor].
    - exact (map_aligned _ _ out_aligned _ _ _ A0 F0).
    - exact (map_aligned _ _ in_aligned _ _ _ A1 F1).
    - exact (brackets_aligned _ _ A2).
    - apply aligned_escaped; [apply literal_escaped|apply escaped_len].
    - apply aligned_escaped; [apply literal_escaped|apply escaped_len].
    - exact (brackets_aligned _ _ A5).
    - exact (map_aligned _ _ env_aligned _ _ _ A6 F6). }
  rewrite app_nil_r in E. rewrite E in A. unfold body_items in E. injection E as E0 E1 E2 E3 E4 E5 E6. subst f0 f1 f2 f5 f6.
  apply app_inv_tail in E3, E4. split; [apply escaped_len_eq; congruence|]. split; [apply escaped_len_eq; congruence|]. split; [exact A|].
  destruct (map_full _ _ out_aligned _ _ A0 F0) as (-> & G0). destruct (map_full _ _ in_aligned _ _ A1 F1) as (-> & G1). destruct (map_full _ _ env_aligned _ _ A6 F6) as (-> & G6).
  split; [exact A0|]. split; [eapply Forall_impl; [|exact G0]; apply out_full|]. split; [exact A1|]. split; [eapply Forall_impl; [|exact G1]; apply in_full|]. split; [exact A2|]. split; [exact A5|]. split; [exact A6|eapply Forall_impl; [|exact G6]; apply env_full].
Qed.

(** * Strings that are read as they were written *)
Definition clear (k : nat) (g : bytes) : Prop := forall l, (- Z.of_nat k < l <= 0)%Z -> run l (at_ 0) g = Some (at_ 0).
Lemma neat_clear k a : neat k a <-> clear k (quoted a).
Proof. split; intros H l L; apply settles_run; apply (H l L). Qed.
Fixpoint cuts (gs : list bytes) : Prop :=
  match gs with
  | [] => True
  | [g] => exists z, run 1 (at_ 1) g = Some (at_ z)
  | g :: gs' => run 1 (at_ 1) g = Some (at_ 1) /\ cuts gs'
  end.
Lemma cuts_of c gs : gs <> [] -> pieces 1 false false [] (join_byte gs ","%byte ++ [c]) = gs -> cuts gs.
Proof.
  induction gs as [|g gs IH]; intros N P; [exact I|]. destruct (pieces_step _ _ _ _ _ _ _ P) as (m & z & E & R & C). cbn [app] in E. subst m. change (1%Z, false, false) with (at_ 1) in R.
  destruct gs as [|h gs]; [exists z; exact R|]. destruct C as [(x & _ & E)|(-> & t' & NT & E1 & E2)]; [discriminate E|]. split; [exact R|]. apply IH; [discriminate|]. rewrite E2 at 2. f_equal.
  change (join_byte (g :: h :: gs) ",") with (g ++ ","%byte :: join_byte (h :: gs) ",") in E1. rewrite <- app_assoc in E1. apply app_inv_head in E1. injection E1. auto.
Qed.
Lemma of_cuts c gs : closer c -> gs <> [] -> cuts gs -> pieces 1 false false [] (join_byte gs ","%byte ++ [c]) = gs.
Proof.
  intros HC. induction gs as [|g gs IH]; intros N C; [congruence|]. destruct gs as [|h gs].
  - destruct C as (z & R). cbn [join_byte]. rewrite (pieces_run g 1 false false [] (at_ z) [c] R) by discriminate. apply pieces_closer, HC.
  - destruct C as (R & C). change (join_byte (g :: h :: gs) ",") with (g ++ ","%byte :: join_byte (h :: gs) ","). rewrite <- app_assoc. rewrite (pieces_run g 1 false false [] (at_ 1) _ R) by discriminate.
    cbn [fst snd at_ app]. rewrite pieces_comma; [f_equal; apply IH; [discriminate|exact C]|]. intros X. apply app_eq_nil in X. destruct X as (_ & X). discriminate X.
Qed.
Lemma array_cuts o c xs : closes o c -> xs <> [] -> Forall (fun x => x <> []) xs -> array_of (node o c xs) xs <-> cuts xs.
Proof.
  intros CL N F. assert (HC : closer c) by (destruct CL as [(_ & ->)|(_ & ->)]; [left|right]; reflexivity).
  assert (J : join_byte xs ","%byte <> []) by (destruct xs as [|x xs]; [congruence|]; inversion F as [|? ? X _]; subst; destruct x; [congruence|]; destruct xs; discriminate).
  assert (A : array_of (node o c xs) (pieces 1 false false [] (join_byte xs ","%byte ++ [c]))) by (right; exists o, (join_byte xs ","%byte), c; auto). split.
  - intros B. apply (cuts_of c); [exact N|]. exact (array_unique _ _ _ A B).
  - intros C. rewrite (of_cuts c xs HC N C) in A. exact A.
Qed.
Lemma clear_le k j g : j <= k -> clear k g -> clear j g.
Proof. intros L C l Hl. apply C. lia. Qed.
Lemma ev_cut gs c : closer c -> cuts gs -> gs <> [] -> ev (at_ 1) (join_byte gs ","%byte ++ [c]) = at_ 0 -> Forall (fun g => ev (at_ 1) g = at_ 1) gs.
Proof.
  intros HC. induction gs as [|g gs IH]; intros C N E; [constructor|]. destruct gs as [|h gs].
  - destruct C as (z & R). apply run_ev in R. cbn [join_byte] in E. rewrite ev_app, R in E. constructor; [|constructor]. rewrite R. f_equal.
    assert (X : ev (at_ z) [c] = at_ (z - 1)) by (destruct HC as [->| ->]; reflexivity). rewrite X in E. injection E as E. lia.
  - destruct C as (R & C). apply run_ev in R. constructor; [exact R|]. apply IH; [exact C|discriminate|]. change (join_byte (g :: h :: gs) ",") with (g ++ [","%byte] ++ join_byte (h :: gs) ",") in E.
    rewrite <- !app_assoc, !ev_app, R in E. change (ev (at_ 1) [","%byte]) with (at_ 1) in E. rewrite ev_app. exact E.
Qed.
Lemma run_cut l gs c y : (l <= 0)%Z -> Forall (fun g => ev (at_ 1) g = at_ 1) gs -> run l (at_ 1) (join_byte gs ","%byte ++ [c]) = Some y -> Forall (fun g => run l (at_ 1) g = Some (at_ 1)) gs.
Proof.
  intros L. induction gs as [|g gs IH]; intros F R; [constructor|]. inversion F as [|? ? E F']; subst.
  assert (X : exists t, join_byte (g :: gs) ","%byte ++ [c] = g ++ t) by (destruct gs; eexists; cbn [join_byte]; [|rewrite <- app_assoc]; reflexivity). destruct X as (t & X).
  assert (RG : run l (at_ 1) g = Some (at_ 1)) by (rewrite X, run_app in R; destruct (run l (at_ 1) g) as [q|] eqn:Q; [|discriminate R]; rewrite <- E; f_equal; symmetry; exact (run_ev _ _ _ _ Q)).
  constructor; [exact RG|]. destruct gs as [|h gs]; [constructor|]. apply IH; [exact F'|]. change (join_byte (g :: h :: gs) ",") with (g ++ [","%byte] ++ join_byte (h :: gs) ",") in R. rewrite <- !app_assoc, run_app, RG in R. cbn [app run] in R.
  destruct (hit l (at_ 1) ","); [discriminate R|exact R].
Qed.
Lemma open_run l o : opener o -> (l <= 0)%Z -> run l (at_ 0) [o] = Some (at_ 1).
Proof. intros [->| ->] _; reflexivity. Qed.
(** From an array to its elements. *)
Lemma clear_down k o c gs : closes o c -> gs <> [] -> 1 <= k -> clear k (node o c gs) -> cuts gs -> Forall (clear (S k)) gs.
Proof.
  intros CL N K C CU. assert (HC : closer c) by (destruct CL as [(_ & ->)|(_ & ->)]; [left|right]; reflexivity). assert (HO : opener o) by (destruct CL as [(-> & _)|(-> & _)]; [left|right]; reflexivity).
  assert (X : forall l, (- Z.of_nat k < l <= 0)%Z -> run l (at_ 1) (join_byte gs ","%byte ++ [c]) = Some (at_ 0)).
  { intros l L. specialize (C l L). unfold node in C. rewrite run_app, (open_run l o HO (proj2 L)) in C. exact C. }
  assert (E : Forall (fun g => ev (at_ 1) g = at_ 1) gs) by (apply (ev_cut gs c HC CU N); apply (run_ev 0), X; lia).
  apply Forall_forall. intros g G l L. assert (E1 : ev (at_ 1) g = at_ 1) by (rewrite Forall_forall in E; apply E, G).
  destruct (Z.eq_dec l 0) as [->|NZ].
  - assert (R : exists z, run 1 (at_ 1) g = Some (at_ z)). { clear - CU G. induction gs as [|h gs IH]; [destruct G|]. destruct gs as [|i gs]; [destruct G as [->|[]]; exact CU|]. destruct CU as (R & CU). destruct G as [->|G]; [eauto|apply IH; assumption]. }
    destruct R as (z & R). pose proof (run_ev _ _ _ _ R) as Y. rewrite E1 in Y. rewrite <- Y in R. exact (run_shift (-1) 1 1 1 g R).
  - assert (L1 : (- Z.of_nat k < l + 1 <= 0)%Z) by lia. pose proof (run_cut (l + 1) gs c _ (proj2 L1) E (X _ L1)) as F. rewrite Forall_forall in F. pose proof (run_shift (-1) _ _ _ _ (F g G)) as R.
    replace (l + 1 + -1)%Z with l in R by lia. exact R.
Qed.
(** From the elements to the array. *)
Lemma clear_cuts gs : Forall (clear 1) gs -> cuts gs.
Proof.
  induction 1 as [|g gs C F IH]; [exact I|]. assert (R : run 1 (at_ 1) g = Some (at_ 1)) by exact (run_shift 1 0 0 0 g (C 0%Z ltac:(lia))). destruct gs; [exists 1%Z; exact R|split; [exact R|exact IH]].
Qed.
Lemma clear_up k o c gs : closes o c -> Forall (clear (S k)) gs -> clear k (node o c gs).
Proof.
  intros CL F l L. assert (HC : closer c) by (destruct CL as [(_ & ->)|(_ & ->)]; [left|right]; reflexivity). assert (HO : opener o) by (destruct CL as [(-> & _)|(-> & _)]; [left|right]; reflexivity).
  unfold node. rewrite run_app, (open_run l o HO (proj2 L)), run_app.
  assert (R : run l (at_ 1) (join_byte gs ","%byte) = Some (at_ 1)).
  { induction F as [|g gs C F IH]; [reflexivity|]. assert (R : run l (at_ 1) g = Some (at_ 1)). { pose proof (run_shift 1 (l - 1) 0 0 g (C (l - 1)%Z ltac:(lia))) as R. replace (l - 1 + 1)%Z with l in R by lia. exact R. }
    destruct gs as [|h gs]; [exact R|]. change (join_byte (g :: h :: gs) ",") with (g ++ [","%byte] ++ join_byte (h :: gs) ","). rewrite run_app, R. cbn [app run].
    replace (hit l (at_ 1) ",") with false; [exact IH|]. unfold hit, at_. cbn [negb andb]. change (byte_eqb "," ",") with true. cbn [andb]. symmetry. apply Z.eqb_neq. lia. }
  rewrite R. destruct HC as [->| ->]; reflexivity.
Qed.
Lemma literal_run l : forall n z d, length z <= n -> literal z -> run l (d, false, true) (z ++ [x22]) = Some (at_ d).
Proof.
  induction n as [|n IH]; intros z d L H; (destruct z as [|c z]; [reflexivity|]); [cbn in L; exfalso; lia|]. cbn [length literal] in *. cbn [app run hit negb andb]. unfold nx. cbn [negb]. destruct (byte_eqb c "\") eqn:B.
  - destruct z as [|x z]; [destruct H|]. cbn [app run hit negb andb nx length] in *. apply IH; [lia|exact H].
  - destruct H as (NQ & H). destruct (byte_eqb c x22) eqn:Q; [apply byte_eqb_eq in Q; congruence|]. apply IH; [lia|exact H].
Qed.
Lemma literal_clear k z : literal z -> clear k (quoted z).
Proof. intros H l _. unfold quoted. rewrite run_app. change (run l (at_ 0) [x22]) with (Some (0%Z, false, true)). apply (literal_run l (length z)); [lia|exact H]. Qed.
Lemma literal_neat k z : literal z -> neat k z.
Proof. intros H. apply neat_clear, literal_clear, H. Qed.
Lemma array_self k o c xs : closes o c -> Forall (fun x => x <> []) xs -> Forall (clear (S k)) xs -> array_of (node o c xs) xs.
Proof.
  intros CL NE F. destruct xs as [|x xs]; [left; split; reflexivity|]. apply array_cuts; [exact CL|discriminate|exact NE|]. apply clear_cuts. eapply Forall_impl; [|exact F]. intros g. apply clear_le. lia.
Qed.
Lemma array_clear k o c xs : closes o c -> Forall (fun x => x <> []) xs -> 1 <= k -> array_of (node o c xs) xs -> clear k (node o c xs) -> Forall (clear (S k)) xs.
Proof.
  intros CL NE K A C. destruct xs as [|x xs]; [constructor|]. apply (clear_down k o c); [exact CL|discriminate|exact K|exact C|]. apply array_cuts in A; [exact A|exact CL|discriminate|exact NE].
Qed.
Lemma quoted_ne l : Forall (fun x => x <> []) (map quoted l).
Proof. apply Forall_map, Forall_forall. intros x _. discriminate. Qed.
Lemma texts_ne {A} (o c : byte) (f : A -> list bytes) l : Forall (fun x => x <> []) (map (fun a => node o c (f a)) l).
Proof. apply Forall_map, Forall_forall. intros x _. discriminate. Qed.
Lemma cl1 : closes "(" ")". Proof. left. split; reflexivity. Qed.
Lemma cl2 : closes "[" "]". Proof. right. split; reflexivity. Qed.
Lemma Forall_neat k l : Forall (neat k) l <-> Forall (clear k) (map quoted l).
Proof. rewrite Forall_map. split; intros H; (eapply Forall_impl; [|exact H]); intros a; apply neat_clear. Qed.
Lemma ev_elems gs : Forall (fun g => ev (at_ 1) g = at_ 1) gs -> ev (at_ 1) (join_byte gs ","%byte) = at_ 1.
Proof.
  induction 1 as [|g gs E F IH]; [reflexivity|]. destruct gs as [|h gs]; [exact E|]. change (join_byte (g :: h :: gs) ",") with (g ++ [","%byte] ++ join_byte (h :: gs) ","). rewrite !ev_app, E. exact IH.
Qed.
(** Below the arrays, the strings are neat. *)
Lemma arrays_neat d : let outs := d_outputs d in let ins := d_inputs d in let env := d_env d in
  array_of (node "(" ")" (body_items outs ins (d_srcs d) (d_platform d) (d_builder d) (d_args d) env)) (body_items outs ins (d_srcs d) (d_platform d) (d_builder d) (d_args d) env) ->
  array_of (brackets (map output_text outs)) (map output_text outs) -> Forall (fun no => array_of (output_text no) (out_items no)) outs ->
  array_of (brackets (map input_text ins)) (map input_text ins) -> Forall (fun pn => array_of (input_text pn) (in_items pn) /\ array_of (brackets (map quoted (snd pn))) (map quoted (snd pn))) ins ->
  array_of (brackets (map quoted (d_srcs d))) (map quoted (d_srcs d)) -> array_of (brackets (map quoted (d_args d))) (map quoted (d_args d)) ->
  array_of (brackets (map env_text env)) (map env_text env) -> Forall (fun kv => array_of (env_text kv) (env_items kv)) env -> neat_drv d.
Proof.
  intros outs ins env B A0 F0 A1 F1 A2 A5 A6 F6. apply array_cuts in B; [|exact cl1|discriminate|repeat (constructor; [discriminate|]); constructor]. destruct B as (R0 & R1 & R2 & _ & _ & R5 & z & R6).
  assert (T1 : forall g, run 1 (at_ 1) g = Some (at_ 1) -> clear 1 g) by (intros g R l L; replace l with 0%Z by lia; exact (run_shift (-1) 1 1 1 g R)).
  assert (C6 : clear 1 (brackets (map env_text env))).
  { apply T1. rewrite R6. f_equal. rewrite <- (run_ev _ _ _ _ R6). change (brackets (map env_text env)) with (node "[" "]" (map env_text env)). apply (ev_node _ _ _ open2 close2). apply ev_elems, Forall_map. eapply Forall_impl; [|exact F6]. intros kv A.
    change (env_text kv) with (node "(" ")" (env_items kv)) in *. apply (ev_node _ _ _ open1 close1). apply array_cuts in A; [|exact cl1|discriminate|repeat (constructor; [discriminate|]); constructor]. destruct A as (X & _). apply ev_elems. constructor; [exact (run_ev _ _ _ _ X)|]. constructor; [|constructor].
    pose proof (run_shift 1 _ _ _ _ (literal_clear 1 _ (literal_escaped (snd kv)) 0%Z ltac:(lia))) as Y. exact (run_ev _ _ _ _ Y). }
  split; [|split; [|split; [|split]]].
  - pose proof (array_clear 1 _ _ _ cl2 (texts_ne "(" ")" out_items _) (le_n 1) A0 (T1 _ R0)) as C. rewrite Forall_map in C. rewrite Forall_forall in C, F0 |- *. intros no I.
    apply Forall_neat. change (Forall (clear 3) (out_items no)). apply (array_clear 2 "(" ")"); [exact cl1|apply quoted_ne|lia|exact (F0 no I)|exact (C no I)].
  - pose proof (array_clear 1 _ _ _ cl2 (texts_ne "(" ")" in_items _) (le_n 1) A1 (T1 _ R1)) as C. rewrite Forall_map in C. rewrite Forall_forall in C, F1 |- *. intros pn I. destruct (F1 pn I) as (X & Y).
    assert (G : Forall (clear 3) (in_items pn)) by (apply (array_clear 2 "(" ")"); [exact cl1|repeat (constructor; [discriminate|]); constructor|lia|exact X|exact (C pn I)]).
    inversion G as [|? ? G1 G2]; subst. inversion G2 as [|? ? G3 _]; subst. split; [apply neat_clear, G1|]. apply Forall_neat. apply (array_clear 3 _ _ _ cl2 (quoted_ne _) ltac:(lia) Y G3).
  - apply Forall_neat. exact (array_clear 1 _ _ _ cl2 (quoted_ne _) (le_n 1) A2 (T1 _ R2)).
  - apply Forall_neat. exact (array_clear 1 _ _ _ cl2 (quoted_ne _) (le_n 1) A5 (T1 _ R5)).
  - pose proof (array_clear 1 _ _ _ cl2 (texts_ne "(" ")" env_items _) (le_n 1) A6 C6) as C. rewrite Forall_map in C. rewrite Forall_forall in C, F6 |- *. intros kv I.
    assert (G : Forall (clear 3) (env_items kv)) by (apply (array_clear 2 "(" ")"); [exact cl1|repeat (constructor; [discriminate|]); constructor|lia|exact (F6 kv I)|exact (C kv I)]).
    inversion G as [|? ? G1 _]; subst. apply neat_clear, G1.
Qed.
(** And the other way round. *)
Lemma neat_reads json d : neat_drv d -> plain_text (d_platform d) -> plain_text (d_builder d) -> json_consistent json d ->
  strictly_sorted (mkeys (d_outputs d)) -> strictly_sorted (mkeys (d_inputs d)) -> strictly_sorted (mkeys (d_env d)) ->
  ~ In [] (mkeys (d_outputs d)) -> ~ In [] (mkeys (d_inputs d)) -> ~ In [] (mkeys (d_env d)) ->
  reads_drv json (drv_text (d_outputs d) (d_inputs d) (d_srcs d) (d_platform d) (d_builder d) (d_args d) (d_env d)) d.
Proof.
  intros (N0 & N1 & N2 & N5 & N6) PP PB J S0 S1 S6 K0 K1 K6.
  assert (NK : forall V (m : amap V) p, ~ In [] (mkeys m) -> In p m -> fst p <> []) by (intros V m p K I E; apply K; apply in_map_iff; exists p; auto).
  assert (C0 : Forall (clear 2) (map output_text (d_outputs d))) by (apply Forall_map; eapply Forall_impl; [|exact N0]; intros no H; apply Forall_neat in H; exact (clear_up 2 _ _ _ cl1 H)).
  assert (CI : Forall (fun pn => Forall (clear 3) (in_items pn)) (d_inputs d)).
  { eapply Forall_impl; [|exact N1]. intros pn (X & Y). constructor; [apply neat_clear, X|]. constructor; [|constructor]. apply Forall_neat in Y. exact (clear_up 3 _ _ _ cl2 Y). }
  assert (C1 : Forall (clear 2) (map input_text (d_inputs d))) by (apply Forall_map; eapply Forall_impl; [|exact CI]; intros pn H; exact (clear_up 2 _ _ _ cl1 H)).
  assert (CE : Forall (fun kv => Forall (clear 3) (env_items kv)) (d_env d)) by (eapply Forall_impl; [|exact N6]; intros kv X; constructor; [apply neat_clear, X|]; constructor; [apply literal_clear, literal_escaped|constructor]).
  assert (C6 : Forall (clear 2) (map env_text (d_env d))) by (apply Forall_map; eapply Forall_impl; [|exact CE]; intros kv H; exact (clear_up 2 _ _ _ cl1 H)).
  apply Forall_neat in N2, N5.
  exists (node "(" ")" (body_items (d_outputs d) (d_inputs d) (d_srcs d) (d_platform d) (d_builder d) (d_args d) (d_env d))), (brackets (map output_text (d_outputs d))), (brackets (map input_text (d_inputs d))),
    (brackets (map quoted (d_srcs d))), (brackets (map quoted (d_args d))), (brackets (map env_text (d_env d))), (map output_text (d_outputs d)), (map input_text (d_inputs d)), (map env_text (d_env d)).
  split; [reflexivity|]. split.
  { replace [_; _; _; _; _; _; _] with (body_items (d_outputs d) (d_inputs d) (d_srcs d) (d_platform d) (d_builder d) (d_args d) (d_env d)) by (unfold body_items; rewrite !escaped_plain by assumption; reflexivity).
    apply (array_self 0); [exact cl1|repeat (constructor; [discriminate|]); constructor|]. unfold body_items.
    repeat (constructor; [|]); [| | | | | | |constructor]; try (apply literal_clear, literal_escaped); apply (clear_up 1 _ _ _ cl2); assumption. }
  split; [exact (array_self 1 _ _ _ cl2 (texts_ne "(" ")" out_items _) C0)|]. split.
  { rewrite Forall_forall in N0. clear - N0 K0 NK. assert (X : forall l, incl l (d_outputs d) -> Forall2 reads_output (map output_text l) l); [|apply X; intros p; auto].
    induction l as [|no l IH]; intros I; constructor; [|apply IH; intros p Hp; apply I; right; exact Hp]. assert (IN : In no (d_outputs d)) by (apply I; left; reflexivity).
    split; [exact (NK _ _ _ K0 IN)|]. exists (out_items no), []. split; [apply (array_self 2 "(" ")"); [exact cl1|apply quoted_ne|apply Forall_neat, N0, IN]|]. split; [apply app_nil_r|]. split; [discriminate|constructor]. }
  split; [exact S0|]. split; [exact (array_self 1 _ _ _ cl2 (texts_ne "(" ")" in_items _) C1)|]. split.
  { rewrite Forall_forall in CI, N1. clear - CI N1 K1 NK. assert (X : forall l, incl l (d_inputs d) -> Forall2 reads_input (map input_text l) l); [|apply X; intros p; auto].
    induction l as [|pn l IH]; intros I; constructor; [|apply IH; intros p Hp; apply I; right; exact Hp]. assert (IN : In pn (d_inputs d)) by (apply I; left; reflexivity).
    split; [exact (NK _ _ _ K1 IN)|]. exists (brackets (map quoted (snd pn))). left. split; [apply (array_self 2 "(" ")"); [exact cl1|repeat (constructor; [discriminate|]); constructor|exact (CI pn IN)]|].
    apply (array_self 3 "[" "]"); [exact cl2|apply quoted_ne|]. apply Forall_neat, (proj2 (N1 pn IN)). }
  split; [exact S1|]. split; [exact (array_self 1 _ _ _ cl2 (quoted_ne _) N2)|]. split; [exact (array_self 1 _ _ _ cl2 (quoted_ne _) N5)|].
  split; [exact (array_self 1 _ _ _ cl2 (texts_ne "(" ")" env_items _) C6)|]. split; [|split; [exact S6|exact J]].
  rewrite Forall_forall in CE. clear - CE K6 NK. assert (X : forall l, incl l (d_env d) -> Forall2 reads_env (map env_text l) l); [|apply X; intros p; auto].
  induction l as [|kv l IH]; intros I; constructor; [|apply IH; intros p Hp; apply I; right; exact Hp]. assert (IN : In kv (d_env d)) by (apply I; left; reflexivity).
  split; [exact (NK _ _ _ K6 IN)|]. exists (escaped (snd kv)). split; [rewrite <- (unescape_eq (length (escaped (snd kv)))) by lia; symmetry; apply unescape_escaped|]. left.
  apply (array_self 2 "(" ")"); [exact cl1|repeat (constructor; [discriminate|]); constructor|exact (CE kv IN)].
Qed.
Lemma neat_same d e : same_drv d e -> neat_drv d -> neat_drv e.
Proof.
  intros (S1 & S2 & S3 & S4 & S5 & S6 & S7 & S8) (A & B & C & D & E). unfold neat_drv. rewrite <- S3, <- S7. repeat split; try assumption; eapply Permutation_Forall; eassumption.
Qed.
Theorem read_back_iff json d t r : wf_maps d -> ~ ambiguous d -> aterm d t -> src_data r = t -> fin r = EEOF ->
  (exists d', ReadDerivation json r = Ok d' /\ same_drv d d') <->
  drv_Validate d = Ok tt /\ json_consistent json d /\ plain_text (d_platform d) /\ plain_text (d_builder d) /\ neat_drv d.
Proof.
  intros (W1 & W2 & W3) NA T HR HF. split.
  - intros (d' & R & S). apply accept_iff in R. destruct R as (_ & R & V). rewrite HR in R.
    assert (V0 : drv_Validate d = Ok tt). { apply Validate_iff; [exact NA|]. apply (same_valid d' d (same_sym _ _ S)). apply Validate_iff; [|exact V]. intros X. apply NA. exact (same_ambiguous _ _ (same_sym _ _ S) X). }
    split; [exact V0|]. assert (RC := R). destruct RC as (body & f0 & f1 & f2 & f5 & f6 & os & is & es & _ & _ & _ & _ & O & _ & _ & I & _ & _ & _ & _ & E & J).
    pose proof (same_aterm _ _ _ S T) as (outs & ins & env & O1 & I1 & E1 & ET).
    assert (EO : outs = d_outputs d') by (apply (in_order_unique (d_outputs d')); [exact O1|split; [reflexivity|exact O]]). assert (EI : ins = d_inputs d') by (apply (in_order_unique (d_inputs d')); [exact I1|split; [reflexivity|exact I]]).
    assert (EE : env = d_env d') by (apply (in_order_unique (d_env d')); [exact E1|split; [reflexivity|exact E]]). subst outs ins env. rewrite ET in R.
    apply read_back in R. destruct R as (PP & PB & A). assert (N : neat_drv d') by (apply arrays_neat; apply A). apply (neat_same _ _ (same_sym _ _ S)) in N.
    destruct S as (Q1 & _ & _ & _ & Q5 & Q6 & _ & Q8). rewrite Q5, Q6. split; [|split; [exact PP|split; [exact PB|exact N]]]. unfold json_consistent in *. rewrite (same_mget _ _ (bs "__json") W3 Q8), Q1. exact J.
  - intros (V & J & PP & PB & N). destruct T as (outs & ins & env & (O1 & O2) & (I1 & I2) & (E1 & E2) & ->).
    set (d' := Drv (d_name d) outs (d_srcs d) ins (d_platform d) (d_builder d) (d_args d) env). assert (S : same_drv d d') by (unfold same_drv, d'; cbn; repeat split; auto). exists d'. split; [|exact S].
    assert (V' : drv_Validate d' = Ok tt) by (apply Validate_iff; [intros X; apply NA; exact (same_ambiguous _ _ (same_sym _ _ S) X)|apply (same_valid d d' S), Validate_iff; assumption]).
    pose proof (Validate_needs d' V') as (VO & VI & _ & _ & _ & _ & VE & _). apply accept_iff. split; [exact HF|]. split; [|exact V']. rewrite HR. apply (neat_reads json d' (neat_same _ _ S N) PP PB); [|exact O2|exact I2|exact E2| | |exact VE].
    + unfold json_consistent in *. unfold d' at 1 2. cbn [d_env d_name]. rewrite <- (same_mget _ _ (bs "__json") W3 E1). exact J.
    + intros X. apply in_map_iff in X. destruct X as (p & X & Y). destruct VO as [(o & VO & _)|(_ & VO)]; [rewrite VO in Y; destruct Y as [<-|[]]; discriminate X|]. rewrite Forall_forall in VO. exact (proj1 (VO p Y) X).
    + intros X. apply in_map_iff in X. destruct X as (p & X & Y). unfold valid_inputs in VI. rewrite Forall_forall in VI. destruct (VI p Y) as (Z & _). rewrite X in Z. discriminate Z.
Qed.

(** What was read is written in the order it was read in. *)
Lemma read_facts json r d : ReadDerivation json r = Ok d -> wf_maps d /\ json_consistent json d /\ drv_Validate d = Ok tt /\
  strictly_sorted (mkeys (d_outputs d)) /\ strictly_sorted (mkeys (d_inputs d)) /\ strictly_sorted (mkeys (d_env d)) /\
  ~ In [] (mkeys (d_outputs d)) /\ ~ In [] (mkeys (d_inputs d)) /\ ~ In [] (mkeys (d_env d)).
Proof.
  intros R. apply accept_iff in R. destruct R as (_ & R & V). destruct R as (body & f0 & f1 & f2 & f5 & f6 & os & is & es & _ & _ & _ & _ & O & _ & _ & I & _ & _ & _ & _ & E & J).
  split; [repeat split; apply strict_sorted_nodup; assumption|]. split; [exact J|]. split; [exact V|]. split; [exact O|]. split; [exact I|]. split; [exact E|].
  pose proof (Validate_needs d V) as (VO & VI & _ & _ & _ & _ & VE & _). split; [|split; [|exact VE]].
  - intros X. apply in_map_iff in X. destruct X as (p & X & Y). destruct VO as [(o & VO & _)|(_ & VO)]; [rewrite VO in Y; destruct Y as [<-|[]]; discriminate X|]. rewrite Forall_forall in VO. exact (proj1 (VO p Y) X).
  - intros X. apply in_map_iff in X. destruct X as (p & X & Y). unfold valid_inputs in VI. rewrite Forall_forall in VI. destruct (VI p Y) as (Z & _). rewrite X in Z. discriminate Z.
Qed.
Theorem again_iff json r d : ReadDerivation json r = Ok d ->
  exists t, (forall w, Forall (eq None) (plan w) -> exists pl, WriteDerivation d w = (Ok tt, Sink (out w ++ t) pl)) /\
    forall r', src_data r' = t -> fin r' = EEOF ->
      (ReadDerivation json r' = Ok d <-> plain_text (d_platform d) /\ plain_text (d_builder d) /\ neat_drv d).
Proof.
  intros R. destruct (read_facts json r d R) as (W & J & V & SO & SI & SE & NO & NI & NE).
  set (t := drv_text (d_outputs d) (d_inputs d) (d_srcs d) (d_platform d) (d_builder d) (d_args d) (d_env d)). exists t.
  assert (T : forall t', aterm d t' -> t' = t).
  { intros t' (os & is & es & O & I & E & ->). unfold t. f_equal; [apply (in_order_unique (d_outputs d)); [exact O|]|apply (in_order_unique (d_inputs d)); [exact I|]|apply (in_order_unique (d_env d)); [exact E|]]; split; auto. }
  split.
  - intros w G. destruct (write_good d w W G) as (t' & pl & A & E). exists pl. rewrite <- (T t' A). exact E.
  - intros r' D F. rewrite accept_iff, D. split.
    + intros (_ & X & _). apply read_back in X. destruct X as (PP & PB & X). split; [exact PP|]. split; [exact PB|]. assert (Y : neat_drv d) by (apply arrays_neat; apply X). exact Y.
    + intros (PP & PB & N). split; [exact F|]. split; [exact (neat_reads json d N PP PB J SO SI SE NO NI NE)|exact V].
Qed.
