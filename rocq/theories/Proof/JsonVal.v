(** JSON numbers and values: the decoder against the grammar. *)
From Verif Require Import Base.Bytes Base.BytesFacts Model.GoStd Model.Json Spec.JsonSpec Proof.JsonUtf8 Proof.JsonStr.
Ltac Zify.zify_post_hook ::= idtac.

Scheme jvalue_min := Minimality for jvalue Sort Prop
with jelems_min := Minimality for jelems Sort Prop
with jmembers_min := Minimality for jmembers Sort Prop.
Combined Scheme jtext_mutind from jvalue_min, jelems_min, jmembers_min.

(** * Lists of bytes, by computation *)
Lemma in_sweep (l : list byte) (P : byte -> bool) : forallb P l = true -> forall c, In c l -> P c = true.
Proof. rewrite forallb_forall. auto. Qed.
Lemma space_in c : is_space c = true <-> In c [x20; x09; x0a; x0d].
Proof.
  split.
  - unfold is_space. rewrite !orb_true_iff, !byte_eqb_eq. cbn [In]. intuition congruence.
  - exact (in_sweep [x20; x09; x0a; x0d] is_space eq_refl c).
Qed.
Lemma digit_in c : is_digit c = true <-> In c (bs "0123456789").
Proof.
  split.
  - intros H. pose proof (byte_sweep (fun c => implb (is_digit c) (existsb (byte_eqb c) (bs "0123456789"))) eq_refl c) as S. cbn beta in S. rewrite H in S. cbn [implb] in S.
    apply existsb_exists in S. destruct S as (x & I & E). apply byte_eqb_eq in E. subst. exact I.
  - exact (in_sweep (bs "0123456789") is_digit eq_refl c).
Qed.
Lemma skip_white w t : white w -> skip_ws (w ++ t) = skip_ws t.
Proof. induction 1 as [|c w H F IH]; [reflexivity|]. cbn [app skip_ws]. apply space_in in H. rewrite H. exact IH. Qed.
Lemma skip_ws_split t : exists w, white w /\ t = w ++ skip_ws t /\ match skip_ws t with [] => True | c :: _ => is_space c = false end.
Proof.
  induction t as [|c t IH]; [exists []; repeat split; constructor|]. cbn [skip_ws]. destruct (is_space c) eqn:E.
  - destruct IH as (w & W & T & F). exists (c :: w). split; [constructor; [apply space_in; exact E|exact W]|]. split; [cbn [app]; congruence|exact F].
  - exists []. split; [constructor|]. split; [reflexivity|exact E].
Qed.
Lemma skip_id c t : is_space c = false -> skip_ws (c :: t) = c :: t.
Proof. intros H. cbn [skip_ws]. rewrite H. reflexivity. Qed.

(** * Numbers *)
Definition stops (rest : bytes) : Prop :=
  match rest with [] => True | c :: _ => is_digit c = false /\ byte_eqb c "." = false /\ byte_eqb c "e" = false /\ byte_eqb c "E" = false end.
Lemma span_all t rest : Forall (fun c => In c (bs "0123456789")) t -> match rest with [] => True | c :: _ => is_digit c = false end -> span_digits (t ++ rest) = (t, rest).
Proof.
  intros F S. induction F as [|c t H F IH].
  - cbn [app]. destruct rest as [|c rest]; [reflexivity|]. cbn [span_digits]. rewrite S. reflexivity.
  - cbn [app span_digits]. apply digit_in in H. rewrite H, IH. reflexivity.
Qed.
Lemma span_sound t a b : span_digits t = (a, b) -> Forall (fun c => In c (bs "0123456789")) a /\ t = a ++ b.
Proof.
  revert a b. induction t as [|c t IH]; intros a b H; cbn [span_digits] in H.
  - assert (a = [] /\ b = []) as (-> & ->) by (split; congruence). split; [constructor|reflexivity].
  - destruct (is_digit c) eqn:D.
    + destruct (span_digits t) as (a' & b') eqn:E. destruct (IH _ _ eq_refl) as (F & ->). assert (a = c :: a' /\ b = b') as (-> & ->) by (split; congruence). split; [constructor; [apply digit_in; exact D|exact F]|reflexivity].
    + assert (a = [] /\ b = c :: t) as (-> & ->) by (split; congruence). split; [constructor|reflexivity].
Qed.
Lemma dec_exp_complete e rest : jexp e -> stops rest -> dec_exp (e ++ rest) = Some (e, rest).
Proof.
  intros H S. destruct H as [|e sg t E G (NE & D)].
  - cbn [app]. destruct rest as [|c rest]; [reflexivity|]. destruct S as (_ & _ & S1 & S2). cbn [dec_exp]. rewrite S1, S2. reflexivity.
  - cbn [app dec_exp]. rewrite (in_sweep (bs "eE") (fun e => byte_eqb e "e" || byte_eqb e "E") eq_refl _ E).
    assert (R : match rest with [] => True | c :: _ => is_digit c = false end) by (destruct rest; [exact I|apply S]).
    assert (SP : span_digits (t ++ rest) = (t, rest)) by (apply span_all; assumption).
    assert (X : match (sg ++ t) ++ rest with s :: t2 => if byte_eqb s "+" || byte_eqb s "-" then ([s], t2) else ([], (sg ++ t) ++ rest) | [] => ([], (sg ++ t) ++ rest) end = (sg, t ++ rest)).
    { destruct G as [<-|[<-|[<-|[]]]]; [|reflexivity..]. cbn [app]. destruct t as [|c t]; [congruence|]. cbn [app]. inversion D as [|? ? D1 _]; subst.
      rewrite (in_sweep (bs "0123456789") (fun s => negb (byte_eqb s "+" || byte_eqb s "-")) eq_refl _ D1 : negb _ = true) || (pose proof (in_sweep (bs "0123456789") (fun s => negb (byte_eqb s "+" || byte_eqb s "-")) eq_refl _ D1) as Q; apply negb_true_iff in Q; rewrite Q). reflexivity. }
    rewrite X, SP. destruct t; [congruence|]. reflexivity.
Qed.
Lemma dec_frac_complete f rest : jfrac f -> stops rest \/ (exists e r, rest = e ++ r /\ jexp e /\ stops r) -> dec_frac (f ++ rest) = Some (f, rest).
Proof.
  intros H S. assert (R : match rest with [] => True | c :: _ => is_digit c = false /\ byte_eqb c "." = false end).
  { destruct S as [S|(e & r & -> & J & S)]; [destruct rest; [exact I|]; destruct S as (S1 & S2 & _); auto|].
    destruct J as [|e sg t E _ _]; [cbn [app]; destruct r; [exact I|]; destruct S as (S1 & S2 & _); auto|]. cbn [app].
    pose proof (in_sweep (bs "eE") (fun c => negb (is_digit c) && negb (byte_eqb c ".")) eq_refl _ E) as Q. apply andb_prop in Q. destruct Q as (Q1 & Q2). apply negb_true_iff in Q1, Q2. auto. }
  destruct H as [|t (NE & D)].
  - cbn [app]. destruct rest as [|c rest]; [reflexivity|]. destruct R as (_ & R). cbn [dec_frac]. rewrite R. reflexivity.
  - cbn [app bs list_byte_of_string]. change (bs "." ++ t) with ("."%byte :: t). cbn [app dec_frac]. change (byte_eqb "." ".") with true. cbv iota.
    rewrite span_all; [|exact D|destruct rest; [exact I|apply R]]. destruct t; [congruence|reflexivity].
Qed.
Lemma dec_int_complete i rest : jint i -> match rest with [] => True | c :: _ => is_digit c = false end -> dec_int (i ++ rest) = Some (i, rest).
Proof.
  intros H S. destruct H as [|c t C D]; [reflexivity|]. cbn [app dec_int].
  pose proof (in_sweep (bs "123456789") (fun c => negb (byte_eqb c "0") && is_digit c) eq_refl _ C) as Q. apply andb_prop in Q. destruct Q as (Q1 & Q2). apply negb_true_iff in Q1. rewrite Q1.
  change (c :: t ++ rest) with ((c :: t) ++ rest). rewrite span_all; [reflexivity|constructor; [apply digit_in; exact Q2|exact D]|exact S].
Qed.
Lemma dec_number_complete t rest : jnumber t -> stops rest -> dec_number (t ++ rest) = Some (t, rest).
Proof.
  intros (sg & i & f & e & G & I & F & E & ->) S. unfold dec_number. rewrite <- !app_assoc.
  assert (X : match sg ++ i ++ f ++ e ++ rest with c :: t' => if byte_eqb c "-" then ([c], t') else ([], sg ++ i ++ f ++ e ++ rest) | [] => ([], sg ++ i ++ f ++ e ++ rest) end = (sg, i ++ f ++ e ++ rest)).
  { destruct G as [<-|[<-|[]]]; [|reflexivity]. cbn [app]. destruct I as [|c t C D]; [reflexivity|]. cbn [app].
    pose proof (in_sweep (bs "123456789") (fun c => negb (byte_eqb c "-")) eq_refl _ C) as Q. apply negb_true_iff in Q. rewrite Q. reflexivity. }
  match goal with |- (let '(_, _) := ?m in _) = _ => replace m with (sg, i ++ f ++ e ++ rest) by (symmetry; exact X) end. rewrite dec_int_complete; [|exact I|].
  - rewrite dec_frac_complete; [|exact F|right; exists e, rest; auto]. rewrite dec_exp_complete; [reflexivity|exact E|exact S].
  - destruct F as [|t _]; [|reflexivity]. cbn [app]. destruct E as [|e sg' t E _ _]; [cbn [app]; destruct rest; [exact Logic.I|apply S]|]. cbn [app].
    pose proof (in_sweep (bs "eE") (fun c => negb (is_digit c)) eq_refl _ E) as Q. apply negb_true_iff in Q. exact Q.
Qed.
Lemma dec_number_sound t n rest : dec_number t = Some (n, rest) -> jnumber n /\ t = n ++ rest.
Proof.
  unfold dec_number. intros H.
  assert (X : exists sg t1, match t with c :: t' => if byte_eqb c "-" then ([c], t') else ([], t) | [] => ([], t) end = (sg, t1) /\ In sg [[]; bs "-"] /\ t = sg ++ t1).
  { destruct t as [|c t]; [eexists _, _; split; [reflexivity|]; cbn; auto|]. destruct (byte_eqb c "-") eqn:E; [|eexists _, _; split; [reflexivity|]; cbn; auto].
    apply byte_eqb_eq in E. subst. eexists _, _. split; [reflexivity|]. cbn; auto. }
  destruct X as (sg & t1 & X & G & ->). rewrite X in H. clear X.
  destruct (dec_int t1) as [(i & t2)|] eqn:EI; [|discriminate H]. destruct (dec_frac t2) as [(f & t3)|] eqn:EF; [|discriminate H]. destruct (dec_exp t3) as [(e & t4)|] eqn:EE; [|discriminate H].
  assert (n = sg ++ i ++ f ++ e /\ t4 = rest) as (-> & ->) by (split; congruence). clear H.
  assert (I : jint i /\ t1 = i ++ t2).
  { destruct t1 as [|c t1]; [discriminate EI|]. cbn [dec_int] in EI. destruct (byte_eqb c "0") eqn:Z.
    - apply byte_eqb_eq in Z. assert (i = [c] /\ t1 = t2) as (-> & ->) by (split; congruence). subst. split; [constructor|reflexivity].
    - destruct (span_digits (c :: t1)) as (a & b) eqn:SP. destruct (span_sound _ _ _ SP) as (FD & EQ). destruct a as [|x a]; [discriminate EI|]. assert (i = x :: a /\ b = t2) as (-> & ->) by (split; congruence).
      split; [|exact EQ]. cbn [app] in EQ. assert (x = c) by congruence. subst x. inversion FD as [|? ? D1 D2]; subst. constructor; [|exact D2].
      pose proof (in_sweep (bs "0123456789") (fun c => byte_eqb c "0" || existsb (byte_eqb c) (bs "123456789")) eq_refl _ D1) as Q. cbn beta in Q. rewrite Z in Q. cbn [orb] in Q. apply existsb_exists in Q. destruct Q as (x & Q1 & Q2). apply byte_eqb_eq in Q2. subst. exact Q1. }
  assert (F : jfrac f /\ t2 = f ++ t3).
  { destruct t2 as [|c t2]; cbn [dec_frac] in EF; [assert (f = [] /\ t3 = []) as (-> & ->) by (split; congruence); split; [constructor|reflexivity]|]. destruct (byte_eqb c ".") eqn:Z.
    - apply byte_eqb_eq in Z. destruct (span_digits t2) as (a & b) eqn:SP. destruct (span_sound _ _ _ SP) as (FD & EQ). destruct a as [|x a]; [discriminate EF|]. assert (f = c :: x :: a /\ b = t3) as (-> & ->) by (split; congruence).
      subst c t2. split; [|reflexivity]. change ("."%byte :: x :: a) with (bs "." ++ x :: a). constructor. split; [discriminate|exact FD].
    - assert (f = [] /\ t3 = c :: t2) as (-> & ->) by (split; congruence). split; [constructor|reflexivity]. }
  assert (E : jexp e /\ t3 = e ++ rest).
  { destruct t3 as [|c t3]; cbn [dec_exp] in EE; [assert (e = [] /\ rest = []) as (-> & ->) by (split; congruence); split; [constructor|reflexivity]|]. destruct (byte_eqb c "e" || byte_eqb c "E") eqn:Z.
    - assert (X : exists s' t', match t3 with s :: t2 => if byte_eqb s "+" || byte_eqb s "-" then ([s], t2) else ([], t3) | [] => ([], t3) end = (s', t') /\ In s' [[]; bs "+"; bs "-"] /\ t3 = s' ++ t').
      { destruct t3 as [|s t3]; [eexists _, _; split; [reflexivity|]; cbn; auto|]. destruct (byte_eqb s "+" || byte_eqb s "-") eqn:Q; [|eexists _, _; split; [reflexivity|]; cbn; auto].
        apply orb_prop in Q. destruct Q as [Q|Q]; apply byte_eqb_eq in Q; subst; eexists _, _; (split; [reflexivity|]); cbn; auto. }
      destruct X as (s' & t' & X & SG & ->). rewrite X in EE. destruct (span_digits t') as (a & b) eqn:SP. destruct (span_sound _ _ _ SP) as (FD & EQ). destruct a as [|x a]; [discriminate EE|].
      assert (e = c :: s' ++ x :: a /\ b = rest) as (-> & ->) by (split; congruence). split.
      + constructor; [|exact SG|split; [discriminate|exact FD]]. apply orb_prop in Z. cbn. destruct Z as [Z|Z]; apply byte_eqb_eq in Z; subst; auto.
      + rewrite EQ. cbn [app]. rewrite <- app_assoc. reflexivity.
    - assert (e = [] /\ rest = c :: t3) as (-> & ->) by (split; congruence). split; [constructor|reflexivity]. }
  destruct I as (I & ->), F as (F & ->), E as (E & ->). split; [exists sg, i, f, e; auto 10|rewrite <- !app_assoc; reflexivity].
Qed.

(** * Values *)
Definition starter (c : byte) : bool := negb (is_space c) && negb (existsb (byte_eqb c) ["]"; "}"; ","; ":"]%byte).
Lemma number_first t : jnumber t -> exists c t', t = c :: t' /\ (c = "-"%byte \/ is_digit c = true).
Proof.
  intros (sg & i & f & e & G & I & _ & _ & ->). destruct G as [<-|[<-|[]]]; [|eexists _, _; split; [reflexivity|left; reflexivity]].
  destruct I as [|c t C D]; eexists _, _; (split; [reflexivity|right]); [reflexivity|]. exact (in_sweep (bs "123456789") is_digit eq_refl _ C).
Qed.
Lemma number_char c : c = "-"%byte \/ is_digit c = true ->
  starter c = true /\ byte_eqb c quote_c = false /\ byte_eqb c "[" = false /\ byte_eqb c "{" = false /\ byte_eqb c "n" = false /\ byte_eqb c "t" = false /\ byte_eqb c "f" = false.
Proof.
  intros H. assert (B : forallb (fun c => implb (byte_eqb c "-" || is_digit c) (starter c && negb (byte_eqb c quote_c) && negb (byte_eqb c "[") && negb (byte_eqb c "{") && negb (byte_eqb c "n") && negb (byte_eqb c "t") && negb (byte_eqb c "f"))) all_bytes = true) by reflexivity.
  pose proof (byte_sweep _ B c) as S. cbn beta in S. replace (byte_eqb c "-" || is_digit c) with true in S by (destruct H as [->| ->]; [reflexivity|rewrite orb_true_r; reflexivity]). cbn [implb] in S.
  rewrite !andb_true_iff, !negb_true_iff in S. tauto.
Qed.
Lemma value_first lax v t : jvalue lax v t -> exists c t', t = c :: t' /\ starter c = true.
Proof.
  intros H. destruct H as [| | |t N|s t (u & _ & ->)|w W|l t E|w W|l t E]; try (eexists _, _; split; reflexivity).
  destruct (number_first t N) as (c & t' & -> & C). exists c, t'. split; [reflexivity|]. apply number_char. exact C.
Qed.
Lemma starter_space c : starter c = true -> is_space c = false.
Proof. unfold starter. rewrite andb_true_iff, negb_true_iff. tauto. Qed.
Lemma starter_not c : starter c = true -> byte_eqb c "]" = false /\ byte_eqb c "}" = false.
Proof. unfold starter. rewrite andb_true_iff, !negb_true_iff. cbn [existsb]. rewrite !orb_false_iff. tauto. Qed.
Lemma elems_first lax l t rest : jelems lax l t -> exists c r, skip_ws (t ++ rest) = c :: r /\ starter c = true.
Proof.
  intros H. destruct H as [w1 v t w2 W1 V W2|w1 v t w2 l t' W1 V W2 H]; destruct (value_first _ _ _ V) as (c & u & -> & S); rewrite <- !app_assoc, (skip_white _ _ W1); cbn [app]; rewrite (skip_id _ _ (starter_space _ S)); eauto.
Qed.
Lemma quote_starter : starter x22 = true. Proof. reflexivity. Qed.
Lemma members_first lax l t rest : jmembers lax l t -> exists r, skip_ws (t ++ rest) = x22 :: r.
Proof.
  intros H. destruct H as [w1 k tk w2 w3 v t w4 W1 (u & _ & ->)|w1 k tk w2 w3 v t w4 l t' W1 (u & _ & ->)]; rewrite <- !app_assoc, (skip_white _ _ W1); cbn [app]; rewrite (skip_id _ _ (eq_refl : is_space x22 = false)); eauto.
Qed.
Lemma stops_white w c rest : white w -> stops (c :: rest) -> stops (w ++ c :: rest).
Proof.
  intros W S. destruct W as [|x w X W]; [exact S|]. cbn [app stops].
  pose proof (in_sweep [x20; x09; x0a; x0d] (fun c => negb (is_digit c) && negb (byte_eqb c ".") && negb (byte_eqb c "e") && negb (byte_eqb c "E")) eq_refl _ X) as Q. rewrite !andb_true_iff, !negb_true_iff in Q. tauto.
Qed.
Lemma list_max_le l n : list_max l <= n <-> Forall (fun k => k <= n) l.
Proof. apply list_max_le. Qed.

Lemma word_complete w v r : dec_word w v (bs w ++ r) = Some (v, r).
Proof. unfold dec_word. rewrite has_prefix_app, skipn_app, skipn_all, Nat.sub_diag. reflexivity. Qed.
Lemma dec_value_S k d t : dec_value (S k) d t =
      match skip_ws t with
      | [] => None
      | c :: t' =>
          if byte_eqb c quote_c then
            match dec_chars (S (length t')) t' with Some (s, r) => Some (JStr s, r) | None => None end
          else if byte_eqb c "[" then
            if (max_depth <=? d)%N then None
            else if match skip_ws t' with b :: _ => byte_eqb b "]" | [] => false end then Some (JArr [], tl (skip_ws t'))
            else match dec_elems k (d + 1) t' with Some (l, r) => Some (JArr l, r) | None => None end
          else if byte_eqb c "{" then
            if (max_depth <=? d)%N then None
            else if match skip_ws t' with b :: _ => byte_eqb b "}" | [] => false end then Some (JObj [], tl (skip_ws t'))
            else match dec_members k (d + 1) t' with Some (l, r) => Some (JObj l, r) | None => None end
          else if byte_eqb c "n" then dec_word "null" JNull (c :: t')
          else if byte_eqb c "t" then dec_word "true" (JBool true) (c :: t')
          else if byte_eqb c "f" then dec_word "false" (JBool false) (c :: t')
          else match dec_number (c :: t') with Some (n, r) => Some (JNum n, r) | None => None end
      end.
Proof. reflexivity. Qed.
Lemma dec_elems_S k d t : dec_elems (S k) d t =
      match dec_value k d t with
      | None => None
      | Some (v, t1) =>
          match skip_ws t1 with
          | [] => None
          | c :: t2 =>
              if byte_eqb c "," then match dec_elems k d t2 with Some (l, r) => Some (v :: l, r) | None => None end
              else if byte_eqb c "]" then Some ([v], t2)
              else None
          end
      end.
Proof. reflexivity. Qed.
Lemma dec_members_S k d t : dec_members (S k) d t =
      match skip_ws t with
      | [] => None
      | q :: t0 =>
          if negb (byte_eqb q quote_c) then None else
          match dec_chars (S (length t0)) t0 with
          | None => None
          | Some (key, t1) =>
              match skip_ws t1 with
              | [] => None
              | c :: t2 =>
                  if negb (byte_eqb c ":") then None else
                  match dec_value k d t2 with
                  | None => None
                  | Some (v, t3) =>
                      match skip_ws t3 with
                      | [] => None
                      | c2 :: t4 =>
                          if byte_eqb c2 "," then match dec_members k d t4 with Some (l, r) => Some ((key, v) :: l, r) | None => None end
                          else if byte_eqb c2 "}" then Some ([(key, v)], t4)
                          else None
                      end
                  end
              end
          end
      end.
Proof. reflexivity. Qed.
Lemma string_complete lax s t rest : jstring lax s t -> exists t0, t ++ rest = quote_c :: t0 /\ dec_chars (S (length t0)) t0 = Some (s, rest).
Proof.
  intros (u & J & ->). exists (u ++ x22 :: rest). split; [cbn [app]; rewrite <- app_assoc; reflexivity|]. apply (dec_chars_complete lax); [exact J|]. rewrite app_length. lia.
Qed.
Definition is_num (v : jv) : bool := match v with JNum _ => true | _ => false end.
Theorem dec_complete lax :
  (forall v t, jvalue lax v t -> forall w rest d fuel, white w -> (N.of_nat (nesting v) + d <= max_depth)%N -> (is_num v = true -> stops rest) -> 2 * length t < fuel -> dec_value fuel d (w ++ t ++ rest) = Some (v, rest)) /\
  (forall l t, jelems lax l t -> forall rest d fuel, (N.of_nat (list_max (map nesting l)) + d <= max_depth)%N -> 2 * length t + 1 < fuel -> dec_elems fuel d (t ++ "]"%byte :: rest) = Some (l, rest)) /\
  (forall l t, jmembers lax l t -> forall rest d fuel, (N.of_nat (list_max (map (fun p => nesting (snd p)) l)) + d <= max_depth)%N -> 2 * length t + 1 < fuel -> dec_members fuel d (t ++ "}"%byte :: rest) = Some (l, rest)).
Proof.
  apply jtext_mutind.
  - intros w rest d fuel W _ _ L. destruct fuel as [|k]; [lia|]. rewrite dec_value_S, (skip_white _ _ W). exact (word_complete "null" JNull rest).
  - intros w rest d fuel W _ _ L. destruct fuel as [|k]; [lia|]. rewrite dec_value_S, (skip_white _ _ W). exact (word_complete "true" (JBool true) rest).
  - intros w rest d fuel W _ _ L. destruct fuel as [|k]; [lia|]. rewrite dec_value_S, (skip_white _ _ W). exact (word_complete "false" (JBool false) rest).
  - intros t N w rest d fuel W _ S L. destruct fuel as [|k]; [lia|]. rewrite dec_value_S, (skip_white _ _ W). destruct (number_first t N) as (c & t' & E & C). destruct (number_char c C) as (Q0 & Q1 & Q2 & Q3 & Q4 & Q5 & Q6).
    pose proof (dec_number_complete t rest N (S eq_refl)) as D. rewrite E in D |- *. cbn [app] in D |- *. rewrite (skip_id _ _ (starter_space _ Q0)), Q1, Q2, Q3, Q4, Q5, Q6, D. reflexivity.
  - intros s t J w rest d fuel W _ _ L. destruct fuel as [|k]; [lia|]. rewrite dec_value_S, (skip_white _ _ W). destruct (string_complete lax s t rest J) as (t0 & E & D). rewrite E, (skip_id _ _ (eq_refl : is_space quote_c = false)).
    change (byte_eqb quote_c quote_c) with true. cbv iota. rewrite D. reflexivity.
  - intros w0 W0 w rest d fuel W N _ L. destruct fuel as [|k]; [lia|]. rewrite dec_value_S, (skip_white _ _ W). rewrite <- !app_assoc. change (bs "[" ++ w0 ++ bs "]" ++ rest) with ("["%byte :: (w0 ++ "]"%byte :: rest)).
    rewrite (skip_id _ _ (eq_refl : is_space "[" = false)). change (byte_eqb "[" quote_c) with false. change (byte_eqb "[" "[") with true. cbv iota. rewrite (skip_white _ _ W0).
    destruct (N.leb_spec max_depth d) as [M|M]; [cbn [nesting map list_max fold_right] in N; lia|]. reflexivity.
  - intros l t E IH w rest d fuel W N _ L. destruct fuel as [|k]; [lia|]. rewrite dec_value_S, (skip_white _ _ W). rewrite <- !app_assoc. change (bs "[" ++ t ++ bs "]" ++ rest) with ("["%byte :: (t ++ "]"%byte :: rest)).
    rewrite (skip_id _ _ (eq_refl : is_space "[" = false)). change (byte_eqb "[" quote_c) with false. change (byte_eqb "[" "[") with true. cbv iota.
    cbn [nesting] in N. destruct (N.leb_spec max_depth d) as [M|M]; [lia|]. destruct (elems_first _ _ _ ("]"%byte :: rest) E) as (c & r & -> & SC). destruct (starter_not _ SC) as (-> & _).
    rewrite !app_length in L. change (length (bs "[")) with 1 in L. change (length (bs "]")) with 1 in L. rewrite IH; [reflexivity|lia|lia].
  - intros w0 W0 w rest d fuel W N _ L. destruct fuel as [|k]; [lia|]. rewrite dec_value_S, (skip_white _ _ W). rewrite <- !app_assoc. change (bs "{" ++ w0 ++ bs "}" ++ rest) with ("{"%byte :: (w0 ++ "}"%byte :: rest)).
    rewrite (skip_id _ _ (eq_refl : is_space "{" = false)). change (byte_eqb "{" quote_c) with false. change (byte_eqb "{" "[") with false. change (byte_eqb "{" "{") with true. cbv iota. rewrite (skip_white _ _ W0).
    destruct (N.leb_spec max_depth d) as [M|M]; [cbn [nesting map list_max fold_right] in N; lia|]. reflexivity.
  - intros l t E IH w rest d fuel W N _ L. destruct fuel as [|k]; [lia|]. rewrite dec_value_S, (skip_white _ _ W). rewrite <- !app_assoc. change (bs "{" ++ t ++ bs "}" ++ rest) with ("{"%byte :: (t ++ "}"%byte :: rest)).
    rewrite (skip_id _ _ (eq_refl : is_space "{" = false)). change (byte_eqb "{" quote_c) with false. change (byte_eqb "{" "[") with false. change (byte_eqb "{" "{") with true. cbv iota.
    cbn [nesting] in N. destruct (N.leb_spec max_depth d) as [M|M]; [lia|]. destruct (members_first _ _ _ ("}"%byte :: rest) E) as (r & ->). change (byte_eqb x22 "}") with false. cbv iota.
    rewrite !app_length in L. change (length (bs "{")) with 1 in L. change (length (bs "}")) with 1 in L. rewrite IH; [reflexivity|lia|lia].
  - intros w1 v t w2 W1 V IH W2 rest d fuel N L. destruct fuel as [|k]; [lia|]. rewrite dec_elems_S, <- !app_assoc. rewrite !app_length in L. cbn [map list_max fold_right] in N. rewrite Nat.max_0_r in N.
    rewrite IH; [|exact W1|exact N|intros _; apply stops_white; [exact W2|repeat split]|lia]. rewrite (skip_white _ _ W2). reflexivity.
  - intros w1 v t w2 l t' W1 V IH W2 H IH2 rest d fuel N L. destruct fuel as [|k]; [lia|]. rewrite dec_elems_S, <- !app_assoc. rewrite !app_length in L. cbn [map] in N. change (list_max (nesting v :: map nesting l)) with (Nat.max (nesting v) (list_max (map nesting l))) in N.
    change (length (bs ",")) with 1 in L. destruct (value_first _ _ _ V) as (c0 & t0 & ET & _). assert (1 <= length t) by (rewrite ET; cbn [length]; lia).
    change (bs "," ++ t' ++ "]"%byte :: rest) with (","%byte :: (t' ++ "]"%byte :: rest)).
    rewrite IH; [|exact W1|lia|intros _; apply stops_white; [exact W2|repeat split]|lia]. rewrite (skip_white _ _ W2), (skip_id _ _ (eq_refl : is_space "," = false)). change (byte_eqb "," ",") with true. cbv iota.
    rewrite IH2; [reflexivity|lia|lia].
  - intros w1 key tk w2 w3 v t w4 W1 K W2 W3 V IH W4 rest d fuel N L. destruct fuel as [|k]; [lia|]. rewrite dec_members_S, <- !app_assoc. rewrite !app_length in L. cbn [map list_max fold_right snd] in N. rewrite Nat.max_0_r in N.
    rewrite (skip_white _ _ W1). destruct (string_complete lax _ _ (w2 ++ bs ":" ++ w3 ++ t ++ w4 ++ "}"%byte :: rest) K) as (t0 & E0 & D0). rewrite E0, (skip_id _ _ (eq_refl : is_space quote_c = false)). change (negb (byte_eqb quote_c quote_c)) with false. cbv iota. rewrite D0.
    rewrite (skip_white _ _ W2). change (bs ":" ++ w3 ++ t ++ w4 ++ "}"%byte :: rest) with (":"%byte :: (w3 ++ t ++ w4 ++ "}"%byte :: rest)). rewrite (skip_id _ _ (eq_refl : is_space ":" = false)). change (negb (byte_eqb ":" ":")) with false. cbv iota.
    rewrite IH; [|exact W3|exact N|intros _; apply stops_white; [exact W4|repeat split]|lia]. rewrite (skip_white _ _ W4). reflexivity.
  - intros w1 key tk w2 w3 v t w4 l t' W1 K W2 W3 V IH W4 H IH2 rest d fuel N L. destruct fuel as [|k]; [lia|]. rewrite dec_members_S, <- !app_assoc. rewrite !app_length in L. cbn [map] in N.
    change (list_max (nesting (snd (key, v)) :: map (fun p => nesting (snd p)) l)) with (Nat.max (nesting v) (list_max (map (fun p => nesting (snd p)) l))) in N. change (length (bs ",")) with 1 in L. change (length (bs ":")) with 1 in L.
    rewrite (skip_white _ _ W1). destruct (string_complete lax _ _ (w2 ++ bs ":" ++ w3 ++ t ++ w4 ++ bs "," ++ t' ++ "}"%byte :: rest) K) as (t0 & E0 & D0). rewrite E0, (skip_id _ _ (eq_refl : is_space quote_c = false)). change (negb (byte_eqb quote_c quote_c)) with false. cbv iota. rewrite D0.
    rewrite (skip_white _ _ W2). change (bs ":" ++ w3 ++ t ++ w4 ++ bs "," ++ t' ++ "}"%byte :: rest) with (":"%byte :: (w3 ++ t ++ w4 ++ ","%byte :: (t' ++ "}"%byte :: rest))). rewrite (skip_id _ _ (eq_refl : is_space ":" = false)). change (negb (byte_eqb ":" ":")) with false. cbv iota.
    rewrite IH; [|exact W3|lia|intros _; apply stops_white; [exact W4|repeat split]|lia]. rewrite (skip_white _ _ W4), (skip_id _ _ (eq_refl : is_space "," = false)). change (byte_eqb "," ",") with true. cbv iota.
    rewrite IH2; [reflexivity|lia|lia].
Qed.

(** * The decoder is sound *)
Lemma word_sound w v t v' r : dec_word w v t = Some (v', r) -> v' = v /\ t = bs w ++ r.
Proof.
  unfold dec_word. destruct (has_prefix t (bs w)) eqn:P; [|discriminate]. intros H. apply has_prefix_iff in P. destruct P as (x & ->).
  rewrite skipn_app, skipn_all, Nat.sub_diag in H. cbn [app skipn] in H. split; congruence.
Qed.
Definition fits (n : nat) (d : N) : Prop := n = 0 \/ (N.of_nat n + d <= max_depth)%N.
Theorem dec_sound fuel :
  (forall d t v rest, dec_value fuel d t = Some (v, rest) -> (exists w u, white w /\ jvalue true v u /\ t = w ++ u ++ rest) /\ fits (nesting v) d) /\
  (forall d t l rest, dec_elems fuel d t = Some (l, rest) -> (exists u, jelems true l u /\ t = u ++ bs "]" ++ rest) /\ fits (list_max (map nesting l)) d) /\
  (forall d t l rest, dec_members fuel d t = Some (l, rest) -> (exists u, jmembers true l u /\ t = u ++ bs "}" ++ rest) /\ fits (list_max (map (fun p => nesting (snd p)) l)) d).
Proof.
  induction fuel as [|k (IHv & IHe & IHm)]; [repeat split; intros; discriminate|]. split; [|split].
  - intros d t v rest H. rewrite dec_value_S in H. destruct (skip_ws_split t) as (w & W & T & _). destruct (skip_ws t) as [|c t']; [discriminate H|].
    enough ((exists u, jvalue true v u /\ c :: t' = u ++ rest) /\ fits (nesting v) d) as ((u & V & E) & F) by (split; [exists w, u; split; [exact W|]; split; [exact V|]; rewrite T, E; reflexivity|exact F]). clear T W w t.
    destruct (byte_eqb c quote_c) eqn:C1.
    { destruct (dec_chars _ t') as [(s & r)|] eqn:D; [|discriminate H]. destruct (dec_chars_sound _ _ _ _ D) as (u & J & ->). assert (v = JStr s /\ r = rest) as (-> & ->) by (split; congruence).
      apply byte_eqb_eq in C1. subst c. split; [|left; reflexivity]. exists (x22 :: u ++ [x22]). split; [constructor; exists u; split; [exact J|reflexivity]|]. cbn [app]. rewrite <- app_assoc. reflexivity. }
    destruct (byte_eqb c "[") eqn:C2.
    { apply byte_eqb_eq in C2. subst c. destruct (N.leb_spec max_depth d) as [M|M]; [discriminate H|]. destruct (skip_ws_split t') as (w & W & T & _).
      destruct (match skip_ws t' with b :: _ => byte_eqb b "]" | [] => false end) eqn:C3.
      - destruct (skip_ws t') as [|b r]; [discriminate C3|]. apply byte_eqb_eq in C3. subst b. cbn [tl] in H. assert (v = JArr [] /\ r = rest) as (-> & ->) by (split; congruence).
        split; [|right; cbn [nesting map list_max fold_right]; lia]. exists (bs "[" ++ w ++ bs "]"). split; [constructor; exact W|]. rewrite T. cbn [app bs list_byte_of_string]. rewrite <- !app_assoc. reflexivity.
      - destruct (dec_elems k (d + 1) t') as [(l & r)|] eqn:D; [|discriminate H]. assert (v = JArr l /\ r = rest) as (-> & ->) by (split; congruence). destruct (IHe _ _ _ _ D) as ((u & J & ->) & F).
        split; [|right; cbn [nesting]; destruct F as [F|F]; [rewrite F|]; lia]. exists (bs "[" ++ u ++ bs "]"). split; [constructor; exact J|]. rewrite <- !app_assoc. reflexivity. }
    destruct (byte_eqb c "{") eqn:C4.
    { apply byte_eqb_eq in C4. subst c. destruct (N.leb_spec max_depth d) as [M|M]; [discriminate H|]. destruct (skip_ws_split t') as (w & W & T & _).
      destruct (match skip_ws t' with b :: _ => byte_eqb b "}" | [] => false end) eqn:C3.
      - destruct (skip_ws t') as [|b r]; [discriminate C3|]. apply byte_eqb_eq in C3. subst b. cbn [tl] in H. assert (v = JObj [] /\ r = rest) as (-> & ->) by (split; congruence).
        split; [|right; cbn [nesting map list_max fold_right]; lia]. exists (bs "{" ++ w ++ bs "}"). split; [constructor; exact W|]. rewrite T. cbn [app bs list_byte_of_string]. rewrite <- !app_assoc. reflexivity.
      - destruct (dec_members k (d + 1) t') as [(l & r)|] eqn:D; [|discriminate H]. assert (v = JObj l /\ r = rest) as (-> & ->) by (split; congruence). destruct (IHm _ _ _ _ D) as ((u & J & ->) & F).
        split; [|right; cbn [nesting]; destruct F as [F|F]; [rewrite F|]; lia]. exists (bs "{" ++ u ++ bs "}"). split; [constructor; exact J|]. rewrite <- !app_assoc. reflexivity. }
    destruct (byte_eqb c "n") eqn:C5; [destruct (word_sound _ _ _ _ _ H) as (-> & E); split; [eexists; split; [constructor|exact E]|left; reflexivity]|].
    destruct (byte_eqb c "t") eqn:C6; [destruct (word_sound _ _ _ _ _ H) as (-> & E); split; [eexists; split; [constructor|exact E]|left; reflexivity]|].
    destruct (byte_eqb c "f") eqn:C7; [destruct (word_sound _ _ _ _ _ H) as (-> & E); split; [eexists; split; [constructor|exact E]|left; reflexivity]|].
    destruct (dec_number (c :: t')) as [(n & r)|] eqn:D; [|discriminate H]. assert (v = JNum n /\ r = rest) as (-> & ->) by (split; congruence). destruct (dec_number_sound _ _ _ D) as (J & E). split; [eexists; split; [constructor; exact J|exact E]|left; reflexivity].
  - intros d t l rest H. rewrite dec_elems_S in H. destruct (dec_value k d t) as [(v & t1)|] eqn:D; [|discriminate H]. destruct (IHv _ _ _ _ D) as ((w & u & W & V & ->) & F). destruct (skip_ws_split t1) as (w2 & W2 & T & _). destruct (skip_ws t1) as [|c t2]; [discriminate H|].
    destruct (byte_eqb c ",") eqn:C1; [|destruct (byte_eqb c "]") eqn:C2; [|discriminate H]].
    + apply byte_eqb_eq in C1. subst c. destruct (dec_elems k d t2) as [(l' & r)|] eqn:D2; [|discriminate H]. assert (l = v :: l' /\ r = rest) as (-> & ->) by (split; congruence). destruct (IHe _ _ _ _ D2) as ((u2 & J & ->) & F2).
      split; [exists (w ++ u ++ w2 ++ bs "," ++ u2); split; [constructor; assumption|rewrite T, <- !app_assoc; reflexivity]|]. cbn [map]. change (list_max (nesting v :: map nesting l')) with (Nat.max (nesting v) (list_max (map nesting l'))). unfold fits in *. lia.
    + apply byte_eqb_eq in C2. subst c. assert (l = [v] /\ t2 = rest) as (-> & ->) by (split; congruence). split; [exists (w ++ u ++ w2); split; [constructor; assumption|rewrite T, <- !app_assoc; reflexivity]|]. cbn [map list_max fold_right]. rewrite Nat.max_0_r. exact F.
  - intros d t l rest H. rewrite dec_members_S in H. destruct (skip_ws_split t) as (w1 & W1 & T & _). destruct (skip_ws t) as [|q t0]; [discriminate H|]. destruct (byte_eqb q quote_c) eqn:Q; cbn [negb] in H; [|discriminate H]. apply byte_eqb_eq in Q. subst q.
    destruct (dec_chars _ t0) as [(key & t1)|] eqn:DK; [|discriminate H]. destruct (dec_chars_sound _ _ _ _ DK) as (uk & JK & ->).
    destruct (skip_ws_split t1) as (w2 & W2 & T1 & _). destruct (skip_ws t1) as [|c t2]; [discriminate H|]. destruct (byte_eqb c ":") eqn:Q; cbn [negb] in H; [|discriminate H]. apply byte_eqb_eq in Q. subst c.
    destruct (dec_value k d t2) as [(v & t3)|] eqn:D; [|discriminate H]. destruct (IHv _ _ _ _ D) as ((w & u & W & V & ->) & F). destruct (skip_ws_split t3) as (w4 & W4 & T3 & _). destruct (skip_ws t3) as [|c t4]; [discriminate H|].
    assert (JS : jstring true key (bs """" ++ uk ++ bs """")) by (exists uk; split; [exact JK|reflexivity]).
    destruct (byte_eqb c ",") eqn:C1; [|destruct (byte_eqb c "}") eqn:C2; [|discriminate H]].
    + apply byte_eqb_eq in C1. subst c. destruct (dec_members k d t4) as [(l' & r)|] eqn:D2; [|discriminate H]. assert (l = (key, v) :: l' /\ r = rest) as (-> & ->) by (split; congruence). destruct (IHm _ _ _ _ D2) as ((u2 & J & ->) & F2).
      split; [exists (w1 ++ (bs """" ++ uk ++ bs """") ++ w2 ++ bs ":" ++ w ++ u ++ w4 ++ bs "," ++ u2); split; [constructor; assumption|rewrite T, T1, T3; cbn [app bs list_byte_of_string]; rewrite <- !app_assoc; reflexivity]|].
      cbn [map]. change (list_max (nesting (snd (key, v)) :: map (fun p => nesting (snd p)) l')) with (Nat.max (nesting v) (list_max (map (fun p => nesting (snd p)) l'))). unfold fits in *. lia.
    + apply byte_eqb_eq in C2. subst c. assert (l = [(key, v)] /\ t4 = rest) as (-> & ->) by (split; congruence).
      split; [exists (w1 ++ (bs """" ++ uk ++ bs """") ++ w2 ++ bs ":" ++ w ++ u ++ w4); split; [constructor; assumption|rewrite T, T1, T3; cbn [app bs list_byte_of_string]; rewrite <- !app_assoc; reflexivity]|].
      cbn [map list_max fold_right snd]. rewrite Nat.max_0_r. exact F.
Qed.

(** * Whole texts *)
Lemma jtext_parse lax v t rest : jtext lax v t -> (N.of_nat (nesting v) <= max_depth)%N -> (is_num v = true -> stops rest) -> exists w, white w /\ parse_value (t ++ rest) = Some (v, w ++ rest).
Proof.
  intros (w1 & u & w2 & W1 & V & W2 & ->) N S. exists w2. split; [exact W2|]. unfold parse_value. rewrite <- !app_assoc. apply (proj1 (dec_complete lax)); [exact V|exact W1|lia| |rewrite !app_length; lia].
  intros IS. specialize (S IS). destruct W2 as [|c w2 C W2]; [exact S|]. cbn [app stops]. pose proof (in_sweep [x20; x09; x0a; x0d] (fun c => negb (is_digit c) && negb (byte_eqb c ".") && negb (byte_eqb c "e") && negb (byte_eqb c "E")) eq_refl _ C) as Q. rewrite !andb_true_iff, !negb_true_iff in Q. tauto.
Qed.
Lemma parse_jtext v t rest : parse_value t = Some (v, rest) -> (N.of_nat (nesting v) <= max_depth)%N /\ exists u, jtext true v u /\ t = u ++ rest.
Proof.
  intros H. destruct (proj1 (dec_sound _) _ _ _ _ H) as ((w & u & W & V & ->) & F). split; [destruct F; lia|]. exists (w ++ u). split; [exists w, u, []; rewrite app_nil_r; repeat split; try assumption; constructor|rewrite <- app_assoc; reflexivity].
Qed.

(** A text has one meaning. *)
Lemma jtext_fun lax lax' v v' t : jtext lax v t -> jtext lax' v' t -> (N.of_nat (nesting v) <= max_depth)%N -> (N.of_nat (nesting v') <= max_depth)%N -> v = v'.
Proof.
  intros A B N N'. destruct (jtext_parse lax v t [] A N (fun _ => I)) as (w & _ & P). destruct (jtext_parse lax' v' t [] B N' (fun _ => I)) as (w' & _ & P'). congruence.
Qed.
