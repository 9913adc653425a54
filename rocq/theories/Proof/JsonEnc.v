(** The encoder: what it writes denotes the value, compact or indented. *)
From Coq Require Import Permutation.
From Verif Require Import Base.Bytes Base.BytesFacts Model.GoStd Model.Derivation Model.Json Spec.JsonSpec Proof.JsonUtf8 Proof.JsonStr Proof.JsonVal.
Ltac Zify.zify_post_hook ::= idtac.

(** Induction on values. *)
Section Induction.
Variable P : jv -> Prop.
Hypothesis Pnull : P JNull.
Hypothesis Pbool : forall b, P (JBool b).
Hypothesis Pnum : forall t, P (JNum t).
Hypothesis Pstr : forall s, P (JStr s).
Hypothesis Parr : forall l, Forall P l -> P (JArr l).
Hypothesis Pobj : forall l, Forall (fun p => P (snd p)) l -> P (JObj l).
Fixpoint jv_nested (v : jv) : P v :=
  match v with
  | JNull => Pnull
  | JBool b => Pbool b
  | JNum t => Pnum t
  | JStr s => Pstr s
  | JArr l => Parr l ((fix go l := match l return Forall P l with [] => Forall_nil _ | x :: l' => Forall_cons x (jv_nested x) (go l') end) l)
  | JObj l => Pobj l ((fix go l := match l return Forall (fun p => P (snd p)) l with [] => Forall_nil _ | x :: l' => Forall_cons x (jv_nested (snd x)) (go l') end) l)
  end.
End Induction.
(** Its numbers are numbers. *)
Fixpoint nums_ok (v : jv) : Prop :=
  match v with
  | JNum t => jnumber t
  | JArr l => fold_right (fun x p => nums_ok x /\ p) True l
  | JObj l => fold_right (fun x p => nums_ok (snd x) /\ p) True l
  | _ => True
  end.
Lemma nums_arr l : nums_ok (JArr l) <-> Forall nums_ok l.
Proof. cbn [nums_ok]. induction l as [|x l IH]; cbn [fold_right]; [split; auto|]. rewrite IH. split; [intros (A & B); constructor; assumption|intros F; inversion F; auto]. Qed.
Lemma nums_obj l : nums_ok (JObj l) <-> Forall (fun p => nums_ok (snd p)) l.
Proof. cbn [nums_ok]. induction l as [|x l IH]; cbn [fold_right]; [split; auto|]. rewrite IH. split; [intros (A & B); constructor; assumption|intros F; inversion F; auto]. Qed.

(** * Layouts *)
Lemma white_nil : white []. Proof. constructor. Qed.
Lemma white_newline n : white (new_line n).
Proof. unfold new_line. constructor; [cbn; auto|]. induction n as [|n IH]; [constructor|]. cbn [margin app bs list_byte_of_string]. constructor; [cbn; auto|]. constructor; [cbn; auto|exact IH]. Qed.
Lemma between_elems lax w1 w2 l' ts : Forall2 (jvalue lax) l' ts -> white w1 -> white w2 -> l' <> [] -> jelems lax l' (w1 ++ between (bs "," ++ w1) ts ++ w2).
Proof.
  intros F W1 W2 NE. induction F as [|v t l' ts V F IH]; [congruence|]. cbn [between]. destruct F as [|v2 t2 l' ts V2 F].
  - rewrite app_nil_r. constructor; assumption.
  - rewrite <- !app_assoc. change (w1 ++ t ++ bs "," ++ w1 ++ between (bs "," ++ w1) (t2 :: ts) ++ w2) with (w1 ++ t ++ [] ++ bs "," ++ (w1 ++ between (bs "," ++ w1) (t2 :: ts) ++ w2)). constructor; [exact W1|exact V|constructor|]. apply IH. discriminate.
Qed.
(** A member: key, colon, white space, value. *)
Definition jmember (lax : bool) (w : bytes) (p : bytes * jv) (t : bytes) : Prop :=
  exists tk tv, jstring lax (fst p) tk /\ jvalue lax (snd p) tv /\ t = tk ++ bs ":" ++ w ++ tv.
Lemma between_members lax w w1 w2 l ts : Forall2 (jmember lax w) l ts -> white w -> white w1 -> white w2 -> l <> [] -> jmembers lax l (w1 ++ between (bs "," ++ w1) ts ++ w2).
Proof.
  intros F W W1 W2 NE. induction F as [|(k & v) t l ts (tk & tv & K & V & ->) F IH]; [congruence|]. cbn [fst snd] in K, V. cbn [between]. destruct F as [|p2 t2 l ts V2 F].
  - rewrite app_nil_r, <- !app_assoc. exact (jm_one lax w1 k tk [] w v tv w2 W1 K white_nil W V W2).
  - rewrite <- !app_assoc. exact (jm_cons lax w1 k tk [] w v tv [] _ _ W1 K white_nil W V white_nil (IH ltac:(discriminate))).
Qed.
Lemma sep_between sep l : sep_by sep l = between sep l.
Proof. induction l as [|x [|y l] IH]; [reflexivity|cbn; rewrite app_nil_r; reflexivity|]. change (sep_by sep (x :: y :: l)) with (x ++ sep ++ sep_by sep (y :: l)). rewrite IH. reflexivity. Qed.

Lemma forall2_ex {A B C} (R : A -> B -> Prop) (Q : A -> C -> Prop) (f : A -> B) (l : list A) :
  Forall (fun a => exists c, R a (f a) /\ Q a c) l -> exists cs, Forall2 R l (map f l) /\ Forall2 Q l cs.
Proof.
  induction 1 as [|a l (c & H1 & H2) F (cs & G1 & G2)]; [exists []; split; constructor|]. exists (c :: cs). split; constructor; assumption.
Qed.

(** * The value written *)
Theorem written short : forall v, nums_ok v -> exists v', jrepaired v v' /\ jvalue false v' (compact short v) /\ forall depth, jvalue false v' (laid_out (enc_string short) depth v).
Proof.
  apply (jv_nested (fun v => nums_ok v -> exists v', jrepaired v v' /\ jvalue false v' (compact short v) /\ forall depth, jvalue false v' (laid_out (enc_string short) depth v))).
  - intros _. exists JNull. repeat split; constructor.
  - intros b _. exists (JBool b). destruct b; repeat split; constructor.
  - intros t N. exists (JNum t). repeat split; constructor; exact N.
  - intros s _. destruct (enc_string_any short s) as (s' & J & R). exists (JStr s'). split; [constructor; exact R|]. split; [|intros depth]; constructor; exact J.
  - intros l F N. apply nums_arr in N. assert (X : exists l', Forall2 jrepaired l l' /\ Forall2 (jvalue false) l' (map (compact short) l) /\ forall depth, Forall2 (jvalue false) l' (map (laid_out (enc_string short) depth) l)).
    { induction F as [|v l H F IH]; [exists []; repeat split; constructor|]. inversion N as [|? ? N1 N2]; subst. destruct (H N1) as (v' & A1 & A2 & A3). destruct (IH N2) as (l' & B1 & B2 & B3). exists (v' :: l').
      split; [constructor; assumption|]. split; [constructor; assumption|]. intros depth. constructor; [exact (A3 depth)|exact (B3 depth)]. }
    destruct X as (l' & R & C & D). exists (JArr l'). split; [constructor; exact R|]. destruct l as [|x l].
    + inversion R; subst. split; [|intros depth]; exact (jt_arr0 false [] white_nil).
    + assert (NE : l' <> []) by (inversion R; discriminate). split.
      * cbn [compact]. rewrite sep_between. pose proof (between_elems false [] [] l' _ C white_nil white_nil NE) as J. cbn [app] in J. rewrite !app_nil_r in J. exact (jt_arr false _ _ J).
      * intros depth. pose proof (between_elems false (new_line (S depth)) (new_line depth) l' _ (D (S depth)) (white_newline _) (white_newline _) NE) as J.
        cbn [laid_out]. pose proof (jt_arr false _ _ J) as V. rewrite <- !app_assoc in V. exact V.
  - intros l F N. apply nums_obj in N.
    assert (X : exists l', Forall2 (fun p q => repaired (fst p) (fst q) /\ jrepaired (snd p) (snd q)) l l' /\
        Forall2 (jmember false []) l' (map (fun p => enc_string short (fst p) ++ bs ":" ++ compact short (snd p)) l) /\
        forall depth, Forall2 (jmember false (bs " ")) l' (map (fun p => enc_string short (fst p) ++ bs ": " ++ laid_out (enc_string short) depth (snd p)) l)).
    { induction F as [|(k & v) l H F IH]; [exists []; repeat split; constructor|]. inversion N as [|? ? N1 N2]; subst. cbn [snd] in H, N1. destruct (H N1) as (v' & A1 & A2 & A3). destruct (IH N2) as (l' & B1 & B2 & B3).
      destruct (enc_string_any short k) as (k' & J & R). exists ((k', v') :: l'). split; [constructor; [split; assumption|exact B1]|]. split; [constructor; [eexists _, _; split; [exact J|]; split; [exact A2|reflexivity]|exact B2]|].
      intros depth. constructor; [|exact (B3 depth)]. exists (enc_string short k), (laid_out (enc_string short) depth v). split; [exact J|]. split; [apply A3|]. cbn [fst snd]. reflexivity. }
    destruct X as (l' & R & C & D). exists (JObj l'). split; [constructor; exact R|]. destruct l as [|x l].
    + inversion R; subst. split; [|intros depth]; exact (jt_obj0 false [] white_nil).
    + assert (NE : l' <> []) by (inversion R; discriminate). split.
      * cbn [compact]. rewrite sep_between. pose proof (between_members false [] [] [] l' _ C white_nil white_nil white_nil NE) as J. cbn [app] in J. rewrite !app_nil_r in J. exact (jt_obj false _ _ J).
      * intros depth. pose proof (between_members false (bs " ") (new_line (S depth)) (new_line depth) l' _ (D (S depth)) ltac:(repeat constructor) (white_newline _) (white_newline _) NE) as J.
        cbn [laid_out]. pose proof (jt_obj false _ _ J) as V. rewrite <- !app_assoc in V. exact V.
Qed.

(** * Indentation *)
Lemma newline_new n : newline n = new_line n.
Proof. reflexivity. Qed.
Lemma indent_cons st need depth c src : indent st need depth (c :: src) =
      match st with
      | Inside => c :: indent (if byte_eqb c back_c then Escaped else if byte_eqb c quote_c then Outside else Inside) need depth src
      | Escaped => c :: indent Inside need depth src
      | Outside =>
          if byte_eqb c x20 || byte_eqb c x0a || byte_eqb c x0d || byte_eqb c x09 then indent Outside need depth src
          else if byte_eqb c "}" || byte_eqb c "]" then
            if need then c :: indent Outside false depth src
            else newline (depth - 1) ++ c :: indent Outside false (depth - 1) src
          else
            let depth' := if need then S depth else depth in
            (if need then newline depth' else []) ++
            (if byte_eqb c "{" || byte_eqb c "[" then c :: indent Outside true depth' src
             else if byte_eqb c "," then (c :: newline depth') ++ indent Outside false depth' src
             else if byte_eqb c ":" then c :: x20 :: indent Outside false depth' src
             else c :: indent (if byte_eqb c quote_c then Inside else Outside) false depth' src)
      end.
Proof. reflexivity. Qed.
Lemma inside_plain need depth b rest : Forall (fun y => byte_eqb y back_c = false /\ byte_eqb y quote_c = false) b -> indent Inside need depth (b ++ rest) = b ++ indent Inside need depth rest.
Proof. induction 1 as [|c b (A & B) F IH]; [reflexivity|]. cbn [app]. rewrite indent_cons, A, B, IH. reflexivity. Qed.
Lemma quad_plain c q : hex_quad c q -> Forall (fun y => byte_eqb y back_c = false /\ byte_eqb y quote_c = false) q.
Proof.
  intros [a b0 c0 d va vb vc vd A B C D].
  assert (Z : forall y v, In (y, v) hexes -> byte_eqb y back_c = false /\ byte_eqb y quote_c = false).
  { intros y v I. apply hexes_val in I. destruct I as (I & _). split; apply byte_eqb_neq; intros ->; discriminate I. }
  repeat constructor; eapply Z; eauto.
Qed.
Lemma inside_char need depth s t rest : jchar s t -> indent Inside need depth (t ++ rest) = t ++ indent Inside need depth rest.
Proof.
  intros [c b U A B C|e c I|c b q Q U|h l b q1 q2 Q1 Q2 H1 H2 U].
  - apply inside_plain. destruct (utf8_first _ _ U) as (x & b' & EB & F1 & F2). pose proof (utf8_tail _ _ U _ _ EB) as F. subst b. constructor.
    + split; apply byte_eqb_neq; intros ->; destruct (N.lt_ge_cases c 128) as [Z|Z]; try (destruct (F1 Z) as (E & _); vm_compute in E; congruence); specialize (F2 Z); apply F2; reflexivity.
    + eapply Forall_impl; [|exact F]. intros y Y. split; apply byte_eqb_neq; intros ->; apply Y; reflexivity.
  - cbn [app]. rewrite indent_cons. change (byte_eqb "\" back_c) with true. cbv iota. rewrite indent_cons. reflexivity.
  - rewrite <- app_assoc. change (bs "\u" ++ q ++ rest) with ("\"%byte :: "u"%byte :: (q ++ rest)). rewrite !indent_cons. change (byte_eqb "\" back_c) with true. cbv iota. rewrite (inside_plain _ _ _ _ (quad_plain _ _ Q)). reflexivity.
  - rewrite <- !app_assoc. change (bs "\u" ++ q1 ++ bs "\u" ++ q2 ++ rest) with ("\"%byte :: "u"%byte :: (q1 ++ "\"%byte :: "u"%byte :: (q2 ++ rest))). rewrite !indent_cons. change (byte_eqb "\" back_c) with true. cbv iota. rewrite (inside_plain _ _ _ _ (quad_plain _ _ Q1)).
    rewrite !indent_cons. change (byte_eqb "\" back_c) with true. cbv iota. rewrite (inside_plain _ _ _ _ (quad_plain _ _ Q2)). reflexivity.
Qed.
Lemma inside_string need depth s t rest : jchars false s t -> indent Inside need depth (t ++ x22 :: rest) = t ++ x22 :: indent Outside need depth rest.
Proof.
  induction 1 as [|s t s' t' C H IH|c s' t' LX|c q s' t' LX]; try discriminate LX; [reflexivity|]. rewrite <- !app_assoc, (inside_char _ _ _ _ _ C), IH. reflexivity.
Qed.
(** What is written before the first byte of a value. *)
Definition lead (need : bool) (depth : nat) : bytes := if need then newline (S depth) else [].
Definition below (need : bool) (depth : nat) : nat := if need then S depth else depth.
Definition quiet (c : byte) : bool := negb (existsb (byte_eqb c) [x20; x0a; x0d; x09; "}"; "]"; "{"; "["; ","; ":"; x22]%byte).
Lemma quiet_step need depth c rest : quiet c = true -> indent Outside need depth (c :: rest) = lead need depth ++ c :: indent Outside false (below need depth) rest.
Proof.
  unfold quiet. rewrite negb_true_iff. cbn [existsb]. rewrite !orb_false_iff. intros (A1 & A2 & A3 & A4 & A5 & A6 & A7 & A8 & A9 & A10 & A11 & _). rewrite indent_cons.
  rewrite A1, A2, A3, A4, A5, A6, A7, A8, A9, A10. cbn [orb]. change quote_c with x22. rewrite A11. destruct need; reflexivity.
Qed.
Lemma quiet_word need depth c w rest : forallb quiet (c :: w) = true -> indent Outside need depth ((c :: w) ++ rest) = lead need depth ++ (c :: w) ++ indent Outside false (below need depth) rest.
Proof.
  cbn [forallb]. intros H. apply andb_prop in H. destruct H as (Q & H). cbn [app]. rewrite (quiet_step _ _ _ _ Q). f_equal. f_equal.
  induction w as [|x w IH]; [reflexivity|]. cbn [forallb] in H. apply andb_prop in H. destruct H as (Q2 & H). cbn [app]. rewrite (quiet_step _ _ _ _ Q2). cbn [lead below app]. f_equal. apply IH. exact H.
Qed.
Lemma number_quiet t : jnumber t -> forallb quiet t = true.
Proof.
  intros (sg & i & f & e & G & I & F & E & ->).
  assert (DQ : forall t, Forall (fun c => In c (bs "0123456789")) t -> forallb quiet t = true).
  { intros t H. apply forallb_forall. intros c Hc. rewrite Forall_forall in H. exact (in_sweep (bs "0123456789") quiet eq_refl c (H c Hc)). }
  rewrite !forallb_app, !andb_true_iff. split; [destruct G as [<-|[<-|[]]]; reflexivity|]. split; [|split].
  - destruct I as [|c t C D]; [reflexivity|]. cbn [forallb]. rewrite (in_sweep (bs "123456789") quiet eq_refl c C). exact (DQ t D).
  - destruct F as [|t (_ & D)]; [reflexivity|]. rewrite forallb_app, (DQ t D). reflexivity.
  - destruct E as [|e sg' t E G' (_ & D)]; [reflexivity|]. cbn [forallb]. rewrite (in_sweep (bs "eE") quiet eq_refl e E), forallb_app, (DQ t D). destruct G' as [<-|[<-|[<-|[]]]]; reflexivity.
Qed.
Lemma indent_string short need depth s rest : indent Outside need depth (enc_string short s ++ rest) = lead need depth ++ enc_string short s ++ indent Outside false (below need depth) rest.
Proof.
  destruct (enc_string_any short s) as (s' & (u & J & E) & _). rewrite E, <- !app_assoc. cbn [app]. rewrite indent_cons. change (byte_eqb x22 x20 || byte_eqb x22 x0a || byte_eqb x22 x0d || byte_eqb x22 x09) with false.
  change (byte_eqb x22 "}" || byte_eqb x22 "]") with false. change (byte_eqb x22 "{" || byte_eqb x22 "[") with false. change (byte_eqb x22 ",") with false. change (byte_eqb x22 ":") with false. change (byte_eqb x22 quote_c) with true. cbv iota zeta.
  rewrite (inside_string _ _ _ _ _ J). destruct need; reflexivity.
Qed.
Lemma indent_open need depth c rest : c = "["%byte \/ c = "{"%byte -> indent Outside need depth (c :: rest) = lead need depth ++ c :: indent Outside true (below need depth) rest.
Proof. intros [-> | ->]; destruct need; reflexivity. Qed.
Lemma indent_close depth c rest : c = "]"%byte \/ c = "}"%byte -> indent Outside false (S depth) (c :: rest) = newline depth ++ c :: indent Outside false depth rest.
Proof. intros [-> | ->]; rewrite indent_cons; cbn [Nat.sub]; rewrite Nat.sub_0_r; reflexivity. Qed.
Lemma indent_empty need depth a b rest : (a = "["%byte /\ b = "]"%byte) \/ (a = "{"%byte /\ b = "}"%byte) -> indent Outside need depth (a :: b :: rest) = lead need depth ++ a :: b :: indent Outside false (below need depth) rest.
Proof. intros [(-> & ->)|(-> & ->)]; destruct need; reflexivity. Qed.
(** Items, each indented well, between brackets. *)
Definition item (t : bytes) (p : nat -> bytes) : Prop :=
  forall need depth rest, indent Outside need depth (t ++ rest) = lead need depth ++ p (below need depth) ++ indent Outside false (below need depth) rest.
Lemma indent_items ts ps rest : Forall2 item ts ps -> ts <> [] -> forall need depth,
  indent Outside need depth (between (bs ",") ts ++ rest) = lead need depth ++ between (bs "," ++ new_line (below need depth)) (map (fun p => p (below need depth)) ps) ++ indent Outside false (below need depth) rest.
Proof.
  intros F. induction F as [|t p ts ps H F IH]; intros NE need depth; [congruence|]. cbn [between map]. destruct F as [|t2 p2 ts ps H2 F].
  - cbn [map]. rewrite !app_nil_r. apply H.
  - rewrite <- !app_assoc, H. f_equal. f_equal. change (bs "," ++ between (bs ",") (t2 :: ts) ++ rest) with (","%byte :: (between (bs ",") (t2 :: ts) ++ rest)). rewrite indent_cons.
    change (byte_eqb "," x20 || byte_eqb "," x0a || byte_eqb "," x0d || byte_eqb "," x09) with false. change (byte_eqb "," "}" || byte_eqb "," "]") with false. change (byte_eqb "," "{" || byte_eqb "," "[") with false. change (byte_eqb "," ",") with true. cbv iota zeta.
    rewrite newline_new, (IH ltac:(discriminate) false (below need depth)). cbn [lead below map app]. rewrite <- !app_assoc. reflexivity.
Qed.
Lemma indent_group a b ts ps : (a = "["%byte /\ b = "]"%byte) \/ (a = "{"%byte /\ b = "}"%byte) -> Forall2 item ts ps -> ts <> [] ->
  item ([a] ++ between (bs ",") ts ++ [b]) (fun depth => [a] ++ new_line (S depth) ++ between (bs "," ++ new_line (S depth)) (map (fun p => p (S depth)) ps) ++ new_line depth ++ [b]).
Proof.
  intros AB F NE need depth rest. rewrite <- !app_assoc. cbn [app]. rewrite indent_open by (destruct AB as [(-> & _)|(-> & _)]; auto). f_equal. f_equal. rewrite (indent_items _ _ _ F NE true). cbn [lead below]. rewrite newline_new. f_equal. f_equal.
  cbn [app]. rewrite indent_close by (destruct AB as [(_ & ->)|(_ & ->)]; auto). rewrite newline_new. reflexivity.
Qed.
Lemma item_member short k v t p : item t p -> v = t -> item (enc_string short k ++ bs ":" ++ v) (fun d => enc_string short k ++ bs ": " ++ p d).
Proof.
  intros H -> need depth rest. rewrite <- !app_assoc, indent_string. f_equal. f_equal. change (bs ":" ++ t ++ rest) with (":"%byte :: (t ++ rest)). rewrite indent_cons.
  change (byte_eqb ":" x20 || byte_eqb ":" x0a || byte_eqb ":" x0d || byte_eqb ":" x09) with false. change (byte_eqb ":" "}" || byte_eqb ":" "]") with false. change (byte_eqb ":" "{" || byte_eqb ":" "[") with false. change (byte_eqb ":" ",") with false. change (byte_eqb ":" ":") with true. cbv iota zeta.
  rewrite H. reflexivity.
Qed.
Theorem indent_compact short : forall v, nums_ok v -> item (compact short v) (fun depth => laid_out (enc_string short) depth v).
Proof.
  apply (jv_nested (fun v => nums_ok v -> item (compact short v) (fun depth => laid_out (enc_string short) depth v))).
  - intros _ need depth rest. exact (quiet_word need depth "n" (bs "ull") rest eq_refl).
  - intros b _ need depth rest. destruct b; [exact (quiet_word need depth "t" (bs "rue") rest eq_refl)|exact (quiet_word need depth "f" (bs "alse") rest eq_refl)].
  - intros t N need depth rest. cbn [compact laid_out]. destruct (number_first t N) as (c & t' & E & _). pose proof (number_quiet t N) as Q. rewrite E in Q |- *. apply quiet_word. exact Q.
  - intros s _ need depth rest. apply indent_string.
  - intros l F N. apply nums_arr in N. destruct l as [|x l]; [intros need depth rest; exact (indent_empty need depth "[" "]" rest ltac:(auto))|].
    assert (X : Forall2 item (map (compact short) (x :: l)) (map (fun v depth => laid_out (enc_string short) depth v) (x :: l))).
    { clear - F N. revert F N. generalize (x :: l). intros l' F N. induction F as [|v l' H F IH]; [constructor|]. inversion N; subst. constructor; auto. }
    intros need depth rest. pose proof (indent_group "[" "]" _ _ ltac:(auto) X ltac:(discriminate) need depth rest) as G. cbv beta in G. rewrite map_map in G. cbn [compact laid_out]. rewrite sep_between. exact G.
  - intros l F N. apply nums_obj in N. destruct l as [|x l]; [intros need depth rest; exact (indent_empty need depth "{" "}" rest ltac:(auto))|].
    assert (X : Forall2 item (map (fun p => enc_string short (fst p) ++ bs ":" ++ compact short (snd p)) (x :: l)) (map (fun p depth => enc_string short (fst p) ++ bs ": " ++ laid_out (enc_string short) depth (snd p)) (x :: l))).
    { clear - F N. revert F N. generalize (x :: l). intros l' F N. induction F as [|v l' H F IH]; [constructor|]. inversion N; subst. constructor; [eapply item_member; [apply H; assumption|reflexivity]|auto]. }
    intros need depth rest. pose proof (indent_group "{" "}" _ _ ltac:(auto) X ltac:(discriminate) need depth rest) as G. cbv beta in G. rewrite map_map in G. cbn [compact laid_out]. rewrite sep_between. exact G.
Qed.
Corollary indent_all short v : nums_ok v -> indent Outside false 0 (compact short v) = laid_out (enc_string short) 0 v.
Proof. intros N. pose proof (indent_compact short v N false 0 []) as H. rewrite app_nil_r in H. rewrite H. cbn [lead below indent app]. apply app_nil_r. Qed.
