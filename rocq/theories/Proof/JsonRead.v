(** Objects read into structs. *)
From Coq Require Import Permutation.
From Verif Require Import Base.Bytes Base.BytesFacts Model.GoStd Model.Nar Model.NarLs Model.Json Spec.JsonSpec Proof.Codec Proof.JsonUtf8 Proof.JsonStr Proof.JsonVal Proof.JsonEnc Spec.NarLsSpec Proof.NarLsProps.
Ltac Zify.zify_post_hook ::= idtac.

(** * Keys *)
Lemma folded_cons c r : folded (c :: r) =
      match r with
      | [] => lower c :: folded r
      | d :: r1 =>
          if beq [c; d] [xc5; xbf] then "s"%byte :: folded r1
          else match r1 with
               | [] => lower c :: folded r
               | e :: r2 => if beq [c; d; e] [xe2; x84; xaa] then "k"%byte :: folded r2 else lower c :: folded r
               end
      end.
Proof. reflexivity. Qed.
Lemma folded_plain c r : ~ (exists r', c :: r = [xc5; xbf] ++ r') -> ~ (exists r', c :: r = [xe2; x84; xaa] ++ r') -> folded (c :: r) = lower c :: folded r.
Proof.
  intros N1 N2. rewrite folded_cons. destruct r as [|d r]; [reflexivity|]. destruct (beq_spec [c; d] [xc5; xbf]) as [E|_].
  - exfalso. apply N1. exists r. change (c :: d :: r) with ([c; d] ++ r). rewrite E. reflexivity.
  - destruct r as [|e r]; [reflexivity|]. destruct (beq_spec [c; d; e] [xe2; x84; xaa]) as [E|_]; [|reflexivity]. exfalso. apply N2. exists r. change (c :: d :: e :: r) with ([c; d; e] ++ r). rewrite E. reflexivity.
Qed.
Lemma nth0 (a b : byte) (l m : bytes) : a :: l = b :: m -> byte_eqb a b = false -> False.
Proof. intros E N. apply byte_eqb_neq in N. apply N. exact (f_equal (fun l => nth 0 l x00) E). Qed.
Definition letters (n : bytes) : bool := forallb (fun c => (b2n c <? 128)%N) n.
Lemma letters_folded n : letters n = true -> folded n = map lower n.
Proof.
  induction n as [|c n IH]; intros H; [reflexivity|]. cbn [letters forallb] in H. apply andb_prop in H. destruct H as (H1 & H2). rewrite folded_plain; [cbn [map]; f_equal; exact (IH H2)|..]; intros (r & E); assert (Q := f_equal (fun l => nth 0 l x00) E); cbn [nth app] in Q; subst c; discriminate H1.
Qed.
Lemma lower_ascii c : (b2n c <? 128)%N = true -> (b2n (lower c) <? 128)%N = true.
Proof. intros H. pose proof (byte_sweep (fun c => implb (b2n c <? 128)%N (b2n (lower c) <? 128)%N) eq_refl c) as S. cbn beta in S. rewrite H in S. exact S. Qed.
Lemma fold_match_eq : forall n k, letters n = true -> fold_match n k = true <-> folded k = folded n.
Proof.
  intros n k L. rewrite (letters_folded n L). revert k. induction n as [|c n IH]; intros k.
  - destruct k as [|d k]; [split; reflexivity|]. split; [discriminate|]. rewrite folded_cons. destruct k as [|e k]; [discriminate|]. destruct (beq _ _); [discriminate|]. destruct k as [|f k]; [discriminate|]. destruct (beq _ _); discriminate.
  - cbn [letters forallb] in L. apply andb_prop in L. destruct L as (L1 & L2). specialize (IH L2). destruct k as [|d k]; [split; discriminate|]. cbn [fold_match map].
    pose proof (lower_ascii c L1) as LA.
    assert (ST : forall x r, folded (d :: k) = x :: folded r -> (folded (d :: k) = lower c :: map lower n <-> lower c = x /\ fold_match n r = true)).
    { intros x r E. rewrite E, IH. split; [intros H; split; congruence|intros (-> & ->); reflexivity]. }
    assert (PL : ~ (exists r, d :: k = [xc5; xbf] ++ r) -> ~ (exists r, d :: k = [xe2; x84; xaa] ++ r) ->
      (if byte_eqb (lower c) (lower d) then fold_match n k
       else if byte_eqb (lower c) "s" && has_prefix (d :: k) [xc5; xbf] then fold_match n (skipn 2 (d :: k))
       else if byte_eqb (lower c) "k" && has_prefix (d :: k) [xe2; x84; xaa] then fold_match n (skipn 3 (d :: k)) else false) = true <-> folded (d :: k) = lower c :: map lower n).
    { intros N1 N2. rewrite (ST _ _ (folded_plain _ _ N1 N2)). assert (has_prefix (d :: k) [xc5; xbf] = false) as -> by (apply not_true_iff_false; rewrite has_prefix_iff; exact N1). assert (has_prefix (d :: k) [xe2; x84; xaa] = false) as -> by (apply not_true_iff_false; rewrite has_prefix_iff; exact N2).
      rewrite !andb_false_r. destruct (byte_eqb (lower c) (lower d)) eqn:B; [apply byte_eqb_eq in B; tauto|]. apply byte_eqb_neq in B. split; [discriminate|tauto]. }
    assert (HI : forall h, (128 <=? b2n h)%N = true -> lower h = h -> byte_eqb (lower c) (lower h) = false).
    { intros h H E. apply byte_eqb_neq. rewrite E. intros Q. rewrite Q in LA. apply N.ltb_lt in LA. apply N.leb_le in H. lia. }
    destruct (byte_eq_dec d xc5) as [->|D1].
    + destruct k as [|e k]; [apply PL; [intros (r & E); discriminate E..]|]. destruct (byte_eq_dec e xbf) as [->|D2].
      * rewrite (ST "s"%byte k eq_refl). rewrite (HI xc5 eq_refl eq_refl). cbn [has_prefix skipn]. change (byte_eqb xc5 xc5 && (byte_eqb xbf xbf && true)) with true. rewrite andb_true_r.
        destruct (byte_eqb (lower c) "s") eqn:B; [apply byte_eqb_eq in B; tauto|]. rewrite andb_false_r. apply byte_eqb_neq in B. split; [discriminate|tauto].
      * apply PL; intros (r & E); [exact (D2 (f_equal (fun l => nth 1 l x00) E))|exact (nth0 _ _ _ _ E eq_refl)].
    + destruct (byte_eq_dec d xe2) as [->|D3].
      * destruct k as [|e [|f k]]; [apply PL; [intros (r & E); discriminate E..]|apply PL; [intros (r & E); discriminate E..]|].
        destruct (byte_eq_dec e x84) as [->|D4]; [destruct (byte_eq_dec f xaa) as [->|D5]|].
        -- rewrite (ST "k"%byte k eq_refl). rewrite (HI xe2 eq_refl eq_refl). change (has_prefix (xe2 :: x84 :: xaa :: k) [xc5; xbf]) with false. change (has_prefix (xe2 :: x84 :: xaa :: k) [xe2; x84; xaa]) with true. rewrite andb_false_r, andb_true_r. cbn [skipn].
           destruct (byte_eqb (lower c) "k") eqn:B; [apply byte_eqb_eq in B; tauto|]. apply byte_eqb_neq in B. split; [discriminate|tauto].
        -- apply PL; intros (r & E); [exact (nth0 _ _ _ _ E eq_refl)|exact (D5 (f_equal (fun l => nth 2 l x00) E))].
        -- apply PL; intros (r & E); [exact (nth0 _ _ _ _ E eq_refl)|exact (D4 (f_equal (fun l => nth 1 l x00) E))].
      * apply PL; intros (r & E); [exact (D1 (f_equal (fun l => nth 0 l x00) E))|exact (D3 (f_equal (fun l => nth 0 l x00) E))].
Qed.
Lemma field_no_spec fields k i : forallb letters fields = true -> NoDup (map folded fields) ->
  field_no fields k = Some i <-> exists f, nth_error fields i = Some f /\ folded k = folded f.
Proof.
  revert i. induction fields as [|f fs IH]; intros i L ND.
  - cbn [field_no]. split; [discriminate|]. intros (f & E & _). destruct i; discriminate E.
  - cbn [forallb] in L. apply andb_prop in L. destruct L as (L1 & L2). cbn [map] in ND. inversion ND as [|? ? N1 N2]; subst. cbn [field_no]. destruct (fold_match f k) eqn:M.
    + apply (fold_match_eq f k L1) in M. split.
      * intros E. assert (i = 0) by congruence. subst. exists f. split; [reflexivity|exact M].
      * intros (g & E & G). destruct i as [|i]; [reflexivity|]. exfalso. cbn [nth_error] in E. apply N1. rewrite <- M, G. apply in_map. exact (nth_error_In _ _ E).
    + assert (NM : folded k <> folded f) by (intros Q; apply (fold_match_eq f k L1) in Q; congruence). destruct i as [|i].
      * split; [destruct (field_no fs k); discriminate|]. intros (g & E & G). cbn [nth_error] in E. assert (g = f) by congruence. subst. contradiction.
      * cbn [nth_error]. rewrite <- (IH i L2 N2). destruct (field_no fs k); cbn [option_map]; split; intros H; congruence.
Qed.

(** * Storing values one after the other *)
Fixpoint fold_opt {A} (f : jv -> A -> option A) (vs : list jv) (a : A) : option A :=
  match vs with
  | [] => Some a
  | v :: vs' => match f v a with Some b => fold_opt f vs' b | None => None end
  end.
Lemma last_cons {A} (x : A) l d : last (x :: l) d = last l x.
Proof.
  assert (H : forall l d e, l <> [] -> last l d = @last A l e).
  { clear. induction l as [|y l IH]; intros d e N; [congruence|]. destruct l; [reflexivity|]. exact (IH d e ltac:(discriminate)). }
  destruct l as [|y l]; [reflexivity|]. exact (H (y :: l) d x ltac:(discriminate)).
Qed.
Lemma fold_given {A} (f : jv -> A -> option A) (of : jv -> A -> Prop) zero :
  (forall v a b, f v a = Some b <-> (v = JNull /\ b = a) \/ of v b) -> (forall x, ~ of JNull x) ->
  forall vs a, fold_opt f vs zero = Some a <-> given of zero vs a.
Proof.
  intros H NN vs. revert zero. induction vs as [|v vs IH]; intros zero a.
  - cbn [fold_opt]. split.
    + intros E. exists []. split; [constructor|]. cbn. congruence.
    + intros (os & F & ->). inversion F; subst. reflexivity.
  - cbn [fold_opt]. split.
    + destruct (f v zero) as [b|] eqn:E; [|discriminate]. intros G. apply IH in G. destruct G as (os & F & ->). apply H in E. destruct E as [(-> & ->)|O].
      * exists (None :: os). split; [constructor; [reflexivity|exact F]|reflexivity].
      * exists (Some b :: os). split; [constructor; [exact O|exact F]|]. cbn [flat_map app]. rewrite last_cons. reflexivity.
    + intros (os & F & ->). inversion F as [|? o ? os' F1 F2]; subst. destruct o as [x|].
      * rewrite (proj2 (H v zero x) (or_intror F1)). apply IH. exists os'. split; [exact F2|]. cbn [flat_map app]. rewrite last_cons. reflexivity.
      * subst v. rewrite (proj2 (H JNull zero zero) (or_introl (conj eq_refl eq_refl))). apply IH. exists os'. split; [exact F2|reflexivity].
Qed.
Lemma string_given vs s : fold_opt into_string vs [] = Some s <-> given str_of [] vs s.
Proof.
  apply fold_given; [|intros x; discriminate]. intros v a b. unfold str_of. destruct v; cbn [into_string]; split; intros H; try discriminate; try (destruct H as [(H & _)|H]; discriminate); [left; split; congruence|destruct H as [(_ & ->)|H]; [reflexivity|discriminate]|right; congruence|destruct H as [(H & _)|H]; congruence].
Qed.
Lemma bool_given vs s : fold_opt into_bool vs false = Some s <-> given bool_of false vs s.
Proof.
  apply fold_given; [|intros x; discriminate]. intros v a b. unfold bool_of. destruct v; cbn [into_bool]; split; intros H; try discriminate; try (destruct H as [(H & _)|H]; discriminate); [left; split; congruence|destruct H as [(_ & ->)|H]; [reflexivity|discriminate]|right; congruence|destruct H as [(H & _)|H]; congruence].
Qed.
(** Integers. *)
Lemma dec_val_mono t : forall a, (a <= dec_val a t)%N.
Proof. induction t as [|c t IH]; intros a; cbn [dec_val]; [lia|]. specialize (IH (10 * a + (b2n c - 48))%N). lia. Qed.
Lemma digit_val_in c : match digit_val c with Some d => In c (bs "0123456789") /\ d = (b2n c - 48)%N | None => ~ In c (bs "0123456789") end.
Proof.
  destruct (digit_val c) as [d|] eqn:E.
  - split; [apply digit_in; unfold digit_val in E; unfold is_digit, inr_; destruct (_ && _); [reflexivity|discriminate E]|]. unfold digit_val in E. destruct (_ && _); [congruence|discriminate E].
  - intros H. apply digit_in in H. unfold digit_val in E. unfold is_digit, inr_ in H. rewrite H in E. discriminate E.
Qed.
Lemma parse_uint_go_iff t : forall a n, (a < 2 ^ 64)%N -> parse_uint_go t a = Ok n <-> (Forall (fun c => In c (bs "0123456789")) t /\ n = dec_val a t /\ (n < 2 ^ 64)%N).
Proof.
  induction t as [|c t IH]; intros a n L; cbn [parse_uint_go dec_val].
  - split; [intros E; assert (n = a) by congruence; subst; repeat split; [constructor|exact L]|intros (_ & -> & _); reflexivity].
  - pose proof (digit_val_in c) as D. destruct (digit_val c) as [d|].
    + destruct D as (D1 & ->). rewrite (N.mul_comm a 10). destruct (N.leb_spec (2 ^ 64) (10 * a + (b2n c - 48))) as [M|M].
      * split; [discriminate|]. intros (_ & -> & B). pose proof (dec_val_mono t (10 * a + (b2n c - 48))). lia.
      * rewrite (IH _ _ M). split; [intros (F & E & B); repeat split; [constructor; assumption|exact E|exact B]|intros (F & E & B); inversion F; auto].
    + split; [discriminate|]. intros (F & _). inversion F. contradiction.
Qed.
Lemma ParseUint_iff t n : ParseUint t = Ok n <-> decimal t n /\ (n < 2 ^ 64)%N.
Proof.
  unfold decimal, digits. destruct t as [|c t].
  - split; [discriminate|]. intros (((N & _) & _) & _). congruence.
  - unfold ParseUint. rewrite (parse_uint_go_iff (c :: t) 0 n) by reflexivity. split; [intros (F & E & B)|intros (((_ & F) & E) & B)]; repeat split; auto; discriminate.
Qed.
Lemma decimal_first t n : decimal t n -> exists c t', t = c :: t' /\ byte_eqb c "-" = false.
Proof. intros ((NE & F) & _). destruct t as [|c t]; [congruence|]. exists c, t. split; [reflexivity|]. inversion F as [|? ? D _]; subst. pose proof (in_sweep (bs "0123456789") (fun c => negb (byte_eqb c "-")) eq_refl _ D) as Q. apply negb_true_iff in Q. exact Q. Qed.
Lemma pow63 : Z.of_N (2 ^ 63) = (2 ^ 63)%Z. Proof. reflexivity. Qed.
Lemma pow6364 : (2 ^ 63 < 2 ^ 64)%N. Proof. reflexivity. Qed.
Lemma ParseInt_iff t z : ParseInt t = Some z <-> int_of (JNum t) z.
Proof.
  pose proof pow63 as E1. pose proof pow6364 as E2. assert (E3 : (0 < 2 ^ 63)%Z) by reflexivity. unfold int_of. split.
  - intros H. destruct t as [|c t]; [discriminate H|]. cbn [ParseInt] in H. destruct (byte_eqb c "-") eqn:B.
    + apply byte_eqb_eq in B. subst c. destruct (ParseUint t) as [n| |] eqn:U; try discriminate H. destruct (N.leb_spec n (2 ^ 63)) as [L|L]; [|discriminate H]. apply ParseUint_iff in U. destruct U as (D & _).
      exists t, n. split; [exact D|]. split; [right; split; [reflexivity|congruence]|]. assert (z = - Z.of_N n)%Z by congruence. subst z. revert L E1 E3. generalize (2 ^ 63)%N (2 ^ 63)%Z. intros p r L E1 E3. lia.
    + destruct (ParseUint (c :: t)) as [n| |] eqn:U; try discriminate H. destruct (N.ltb_spec n (2 ^ 63)) as [L|L]; [|discriminate H]. apply ParseUint_iff in U. destruct U as (D & _).
      exists (c :: t), n. split; [exact D|]. split; [left; split; [reflexivity|congruence]|]. assert (z = Z.of_N n)%Z by congruence. subst z. revert L E1 E3. generalize (2 ^ 63)%N (2 ^ 63)%Z. intros p r L E1 E3. lia.
  - intros (t' & n & D & [(E & ->)|(E & ->)] & R).
    + assert (t' = t) by congruence. subst t'. destruct (decimal_first _ _ D) as (c & t' & -> & B). cbn [ParseInt]. rewrite B. assert (L : (n < 2 ^ 63)%N) by (revert R E1 E3; generalize (2 ^ 63)%N (2 ^ 63)%Z; intros p r R E1 E3; lia).
      rewrite (proj2 (ParseUint_iff (c :: t') n)) by (split; [exact D|eapply N.lt_trans; [exact L|exact E2]]). destruct (N.ltb_spec n (2 ^ 63)) as [_|X]; [reflexivity|]. exfalso. exact (N.lt_irrefl _ (N.lt_le_trans _ _ _ L X)).
    + assert (t = bs "-" ++ t') by congruence. subst t. change (bs "-" ++ t') with ("-"%byte :: t'). cbn [ParseInt]. change (byte_eqb "-" "-") with true. cbv iota. assert (L : (n <= 2 ^ 63)%N) by (revert R E1 E3; generalize (2 ^ 63)%N (2 ^ 63)%Z; intros p r R E1 E3; lia).
      rewrite (proj2 (ParseUint_iff t' n)) by (split; [exact D|eapply N.le_lt_trans; [exact L|exact E2]]). destruct (N.leb_spec n (2 ^ 63)) as [_|X]; [reflexivity|]. exfalso. exact (N.lt_irrefl _ (N.le_lt_trans _ _ _ L X)).
Qed.
Lemma int_given vs z : fold_opt into_int vs 0%Z = Some z <-> given int_of 0%Z vs z.
Proof.
  apply fold_given; [|intros x (t & n & _ & [(E & _)|(E & _)] & _); discriminate E].
  intros v a b. assert (NN : forall v, (forall t, v <> JNum t) -> ~ int_of v b) by (intros v0 N (t & n & _ & [(E & _)|(E & _)] & _); exact (N _ E)).
  destruct v; cbn [into_int].
  - split; [intros H; left; split; congruence|]. intros [(_ & ->)|H]; [reflexivity|]. exfalso. revert H. apply NN. intros t E. discriminate E.
  - split; [discriminate|]. intros [(H & _)|H]; [discriminate|]. exfalso. revert H. apply NN. intros t E. discriminate E.
  - rewrite ParseInt_iff. split; [auto|]. intros [(H & _)|H]; [discriminate|exact H].
  - split; [discriminate|]. intros [(H & _)|H]; [discriminate|]. exfalso. revert H. apply NN. intros t E. discriminate E.
  - split; [discriminate|]. intros [(H & _)|H]; [discriminate|]. exfalso. revert H. apply NN. intros t E. discriminate E.
  - split; [discriminate|]. intros [(H & _)|H]; [discriminate|]. exfalso. revert H. apply NN. intros t E. discriminate E.
Qed.

(** * Nodes *)
Definition entries_into (F : jv -> option lnode) : list (bytes * jv) -> list (bytes * option lnode) -> option (list (bytes * option lnode)) :=
  fix entries (l : list (bytes * jv)) (es : list (bytes * option lnode)) : option (list (bytes * option lnode)) :=
    match l with
    | [] => Some es
    | (k', y) :: l' =>
        match y with
        | JNull => entries l' (mset es k' None)
        | _ => match F y with
               | Some c => entries l' (mset es k' (Some c))
               | None => None
               end
        end
    end.
Definition group_into (F : jv -> option lnode) (x : jv) (es : list (bytes * option lnode)) : option (list (bytes * option lnode)) :=
  match x with
  | JNull => Some []
  | JObj l => entries_into F l es
  | _ => None
  end.
Fixpoint members_into (F : jv -> option lnode) (ms : list (bytes * jv)) (n : lnode) : option lnode :=
  match ms with
  | [] => Some n
  | (k, x) :: ms' =>
      let '(LNode ty es sz tg ex off) := n in
      match field_no node_fields k with
      | Some 0 => match into_string x ty with Some ty => members_into F ms' (LNode ty es sz tg ex off) | None => None end
      | Some 1 => match group_into F x es with Some es => members_into F ms' (LNode ty es sz tg ex off) | None => None end
      | Some 2 => match into_int x sz with Some sz => members_into F ms' (LNode ty es sz tg ex off) | None => None end
      | Some 3 => match into_string x tg with Some tg => members_into F ms' (LNode ty es sz tg ex off) | None => None end
      | Some 4 => match into_bool x ex with Some ex => members_into F ms' (LNode ty es sz tg ex off) | None => None end
      | Some 5 => match into_int x off with Some off => members_into F ms' (LNode ty es sz tg ex off) | None => None end
      | _ => None
      end
  end.
Lemma into_node_obj ms n : into_node (JObj ms) n = members_into (fun y => into_node y zero_node) ms n.
Proof.
  revert n. induction ms as [|(k & x) ms IH]; intros n; [reflexivity|]. destruct n as [ty es sz tg ex off]. cbn [members_into].
  change (into_node (JObj ((k, x) :: ms)) (LNode ty es sz tg ex off)) with
    (match field_no node_fields k with
      | Some 0 => match into_string x ty with Some ty => into_node (JObj ms) (LNode ty es sz tg ex off) | None => None end
      | Some 1 => match x with
                  | JNull => into_node (JObj ms) (LNode ty [] sz tg ex off)
                  | JObj l => match entries_into (fun y => into_node y zero_node) l es with Some es => into_node (JObj ms) (LNode ty es sz tg ex off) | None => None end
                  | _ => None
                  end
      | Some 2 => match into_int x sz with Some sz => into_node (JObj ms) (LNode ty es sz tg ex off) | None => None end
      | Some 3 => match into_string x tg with Some tg => into_node (JObj ms) (LNode ty es sz tg ex off) | None => None end
      | Some 4 => match into_bool x ex with Some ex => into_node (JObj ms) (LNode ty es sz tg ex off) | None => None end
      | Some 5 => match into_int x off with Some off => into_node (JObj ms) (LNode ty es sz tg ex off) | None => None end
      | _ => None
      end).
  destruct (field_no node_fields k) as [[|[|[|[|[|[|i]]]]]]|]; try reflexivity.
  - destruct (into_string x ty); [apply IH|reflexivity].
  - destruct x; try reflexivity; cbn [group_into]; [apply IH|]. destruct (entries_into _ l es); [apply IH|reflexivity].
  - destruct (into_int x sz); [apply IH|reflexivity].
  - destruct (into_string x tg); [apply IH|reflexivity].
  - destruct (into_bool x ex); [apply IH|reflexivity].
  - destruct (into_int x off); [apply IH|reflexivity].
Qed.
Lemma members_app F a b n : members_into F (a ++ b) n = match members_into F a n with Some n' => members_into F b n' | None => None end.
Proof.
  revert n. induction a as [|(k & x) a IH]; intros n; [reflexivity|]. destruct n as [ty es sz tg ex off]. cbn [app members_into]. destruct (field_no node_fields k) as [[|[|[|[|[|[|i]]]]]]|]; try reflexivity;
  match goal with |- match ?m with Some _ => _ | None => _ end = _ => destruct m; [apply IH|reflexivity] end.
Qed.
(** The members that belong to a field. *)
Lemma named_cons f k x ms : named f ((k, x) :: ms) = (if beq (folded k) (folded (bs f)) then [x] else []) ++ named f ms.
Proof. unfold named. cbn [filter fst]. destruct (beq (folded k) (folded (bs f))); reflexivity. Qed.
Lemma fields_letters : forallb letters node_fields = true. Proof. reflexivity. Qed.
Lemma fields_nodup : NoDup (map folded node_fields).
Proof. repeat (constructor; [cbn [node_fields map In]; vm_compute; intuition discriminate|]). constructor. Qed.
Lemma fold_opt_app {A} (f : jv -> A -> option A) a b x : fold_opt f (a ++ b) x = match fold_opt f a x with Some y => fold_opt f b y | None => None end.
Proof. revert x. induction a as [|v a IH]; intros x; [reflexivity|]. cbn [app fold_opt]. destruct (f v x); [apply IH|reflexivity]. Qed.
Lemma known_cons fs k x ms : only_known fs ((k, x) :: ms) <-> (exists f, In f fs /\ folded k = folded (bs f)) /\ only_known fs ms.
Proof. unfold only_known. split; [intros H; inversion H; auto|intros (A & B); constructor; assumption]. Qed.
Lemma members_fields F ms : forall ty es sz tg ex off ty' es' sz' tg' ex' off',
  members_into F ms (LNode ty es sz tg ex off) = Some (LNode ty' es' sz' tg' ex' off') <->
  only_known node_names ms /\ fold_opt into_string (named "type" ms) ty = Some ty' /\ fold_opt (group_into F) (named "entries" ms) es = Some es' /\
  fold_opt into_int (named "size" ms) sz = Some sz' /\ fold_opt into_string (named "target" ms) tg = Some tg' /\ fold_opt into_bool (named "executable" ms) ex = Some ex' /\
  fold_opt into_int (named "narOffset" ms) off = Some off'.
Proof.
  induction ms as [|(k & x) ms IH]; intros ty es sz tg ex off ty' es' sz' tg' ex' off'.
  - cbn [members_into named filter map fold_opt]. split.
    + intros E. split; [constructor|]. repeat split; congruence.
    + intros (_ & A1 & A2 & A3 & A4 & A5 & A6). congruence.
  - rewrite !named_cons, !fold_opt_app, known_cons. cbn [members_into]. destruct (field_no node_fields k) as [i|] eqn:FN.
    + apply (field_no_spec _ _ _ fields_letters fields_nodup) in FN. destruct FN as (f & NE & FK).
      change node_fields with (map bs node_names) in NE. rewrite nth_error_map in NE. destruct (nth_error node_names i) as [g|] eqn:NG; [|discriminate NE]. assert (f = bs g) by (cbn [option_map] in NE; congruence). subst f. clear NE.
      assert (KN : exists g, In g node_names /\ folded k = folded (bs g)) by (exists g; split; [exact (nth_error_In _ _ NG)|exact FK]).
      rewrite FK in KN |- *. do 6 (destruct i as [|i]; [cbn [nth_error node_names] in NG; injection NG as <-; clear FK;
        repeat match goal with |- context [beq (folded (bs ?a)) (folded (bs ?b))] => let v := eval vm_compute in (beq (folded (bs a)) (folded (bs b))) in change (beq (folded (bs a)) (folded (bs b))) with v end; cbv iota; cbn [fold_opt app];
        match goal with |- match ?m with Some _ => _ | None => _ end = _ <-> _ => destruct m as [y|]; [rewrite IH; clear IH; generalize KN; clear KN; intros KN; split; [intros (H1 & H2); split; [split; [exact KN|exact H1]|exact H2]|intros ((_ & H1) & H2); split; [exact H1|exact H2]]|split; [discriminate|intros (_ & H); repeat (destruct H as (? & H)); discriminate]] end|]). destruct i; discriminate NG.
    + split; [discriminate|]. intros (((g & G & E) & _) & _). exfalso. assert (X : exists i, field_no node_fields k = Some i).
      { apply In_nth_error in G. destruct G as (i & G). exists i. apply (field_no_spec _ _ _ fields_letters fields_nodup). exists (bs g). split; [|exact E]. change node_fields with (map bs node_names). apply map_nth_error. exact G. }
      destruct X as (i & X). congruence.
Qed.
(** * Entries *)
Definition eF (F : jv -> option lnode) (y : jv) (o : option lnode) : Prop := (y = JNull /\ o = None) \/ (y <> JNull /\ exists c, F y = Some c /\ o = Some c).
Definition msets {V} (m : amap V) (l : list (bytes * V)) : amap V := fold_left (fun m p => mset m (fst p) (snd p)) l m.
Lemma entries_cons F k y l es : entries_into F ((k, y) :: l) es = match y with JNull => entries_into F l (mset es k None) | _ => match F y with Some c => entries_into F l (mset es k (Some c)) | None => None end end.
Proof. reflexivity. Qed.
Lemma entries_iff F l : forall es es', entries_into F l es = Some es' <-> exists l', Forall2 (fun p q => fst q = fst p /\ eF F (snd p) (snd q)) l l' /\ es' = msets es l'.
Proof.
  induction l as [|(k & y) l IH]; intros es es'.
  - split; [intros E; exists []; split; [constructor|cbn [msets fold_left]; cbv in E; congruence]|]. intros (l' & F2 & ->). inversion F2; subst. reflexivity.
  - rewrite entries_cons. split.
    + intros E. assert (X : exists o, eF F y o /\ entries_into F l (mset es k o) = Some es').
      { destruct y; [exists None; split; [left; auto|exact E]|..]; (destruct (F _) as [c|] eqn:Fy; [|discriminate E]); exists (Some c); (split; [right; split; [discriminate|eauto]|exact E]). }
      destruct X as (o & EF & E'). apply IH in E'. destruct E' as (l' & F2 & ->). exists ((k, o) :: l'). split; [constructor; [split; [reflexivity|exact EF]|exact F2]|reflexivity].
    + intros (l' & F2 & ->). inversion F2 as [|? (k' & o) ? l2 (K & EF) F3]; subst. cbn [fst snd] in K, EF. subst k'.
      assert (E : entries_into F l (mset es k o) = Some (msets es ((k, o) :: l2))) by (apply IH; exists l2; split; [exact F3|reflexivity]).
      destruct EF as [(-> & ->)|(NN & c & Fy & ->)]; [exact E|]. destruct y; try contradiction; rewrite Fy; exact E.
Qed.
Definition gF (F : jv -> option lnode) (x : jv) (g : option (list (bytes * option lnode))) : Prop :=
  match x, g with
  | JNull, None => True
  | JObj l, Some l' => Forall2 (fun p q => fst q = fst p /\ eF F (snd p) (snd q)) l l'
  | _, _ => False
  end.
Definition gmerge {V} (m : amap V) (g : option (list (bytes * V))) : amap V := match g with None => [] | Some l => msets m l end.
Lemma groups_iff F vs : forall es es', fold_opt (group_into F) vs es = Some es' <-> exists gs, Forall2 (gF F) vs gs /\ es' = fold_left gmerge gs es.
Proof.
  induction vs as [|x vs IH]; intros es es'; cbn [fold_opt].
  - split; [intros E; exists []; split; [constructor|cbn [fold_left]; congruence]|]. intros (gs & F2 & ->). inversion F2; subst. reflexivity.
  - split.
    + intros E. assert (X : exists g, gF F x g /\ fold_opt (group_into F) vs (gmerge es g) = Some es').
      { destruct x; cbn [group_into] in E; try discriminate E; [exists None; split; [exact I|exact E]|]. destruct (entries_into F l es) as [es1|] eqn:EI; [|discriminate E]. apply entries_iff in EI. destruct EI as (l' & F2 & ->). exists (Some l'). split; [exact F2|exact E]. }
      destruct X as (g & G & E'). apply IH in E'. destruct E' as (gs & F2 & ->). exists (g :: gs). split; [constructor; assumption|reflexivity].
    + intros (gs & F2 & ->). inversion F2 as [|? g ? gs2 G F3]; subst. assert (GI : group_into F x es = Some (gmerge es g)).
      { destruct x; cbn [gF] in G; try contradiction; destruct g as [l'|]; try contradiction; [reflexivity|]. cbn [group_into gmerge]. apply entries_iff. eauto. }
      rewrite GI. apply IH. exists gs2. split; [exact F3|reflexivity].
Qed.
Lemma msets_app {V} (m : amap V) a b : msets m (a ++ b) = msets (msets m a) b.
Proof. apply fold_left_app. Qed.
Lemma merged {V} (gs : list (option (list (bytes * V)))) : fold_left gmerge gs [] = msets [] (since_null gs).
Proof.
  unfold since_null. enough (X : forall acc, fold_left gmerge gs (msets [] acc) = msets [] (fold_left (fun acc g => match g with None => [] | Some l => acc ++ l end) gs acc)) by exact (X []).
  induction gs as [|g gs IH]; intros acc; [reflexivity|]. cbn [fold_left]. destruct g as [l|]; cbn [gmerge]; [rewrite <- msets_app; apply IH|]. exact (IH []).
Qed.
Lemma msets_last {V} (l : list (bytes * V)) : last_wins l (msets [] l).
Proof.
  induction l as [|p l IH] using rev_ind; [split; [constructor|]; intros k x; split; [intros []|intros (a & b & E & _); destruct a; discriminate]|].
  destruct IH as (ND & IH). rewrite msets_app. cbn [msets fold_left]. fold (msets (@nil (bytes * V)) l). destruct p as (k0 & v0). cbn [fst snd]. split; [exact (mset_nodup _ k0 v0 ND)|].
  intros k x. assert (G : forall m : amap V, NoDup (mkeys m) -> (In (k, x) m <-> mget m k = Some x)) by (intros m N; split; [apply in_mget; exact N|apply mget_in]).
  assert (SN : forall a b, l ++ [(k0, v0)] = a ++ (k, x) :: b -> (b = [] /\ a = l /\ (k0, v0) = (k, x)) \/ exists b', b = b' ++ [(k0, v0)] /\ l = a ++ (k, x) :: b').
  { intros a b E. destruct b as [|z b _] using rev_ind; [left|right].
    - apply app_inj_tail in E. destruct E. auto.
    - exists b. change ((k, x) :: b ++ [z]) with (((k, x) :: b) ++ [z]) in E. rewrite app_assoc in E. apply app_inj_tail in E. destruct E as (-> & <-). auto. }
  rewrite (G _ (mset_nodup _ k0 v0 ND)), mget_mset. destruct (beq_spec k0 k) as [<-|NE].
  - split; [intros E; assert (v0 = x) by congruence; subst v0; exists l, []; split; [reflexivity|intros []]|].
    intros (a & b & E & NI). apply SN in E. destruct E as [(_ & _ & E)|(b' & -> & _)]; [congruence|]. exfalso. apply NI. rewrite map_app. apply in_or_app. right. left. reflexivity.
  - rewrite <- (G _ ND), IH. split.
    + intros (a & b & -> & NI). exists a, (b ++ [(k0, v0)]). rewrite <- app_assoc. split; [reflexivity|]. rewrite map_app. intros I. apply in_app_or in I. destruct I as [I|[I|[]]]; [contradiction|]. apply NE. exact I.
    + intros (a & b & E & NI). apply SN in E. destruct E as [(_ & _ & E)|(b' & -> & ->)]; [congruence|]. exists a, b'. split; [reflexivity|]. intros I. apply NI. rewrite map_app. apply in_or_app. auto.
Qed.
(** Two lists with related values. *)
Definition ro2 (a b : bytes * option lnode) : Prop := fst a = fst b /\ reordered (snd a) (snd b).
Lemma ro2_keys l l' : Forall2 ro2 l l' -> map fst l = map fst l'.
Proof. induction 1 as [|p q l l' (A & _) F IH]; [reflexivity|]. cbn [map]. congruence. Qed.
Lemma last_wins_related l l' m m' : last_wins l m -> last_wins l' m' -> Forall2 ro2 l l' -> exists m1, Permutation m m1 /\ Forall2 ro2 m1 m'.
Proof.
  intros (ND & W) (ND' & W') F2.
  assert (B : forall p', In p' m' -> exists p, In p m /\ ro2 p p').
  { intros (k & x) I. apply W' in I. destruct I as (a & b & -> & NI). apply Forall2_app_inv_r in F2. destruct F2 as (a1 & b1 & _ & F3 & ->). inversion F3 as [|(k1 & x1) ? b2 ? R F4]; subst.
    exists (k1, x1). split; [|exact R]. apply W. exists a1, b2. split; [reflexivity|]. rewrite (ro2_keys _ _ F4). destruct R as (R & _). cbn [fst] in R. subst k1. exact NI. }
  assert (S : exists m1, Forall2 ro2 m1 m' /\ incl m1 m).
  { clear - B. induction m' as [|p' m' IH]; [exists []; split; [constructor|intros ? []]|]. destruct (B p' (or_introl eq_refl)) as (p & I & R). destruct IH as (m1 & F & C); [intros q Q; apply B; right; exact Q|].
    exists (p :: m1). split; [constructor; assumption|]. intros q [<-|Q]; [exact I|apply C; exact Q]. }
  destruct S as (m1 & F3 & C). exists m1. split; [|exact F3]. assert (N1 : NoDup (map fst m1)) by (rewrite (ro2_keys _ _ F3); exact ND').
  apply NoDup_Permutation; [exact (NoDup_map_inv _ _ ND)|exact (NoDup_map_inv _ _ N1)|]. intros (k & x). split; [|apply C]. intros I.
  assert (K : In k (map fst m1)).
  { rewrite (ro2_keys _ _ F3). apply W in I. destruct I as (a & b & -> & NI). apply Forall2_app_inv_l in F2. destruct F2 as (a1 & b1 & _ & F4 & ->). inversion F4 as [|? (k1 & x1) ? b2 R F5]; subst.
    destruct R as (R & _). cbn [fst] in R. subst k1. apply in_map_iff. exists (k, x1). split; [reflexivity|]. apply W'. exists a1, b2. split; [reflexivity|]. rewrite <- (ro2_keys _ _ F5). exact NI. }
  apply in_map_iff in K. destruct K as ((k2 & x2) & E & I2). cbn [fst] in E. subst k2. assert (x2 = x) by (apply C in I2; apply (in_mget m k x2 ND) in I2; apply (in_mget m k x ND) in I; congruence). subst x2. exact I2.
Qed.
(** * Nodes *)
Definition Q (v : jv) : Prop :=
  (forall n, into_node v zero_node = Some n -> node_of v n) /\
  (forall n, node_of v n -> exists n', into_node v zero_node = Some n' /\ reordered (Some n') (Some n)).
Definition Qs (v : jv) : Prop := Q v /\ forall l, v = JObj l -> Forall (fun p => Q (snd p)) l.
Notation IN := (fun y => into_node y zero_node).
Lemma since_null_app {A} (gs : list (option (list A))) : forall gs', forall R : A -> A -> Prop, forall a b, Forall2 R a b ->
  Forall2 (fun g g' => match g, g' with None, None => True | Some l, Some l' => Forall2 R l l' | _, _ => False end) gs gs' ->
  Forall2 R (fold_left (fun acc g => match g with None => [] | Some l => acc ++ l end) gs a) (fold_left (fun acc g => match g with None => [] | Some l => acc ++ l end) gs' b).
Proof.
  induction gs as [|g gs IH]; intros gs' R a b AB F; inversion F as [|? g' ? gs2 G F3]; subst; [exact AB|]. cbn [fold_left]. apply IH; [|exact F3].
  destruct g, g'; try contradiction; [apply Forall2_app; assumption|constructor].
Qed.
Lemma entry_sound y o : Q y -> eF IN y o -> entry_of y o.
Proof. intros (S & _) [(-> & ->)|(NN & c & E & ->)]; [constructor|]. constructor; [exact NN|apply S; exact E]. Qed.
Lemma entry_complete y o : Q y -> entry_of y o -> exists o', eF IN y o' /\ reordered o' o.
Proof.
  intros (_ & C) E. inversion E as [|? n NN NO]; subst; [exists None; split; [left; auto|constructor]|]. destruct (C n NO) as (n' & I & R). exists (Some n'). split; [right; eauto|exact R].
Qed.
Lemma group_sound v g : Qs v -> gF IN v g -> group_of v g.
Proof.
  intros (_ & H) G. destruct v; cbn [gF] in G; try contradiction; destruct g as [l'|]; try contradiction; [constructor|]. specialize (H _ eq_refl). constructor.
  revert H. induction G as [|p q l l' (A & B) G IH]; intros H; [constructor|]. inversion H; subst. constructor; [split; [exact A|apply entry_sound; assumption]|apply IH; assumption].
Qed.
Definition ro3 (g g' : option (list (bytes * option lnode))) : Prop := match g, g' with None, None => True | Some l, Some l' => Forall2 ro2 l l' | _, _ => False end.
Lemma group_complete v g : Qs v -> group_of v g -> exists g', gF IN v g' /\ ro3 g' g.
Proof.
  intros (_ & H) G. inversion G as [|l l' F]; subst; [exists None; split; exact I|]. specialize (H _ eq_refl). cbn [gF].
  assert (X : exists l1, Forall2 (fun p q => fst q = fst p /\ eF IN (snd p) (snd q)) l l1 /\ Forall2 ro2 l1 l').
  { clear G. revert H. induction F as [|p q l l' (A & B) F IH]; intros H; [exists []; split; constructor|]. inversion H as [|? ? H1 H2]; subst. destruct (entry_complete _ _ H1 B) as (o & E1 & E2). destruct (IH H2) as (l1 & F1 & F2).
    exists ((fst p, o) :: l1). split; constructor; try assumption; split; cbn [fst snd]; auto. }
  destruct X as (l1 & F1 & F2). exists (Some l1). split; assumption.
Qed.
Lemma groups_sound vs es : Forall Qs vs -> fold_opt (group_into IN) vs [] = Some es -> exists gs, Forall2 group_of vs gs /\ last_wins (since_null gs) es.
Proof.
  intros H E. apply groups_iff in E. destruct E as (gs & F & ->). exists gs. split; [|rewrite merged; apply msets_last].
  revert H. induction F as [|v g vs gs G F IH]; intros H; [constructor|]. inversion H; subst. constructor; [apply group_sound; assumption|apply IH; assumption].
Qed.
Lemma groups_complete vs gs es : Forall Qs vs -> Forall2 group_of vs gs -> last_wins (since_null gs) es ->
  exists es' es1, fold_opt (group_into IN) vs [] = Some es' /\ Permutation es' es1 /\ Forall2 ro2 es1 es.
Proof.
  intros H F W. assert (X : exists gs', Forall2 (gF IN) vs gs' /\ Forall2 ro3 gs' gs).
  { clear W. revert H. induction F as [|v g vs gs G F IH]; intros H; [exists []; split; constructor|]. inversion H as [|? ? H1 H2]; subst. destruct (group_complete _ _ H1 G) as (g' & A & B). destruct (IH H2) as (gs' & A' & B'). exists (g' :: gs'). split; constructor; assumption. }
  destruct X as (gs' & F1 & F2). destruct (last_wins_related (since_null gs') (since_null gs) (msets [] (since_null gs')) es) as (es1 & P & R); [apply msets_last|exact W|apply since_null_app; [constructor|exact F2]|].
  exists (msets [] (since_null gs')), es1. split; [|split; assumption]. apply groups_iff. exists gs'. split; [exact F1|]. symmetry. apply merged.
Qed.
Lemma named_Forall (R : jv -> Prop) f ms : Forall (fun p => R (snd p)) ms -> Forall R (named f ms).
Proof. intros H. unfold named. induction H as [|p ms A H IH]; [constructor|]. cbn [filter]. destruct (beq _ _); [constructor; assumption|exact IH]. Qed.
Lemma node_obj ms : Forall (fun p => Qs (snd p)) ms -> Q (JObj ms).
Proof.
  intros H. apply (named_Forall Qs "entries") in H. split.
  - intros [ty es sz tg ex off] E. rewrite into_node_obj in E. apply members_fields in E. destruct E as (K & A1 & A2 & A3 & A4 & A5 & A6).
    apply string_given in A1, A4. apply int_given in A3, A6. apply bool_given in A5. apply (groups_sound _ _ H) in A2. destruct A2 as (gs & G & W). econstructor; eassumption.
  - intros n NO. inversion NO as [|? ty gs es sz tg ex off K A1 A3 A4 A5 A6 G W]; subst. apply string_given in A1, A4. apply int_given in A3, A6. apply bool_given in A5.
    destruct (groups_complete _ _ _ H G W) as (es' & es1 & A2 & P & R). exists (LNode ty es' sz tg ex off). split; [rewrite into_node_obj; apply members_fields; auto 10|]. econstructor; [exact P|exact R].
Qed.
Lemma node_all v : Qs v.
Proof.
  apply (jv_nested Qs); intros; (split; [|intros l' E; try discriminate E]); try (split; [intros n E; discriminate E|intros n E; inversion E]).
  - split; [intros n E; cbn [into_node] in E; unfold zero_node in E; inversion E; subst; constructor|]. intros n E. inversion E; subst. eexists. split; [reflexivity|]. econstructor; [apply Permutation_refl|constructor].
  - apply node_obj. assumption.
  - assert (l' = l) by congruence. subst l'. eapply Forall_impl; [|eassumption]. intros p (A & _). exact A.
Qed.
(** * The root *)
Lemma root_letters : forallb letters root_fields = true. Proof. reflexivity. Qed.
Lemma root_nodup : NoDup (map folded root_fields).
Proof. repeat (constructor; [cbn [root_fields map In]; vm_compute; intuition discriminate|]). constructor. Qed.
Lemma root_fold ms : forall v n v' n', root_members ms (LRoot v n) = Some (LRoot v' n') <->
  only_known ["version"; "root"]%string ms /\ fold_opt into_int (named "version" ms) v = Some v' /\ fold_opt into_node (named "root" ms) n = Some n'.
Proof.
  induction ms as [|(k & x) ms IH]; intros v n v' n'.
  - cbn [root_members named filter map fold_opt]. split; [intros E; split; [constructor|]; split; congruence|]. intros (_ & A1 & A2). congruence.
  - rewrite !named_cons, !fold_opt_app, known_cons. cbn [root_members lversion lroot_node]. destruct (field_no root_fields k) as [i|] eqn:FN.
    + apply (field_no_spec _ _ _ root_letters root_nodup) in FN. destruct FN as (f & NE & FK).
      assert (KN : exists g, In g ["version"; "root"]%string /\ folded k = folded (bs g)).
      { destruct i as [|[|i]]; [exists "version"%string|exists "root"%string|destruct i; discriminate NE]; cbn [root_fields map nth_error] in NE; (split; [cbn [In]; auto|]); rewrite FK; injection NE as <-; reflexivity. }
      destruct i as [|[|i]]; [| |destruct i; discriminate NE]; cbn [root_fields map nth_error] in NE; assert (E : f = bs "version" \/ f = bs "Root") by (injection NE as <-; auto); clear E.
      * assert (E : folded k = folded (bs "version")) by (rewrite FK; injection NE as <-; reflexivity). rewrite E in KN |- *. clear NE FK E f.
        change (beq (folded (bs "version")) (folded (bs "version"))) with true. change (beq (folded (bs "version")) (folded (bs "root"))) with false. cbv iota. cbn [fold_opt].
        destruct (into_int x v) as [z|]; [rewrite IH; tauto|split; [discriminate|intros (_ & H & _); discriminate H]].
      * assert (E : folded k = folded (bs "root")) by (rewrite FK; injection NE as <-; reflexivity). rewrite E in KN |- *. clear NE FK E f.
        change (beq (folded (bs "root")) (folded (bs "version"))) with false. change (beq (folded (bs "root")) (folded (bs "root"))) with true. cbv iota. cbn [fold_opt].
        destruct (into_node x n) as [z|]; [rewrite IH; tauto|split; [discriminate|intros (_ & _ & H); discriminate H]].
    + split; [discriminate|]. intros (((g & G & E) & _) & _). exfalso. assert (X : exists i, field_no root_fields k = Some i).
      { destruct G as [<-|[<-|[]]]; [exists 0|exists 1]; apply (field_no_spec _ _ _ root_letters root_nodup); eexists; (split; [reflexivity|]); rewrite E; reflexivity. }
      destruct X as (i & X). congruence.
Qed.
Notation flat := (flat_map (fun v => match v with JObj l => l | _ => [] end)).
Lemma roots_merge vs : forall n n', fold_opt into_node vs n = Some n' <-> Forall (fun v => v = JNull \/ exists l, v = JObj l) vs /\ members_into IN (flat vs) n = Some n'.
Proof.
  induction vs as [|v vs IH]; intros n n'; cbn [fold_opt flat_map]; [split; [intros E; split; [constructor|exact E]|intros (_ & E); exact E]|].
  rewrite members_app. split.
  - intros E. destruct v; try discriminate E.
    + cbn [into_node] in E. apply IH in E. destruct E as (A & B). split; [constructor; auto|exact B].
    + rewrite into_node_obj in E. destruct (members_into IN l n) as [n1|] eqn:M; [|discriminate E]. apply IH in E. destruct E as (A & B). split; [constructor; eauto|]. exact B.
  - intros (A & B). inversion A as [|? ? [->|(l & ->)] A2]; subst; cbn [members_into] in B.
    + cbn [into_node]. apply IH. auto.
    + rewrite into_node_obj. destruct (members_into IN l n) as [n1|]; [|discriminate B]. apply IH. auto.
Qed.
Lemma into_root_sound v root : into_root v = Some root -> lversion root <> 0%Z -> listing_of v root.
Proof.
  intros E NZ. destruct v; try discriminate E; [cbn [into_root] in E; inversion E; subst; cbn [lversion] in NZ; lia|]. cbn [into_root] in E. destruct root as [v n]. apply root_fold in E. destruct E as (K & V & R). apply roots_merge in R. destruct R as (R1 & R2).
  exists l. split; [reflexivity|]. split; [exact K|]. split; [apply int_given; exact V|]. split; [exact R1|]. cbn [lroot_node]. apply (proj1 (proj1 (node_all _))). rewrite into_node_obj. exact R2.
Qed.
Lemma into_root_complete v root : listing_of v root -> exists n, into_root v = Some (LRoot (lversion root) n) /\ reordered (Some n) (Some (lroot_node root)).
Proof.
  intros (ms & -> & K & V & R & N). apply (proj2 (proj1 (node_all _))) in N. destruct N as (n & N & RO). rewrite into_node_obj in N. exists n. split; [|exact RO]. cbn [into_root]. apply root_fold. split; [exact K|]. split; [apply int_given; exact V|]. apply roots_merge. auto.
Qed.
(** * The name *)
Lemma name_fold ms : forall s, name_members ms s = fold_opt into_string (named "name" ms) s.
Proof.
  induction ms as [|(k & x) ms IH]; intros s; [reflexivity|]. rewrite named_cons. cbn [name_members]. assert (X : fold_match (bs "Name") k = beq (folded k) (folded (bs "name"))).
  { apply eq_true_iff_eq. rewrite (fold_match_eq (bs "Name") k eq_refl), beq_eq. change (folded (bs "Name")) with (folded (bs "name")). reflexivity. }
  rewrite X. destruct (beq (folded k) (folded (bs "name"))); cbn [app fold_opt]; [destruct (into_string x s); [apply IH|reflexivity]|apply IH].
Qed.
Lemma name_given ms n : name_members ms [] = Some n <-> attr_name (JObj ms) n.
Proof. rewrite name_fold, string_given. split; [intros G; exists ms; auto|]. intros (ms' & E & G). assert (ms' = ms) by congruence. subst ms'. exact G. Qed.
(** * Texts *)
Lemma skip_all w : white w -> skip_ws w = [].
Proof. intros W. pose proof (skip_white w [] W) as H. rewrite app_nil_r in H. exact H. Qed.
Lemma skip_none t : skip_ws t = [] -> white t.
Proof. intros E. destruct (skip_ws_split t) as (w & W & T & _). rewrite E, app_nil_r in T. subst t. exact W. Qed.
Lemma attrs_text t v : (exists rest, parse_value t = Some (v, rest) /\ skip_ws rest = []) <-> jtext true v t /\ (N.of_nat (nesting v) <= 10000)%N.
Proof.
  split.
  - intros (rest & P & E). apply parse_jtext in P. destruct P as (N & u & (w1 & u' & w2 & W1 & V & W2 & ->) & ->). split; [|exact N]. exists w1, u', (w2 ++ rest). split; [exact W1|]. split; [exact V|]. split; [apply Forall_app; split; [exact W2|apply skip_none; exact E]|]. rewrite <- !app_assoc. reflexivity.
  - intros (J & N). destruct (jtext_parse true v t [] J N (fun _ => I)) as (w & W & P). rewrite !app_nil_r in P. exists w. split; [exact P|apply skip_all; exact W].
Qed.
Lemma attrs_iff t n : attrs_name t = Ok (Some n) <-> exists v, jtext true v t /\ (N.of_nat (nesting v) <= 10000)%N /\ attr_name v n.
Proof.
  split.
  - unfold attrs_name. destruct (parse_value t) as [(v & rest)|] eqn:P; [|discriminate]. destruct (skip_ws rest) as [|c r] eqn:E; [|discriminate]. destruct (proj1 (attrs_text t v) (ex_intro _ rest (conj P E))) as (J & N).
    intros H. exists v. split; [exact J|]. split; [exact N|]. destruct v; try discriminate H. destruct (name_members l []) as [m|] eqn:M; [|discriminate H]. assert (m = n) by congruence. subst m. apply name_given. exact M.
  - intros (v & J & N & A). destruct (proj2 (attrs_text t v) (conj J N)) as (rest & P & E). unfold attrs_name. rewrite P, E. pose proof A as (ms & -> & _). apply name_given in A. rewrite A. reflexivity.
Qed.
Lemma attrs_null t : attrs_name t = Ok None <-> jtext true JNull t.
Proof.
  split.
  - unfold attrs_name. destruct (parse_value t) as [(v & rest)|] eqn:P; [|discriminate]. destruct (skip_ws rest) as [|c r] eqn:E; [|discriminate]. destruct (proj1 (attrs_text t v) (ex_intro _ rest (conj P E))) as (J & N).
    intros H. destruct v; try discriminate H; [exact J|]. destruct (name_members l []); discriminate H.
  - intros J. destruct (proj2 (attrs_text t JNull)) as (rest & P & E); [split; [exact J|cbn [nesting]; lia]|]. unfold attrs_name. rewrite P, E. reflexivity.
Qed.
Lemma attrs_no_panic t : is_panic (attrs_name t) = false.
Proof. unfold attrs_name. destruct (parse_value t) as [(v & rest)|]; [|reflexivity]. destruct (skip_ws rest); [|reflexivity]. destruct v; try reflexivity. destruct (name_members l []); reflexivity. Qed.
Lemma ls_text t v : (exists rest, parse_value t = Some (v, rest)) -> exists w u rest, t = w ++ u ++ rest /\ white w /\ jvalue true v u /\ (N.of_nat (nesting v) <= 10000)%N.
Proof.
  intros (rest & P). destruct (proj1 (dec_sound _) _ _ _ _ P) as ((w & u & W & V & T) & F). exists w, u, rest. split; [exact T|]. split; [exact W|]. split; [exact V|]. change 10000%N with max_depth. destruct F; lia.
Qed.
Lemma ls_parse w u rest v : white w -> jvalue true v u -> (N.of_nat (nesting v) <= 10000)%N -> is_num v = false -> parse_value (w ++ u ++ rest) = Some (v, rest).
Proof. intros W V N NN. unfold parse_value. apply (proj1 (dec_complete true)); [exact V|exact W|change max_depth with 10000%N; lia|intros X; congruence|rewrite !app_length; lia]. Qed.
Lemma validate_panic n : is_panic (validateNode n) = true -> below n None.
Proof.
  induction n as [ty es size target exec off IH] using lnode_ind2. intros H. set (n := LNode ty es size target exec off) in *. 
  assert (X : forall l, (forall e, In e l -> In e es) -> is_panic ((fix loop (es : list (bytes * option lnode)) : res unit :=
     match es with
     | [] => Ok tt
     | (k, v) :: es' =>
         if negb (IsValidNodeName k) then Err (EMsg "invalid entry name")
         else if (beq ty TypeRegular || beq ty TypeDirectory) && negb (beq target [])
         then Err (EMsg "LinkTarget is not empty")
         else if (beq ty TypeDirectory || beq ty TypeSymlink) && negb (Z.eqb size 0)
         then Err (EMsg "Size is not 0")
         else if (beq ty TypeDirectory || beq ty TypeSymlink) && exec
         then Err (EMsg "Executable is true")
         else if beq ty TypeSymlink && beq target [] then Err (EMsg "LinkTarget is empty")
         else match v with
              | None => Panic "nil pointer dereference"
              | Some v => let* _ := validateNode v in loop es'
              end
     end) l) = true -> below n None).
  { induction l as [|(k & v) l IHl]; intros C P; [discriminate P|]. repeat match type of P with is_panic (if ?b then _ else _) = _ => destruct b; [discriminate P|] end.
    assert (I : In (k, v) es) by (apply C; left; reflexivity). destruct v as [c|]; [|exact (below_child n n k None (below_self n) I)].
    destruct (validateNode c) as [[]|e|m] eqn:V; cbn [rbind] in P; [apply IHl; [intros e E; apply C; right; exact E|exact P]|discriminate P|].
    rewrite Forall_forall in IH. specialize (IH _ I). unfold optP in IH. cbn [snd] in IH. rewrite V in IH. specialize (IH eq_refl).
    assert (T : forall o, below c o -> below n o). { intros o B. induction B as [|m' k' o' B IHB I']; [exact (below_child n n k (Some c) (below_self n) I)|exact (below_child n m' k' o' IHB I')]. }
    apply T. exact IH. }
  apply (X es); [auto|exact H].
Qed.
Lemma reordered_sym a b : reordered a b -> reordered b a.
Proof.
  destruct a as [a|]; [|intros R; inversion R; constructor]. revert b. induction a as [ty es size target exec off IH] using lnode_ind2. intros b R. inversion R as [|? ? es1 es2 ? ? ? ? P F]; subst.
  destruct (Permutation_Forall2 (Permutation_sym P) F) as (es3 & P3 & F3). apply ro_node with (es1 := es3); [exact P3|]. clear - IH F3. induction F3 as [|p q es es3 (A & B) F IHF]; [constructor|]. inversion IH as [|? ? I1 I2]; subst. constructor; [|apply IHF; exact I2].
  split; [congruence|]. unfold optP in I1. destruct (snd p); [apply I1; exact B|inversion B; constructor].
Qed.
