(** Decode into any buffer: exactly when it panics and when it succeeds (C13). *)
From Verif Require Import Base.Bytes Base.BytesFacts Model.Nixbase32 Spec.Base32Spec Model.Wire Proof.WireFacts Proof.Bits Proof.Base32Facts Proof.Base32Props.
Arguments Nat.div : simpl never.
Arguments Nat.mul : simpl never.
Ltac Zify.zify_post_hook ::= idtac.

Lemma index_in c : (exists d, index_byte Alphabet c = Some d) <-> In c Alphabet.
Proof.
  rewrite <- dig_in. unfold dig. destruct (index_byte Alphabet c); split; try discriminate; eauto; [intros [? ?]; discriminate|congruence].
Qed.
Lemma div_step n : n * 5 / 8 <= S n * 5 / 8 <= n * 5 / 8 + 1.
Proof. split; [apply Nat.div_le_mono; lia|]. apply Nat.lt_succ_r, Nat.div_lt_upper_bound; [lia|]. pose proof (Nat.div_mod_eq (n * 5) 8). pose proof (Nat.mod_upper_bound (n * 5) 8). lia. Qed.
Lemma div_mono p q : p <= q -> p * 5 / 8 <= q * 5 / 8.
Proof. intros H. apply Nat.div_le_mono; lia. Qed.

Lemma decode_r_panic D r n dst :
  is_panic (fst (decode_r D r n dst)) = true <->
  exists z w, r = z ++ w /\ z <> [] /\ Forall (fun c => In c Alphabet) z /\
    (n + length z - 1) * 5 / 8 + 1 = length dst /\ length dst < D.
Proof.
  revert n dst. induction r as [|c r IH]; intros n dst.
  - cbn. split; [discriminate|]. intros (z & w & E & H & _). destruct z; [congruence|discriminate].
  - cbn [decode_r]. destruct (index_byte Alphabet c) as [k|] eqn:Ek.
    2:{ cbn. split; [discriminate|]. intros (z & w & E & H & F & _). destruct z as [|x z]; [congruence|]. cbn [app] in E. injection E as -> _.
        inversion F; subst. apply index_in in H2. destruct H2. congruence. }
    assert (Hc : In c Alphabet) by (apply index_in; eauto).
    destruct (Nat.leb_spec (length dst) (n * 5 / 8)) as [Hi|Hi].
    { cbn. split; [discriminate|]. intros (z & w & E & H & F & G & _). destruct z as [|x z]; [congruence|]. cbn [length] in G.
      pose proof (div_mono n (n + S (length z) - 1)). lia. }
    destruct (Nat.ltb_spec (n * 5 / 8 + 1) D) as [Hm|Hm].
    + rewrite upd_length. destruct (Nat.ltb_spec (n * 5 / 8 + 1) (length dst)) as [Hd|Hd].
      * rewrite IH, !upd_length. split.
        -- intros (z & w & -> & Hz & F & G & L). exists (c :: z), w. split; [reflexivity|]. split; [discriminate|]. split; [constructor; assumption|].
           cbn [length]. replace (n + S (length z) - 1) with (S n + length z - 1) by lia. auto.
        -- intros (z & w & E & Hz & F & G & L). destruct z as [|x z]; [congruence|]. cbn [app] in E. injection E as -> ->. inversion F; subst.
           cbn [length] in G. destruct z as [|y z].
           ++ exfalso. cbn [length] in G. replace (n + 1 - 1) with n in G by lia. lia.
           ++ exists (y :: z), w. split; [reflexivity|]. split; [discriminate|]. split; [assumption|].
              replace (S n + length (y :: z) - 1) with (n + S (length (y :: z)) - 1) by lia. auto.
      * cbn [fst is_panic]. split; [intros _|reflexivity]. exists [c], r. split; [reflexivity|]. split; [discriminate|]. split; [constructor; [exact Hc|constructor]|].
        cbn [length]. replace (n + 1 - 1) with n by lia. lia.
    + assert (No : forall z : bytes, z <> [] -> (n + length z - 1) * 5 / 8 + 1 = length dst -> length dst < D -> False).
      { intros z Hz G L. destruct z as [|x z]; [congruence|]. cbn [length] in G. pose proof (div_mono n (n + S (length z) - 1)). lia. }
      destruct (negb _).
      * cbn. split; [discriminate|]. intros (z & w & E & Hz & F & G & L). exfalso. exact (No _ Hz G L).
      * rewrite IH, upd_length. split.
        -- intros (z & w & -> & Hz & F & G & L). exfalso. apply (No (c :: z)); [discriminate| |exact L]. cbn [length]. replace (n + S (length z) - 1) with (S n + length z - 1) by lia. exact G.
        -- intros (z & w & E & Hz & F & G & L). exfalso. exact (No _ Hz G L).
Qed.

(** The indexes the decoder writes: [dst[i]] always, [dst[i+1]] below the size. *)
Definition roomy D n k L := forall p, n <= p < n + k -> p * 5 / 8 < L /\ (p * 5 / 8 + 1 < D -> p * 5 / 8 + 1 < L).
Lemma decode_r_ok D r n dst :
  is_ok (fst (decode_r D r n dst)) = true <-> is_ok (validate_r D r n) = true /\ roomy D n (length r) (length dst).
Proof.
  revert n dst. induction r as [|c r IH]; intros n dst.
  - cbn. split; [intros _|reflexivity]. split; [reflexivity|]. intros p Hp. lia.
  - cbn [decode_r validate_r length]. destruct (index_byte Alphabet c) as [k|] eqn:Ek; [|cbn; split; [discriminate|intros [? _]; discriminate]].
    assert (Sp : roomy D n (S (length r)) (length dst) <-> (n * 5 / 8 < length dst /\ (n * 5 / 8 + 1 < D -> n * 5 / 8 + 1 < length dst)) /\ roomy D (S n) (length r) (length dst)).
    { split.
      - intros H. split; [apply H; lia|]. intros p Hp. apply H. lia.
      - intros [A B] p Hp. destruct (Nat.eq_dec p n) as [->|Hn]; [exact A|apply B; lia]. }
    destruct (Nat.leb_spec (length dst) (n * 5 / 8)) as [Hi|Hi]; [cbn; split; [discriminate|intros [_ R]; apply Sp in R; lia]|].
    destruct (Nat.ltb_spec (n * 5 / 8 + 1) D) as [Hm|Hm]; destruct (Nat.leb_spec D (n * 5 / 8 + 1)) as [Hm'|Hm']; try lia; cbn [andb].
    + rewrite upd_length. destruct (Nat.ltb_spec (n * 5 / 8 + 1) (length dst)) as [Hd|Hd].
      * rewrite IH, !upd_length, Sp. tauto.
      * cbn. split; [discriminate|]. intros [_ R]. apply Sp in R. lia.
    + destruct (negb _); [cbn; split; [discriminate|intros [? _]; discriminate]|]. rewrite IH, upd_length, Sp.
      split; [intros [A B]; split; [exact A|]; split; [split; [exact Hi|lia]|exact B]|tauto].
Qed.

Lemma Decode_panic dst s :
  is_panic (fst (Decode dst s)) = true <->
  0 < length dst < DecodedLen (length s) /\
  exists a z q, s = a ++ z /\ min_chars (length dst - 1) q /\ length z = S q /\ Forall (fun c => In c Alphabet) z.
Proof.
  rewrite Decode_r, decode_r_panic. set (D := DecodedLen (length s)). cbn [Nat.add]. split.
  - intros (z & w & E & Hz & F & G & L). split; [lia|].
    pose proof (EncodedLen_min (length dst - 1)) as M. set (q := EncodedLen (length dst - 1)) in *.
    assert (Hq : q <= length z - 1).
    { apply M. pose proof (Nat.div_mod_eq ((length z - 1) * 5) 8). lia. }
    assert (Hl : S q <= length z) by (destruct z; [congruence|]; cbn [length] in *; lia).
    exists (rev w ++ rev (skipn (S q) z)), (rev (firstn (S q) z)), q.
    split; [|split; [exact M|split]].
    + rewrite <- app_assoc, <- rev_app_distr, firstn_skipn, <- rev_app_distr, <- E, rev_involutive. reflexivity.
    + rewrite rev_length, firstn_length. lia.
    + apply Forall_rev. rewrite <- (firstn_skipn (S q) z) in F. apply Forall_app in F. exact (proj1 F).
  - intros (L & a & z & q & E & M & Hz & F). exists (rev z), (rev a). split; [rewrite E, rev_app_distr; reflexivity|].
    split; [intros X; apply (f_equal (@length byte)) in X; rewrite rev_length in X; cbn in X; lia|].
    split; [apply Forall_rev; exact F|]. split; [|lia]. rewrite rev_length, Hz.
    pose proof (min_chars_DecodedLen _ _ M) as X. unfold DecodedLen in X. replace (S q - 1) with q by lia. lia.
Qed.

Lemma Decode_ok dst s :
  (exists n, fst (Decode dst s) = Ok n) <->
  ValidateString s = Ok tt /\ DecodedLen (length s) <= length dst /\
  ((exists m, min_chars m (length s)) \/ DecodedLen (length s) < length dst).
Proof.
  assert (A : (exists n, fst (Decode dst s) = Ok n) <-> is_ok (fst (Decode dst s)) = true).
  { destruct (fst (Decode dst s)); cbn; split; eauto; try discriminate; intros [? ?]; discriminate. }
  assert (B : ValidateString s = Ok tt <-> is_ok (ValidateString s) = true).
  { destruct (ValidateString s) as [[]|e|w]; cbn; split; auto; discriminate. }
  rewrite A, B, Decode_r, decode_r_ok, rev_length, <- Validate_r. set (D := DecodedLen (length s)).
  assert (C : roomy D 0 (length s) (length dst) <-> D <= length dst /\ ((exists m, min_chars m (length s)) \/ D < length dst)); [|rewrite C; reflexivity].
  rewrite <- canon_iff. split.
  - intros R. assert (Q : s <> [] -> (length s - 1) * 5 / 8 < length dst).
    { intros H. destruct s; [congruence|]. apply R. cbn [length]. lia. }
    destruct (canon_dec (length s)) as [Hc|Hc].
    + split; [|left; exact Hc]. destruct (Nat.eq_dec D 0) as [E|E]; [lia|].
      assert (Hs : s <> []) by (intros X; apply E; unfold D; rewrite X; reflexivity). specialize (Q Hs).
      pose proof (div_step (length s - 1)) as S1. destruct s as [|c s]; [congruence|]. cbn [length] in S1, Q.
      replace (S (S (length s) - 1)) with (S (length s)) in S1 by lia. change (S (length s) * 5 / 8) with D in S1. lia.
    + destruct (noncanon_index _ Hc) as [H1 H2]. fold D in H2.
      assert (Hs : s <> []) by (intros X; rewrite X in H1; cbn in H1; lia). specialize (Q Hs). split; [lia|right; lia].
  - intros [L H] p Hp. destruct (canon_dec (length s)) as [Hc|Hc].
    + pose proof (canon_index _ p Hc ltac:(lia)) as X. fold D in X. split; lia.
    + destruct H as [H|H]; [contradiction|]. pose proof (div_mono p (length s) ltac:(lia)) as X. change (length s * 5 / 8) with D in X. lia.
Qed.

(** What a success leaves in dst: the old bytes, read as a number, OR-ed with the
    number the string denotes. *)
Lemma byte_or_0_r x : byte_or x x00 = x.
Proof. apply byte_bits_inj. intros m _. rewrite byte_or_testbit. change (b2n x00) with 0%N. rewrite N.bits_0. apply orb_false_r. Qed.
Lemma upd_id l i f : (forall x, f x = x) -> upd l i f = l.
Proof. intros H. revert i. induction l as [|x l IH]; intros [|i]; cbn [upd]; [reflexivity|reflexivity|rewrite H; reflexivity|rewrite IH; reflexivity]. Qed.
Lemma decode_r_grow D r n dst m dst' : D < length dst -> decode_r D r n dst = (Ok m, dst') -> m = D /\ decode_r (S D) r n dst = (Ok (S D), dst').
Proof.
  revert n dst. induction r as [|c r IH]; intros n dst Hl H.
  - cbn in *. inversion H; subst. auto.
  - cbn [decode_r] in *. destruct (index_byte Alphabet c) as [k|]; [|discriminate].
    destruct (Nat.leb_spec (length dst) (n * 5 / 8)) as [Hi|Hi]; [discriminate|].
    destruct (Nat.ltb_spec (n * 5 / 8 + 1) D) as [Hm|Hm].
    + destruct (Nat.ltb_spec (n * 5 / 8 + 1) (S D)) as [_|Hm']; [|lia]. rewrite upd_length in *.
      destruct (Nat.ltb_spec (n * 5 / 8 + 1) (length dst)) as [Hd|Hd]; [|discriminate]. apply IH; [rewrite !upd_length; exact Hl|exact H].
    + destruct (negb (byte_eqb _ x00)) eqn:Ec; [discriminate|]. apply negb_false_iff, byte_eqb_eq in Ec.
      destruct (Nat.ltb_spec (n * 5 / 8 + 1) (S D)) as [Hm'|Hm'].
      * rewrite upd_length. destruct (Nat.ltb_spec (n * 5 / 8 + 1) (length dst)) as [Hd|Hd]; [|lia].
        rewrite Ec, (upd_id _ (n * 5 / 8 + 1)) by (intros; apply byte_or_0_r). apply IH; [rewrite upd_length; exact Hl|exact H].
      * apply IH; [rewrite upd_length; exact Hl|exact H].
Qed.
Lemma Decode_value dst s n dst' : Decode dst s = (Ok n, dst') ->
  n = DecodedLen (length s) /\ length dst' = length dst /\
  exists v, b32_value s v /\ le_value dst' = N.lor (le_value dst) v.
Proof.
  intros H. assert (Hk : exists n, fst (Decode dst s) = Ok n) by (rewrite H; cbn; eauto). apply Decode_ok in Hk. destruct Hk as (_ & Hl & Hc).
  rewrite Decode_r in H. set (D := DecodedLen (length s)) in *. rewrite !le_value_le_val.
  assert (G : forall D' m, D' <= length dst -> (forall p, p < length s -> p * 5 / 8 < D') -> decode_r D' (rev s) 0 dst = (Ok m, dst') ->
    m = D' /\ length dst' = length dst /\ exists v, b32_value s v /\ le_val dst' = N.lor (le_val dst) v).
  { intros D' m A B E. destruct (decode_r_spec D' (rev s) 0 dst A) as (d2 & L2 & R).
    { intros p Hp. rewrite rev_length in Hp. apply B. exact Hp. }
    destruct (rval (rev s)) as [v|] eqn:Ev.
    - change (32 ^ N.of_nat 0)%N with 1%N in R. rewrite N.mul_1_l in R. destruct (v <? _)%N.
      + destruct R as [R V]. rewrite R in E. inversion E; subst. split; [reflexivity|]. split; [exact L2|]. exists v. split; [apply rval_value; exact Ev|exact V].
      + destruct R as [e R]. rewrite R in E. discriminate.
    - destruct R as [e R]. rewrite R in E. discriminate. }
  destruct Hc as [Hc|Hc].
  - apply (G D n Hl); [|exact H]. intros p Hp. apply canon_index; [apply canon_iff; exact Hc|exact Hp].
  - destruct (decode_r_grow _ _ _ _ _ _ Hc H) as [-> H'].
    destruct (G (S D) (S D) ltac:(lia)) as (_ & A & B); [|exact H'|split; [reflexivity|split; [exact A|exact B]]].
    intros p Hp. pose proof (div_mono p (length s) ltac:(lia)) as X. change (length s * 5 / 8) with D in X. lia.
Qed.
