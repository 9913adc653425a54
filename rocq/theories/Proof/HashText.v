(** The decoders of base 16 and base 64 and ParseAny against Spec/HashTextSpec.v. *)
From Verif Require Import Base.Bytes Base.BytesFacts Model.GoStd Model.Nixbase32 Model.Nixhash Spec.Base32Spec Spec.HashSpec Spec.HashTextSpec
  Proof.Codec Proof.Base32Facts Proof.Base32Props Proof.HashProps.
Ltac Zify.zify_post_hook ::= idtac.

(** * Base 16 *)
Lemma nibble_val c v : nibble c v <-> hex_val c = Some v.
Proof.
  split.
  - unfold nibble. assert (forall k, nth_error (bs "0123456789abcdef") k = Some c \/ nth_error (bs "0123456789ABCDEF") k = Some c -> hex_val c = Some (N.of_nat k)) as A.
    { intros k. do 16 (destruct k as [|k]; [cbn; intros [H|H]; inversion H; subst; reflexivity|]). destruct k; cbn; intros [H|H]; discriminate. }
    intros H. apply A in H. rewrite N2Nat.id in H. exact H.
  - intros H. destruct c; vm_compute in H; try discriminate; inversion H; subst; vm_compute; auto.
Qed.
Lemma nibble_lt c v : nibble c v -> (v < 16)%N.
Proof. rewrite nibble_val. intros H. destruct c; vm_compute in H; try discriminate; inversion H; subst; reflexivity. Qed.
Lemma hex_text_iff s d : hex_decode s = Ok d <-> hex_text s d.
Proof.
  split.
  - assert (G : forall n s d, length s <= n -> hex_decode s = Ok d -> hex_text s d); [|apply (G (length s)); lia].
    clear s d. induction n as [|n IH]; intros [|a [|b s]] d Hn H; cbn [length] in Hn; try lia.
    + inversion H; constructor.
    + inversion H; constructor.
    + cbn in H. destruct (hex_val a); discriminate.
    + cbn [hex_decode] in H. destruct (hex_val a) as [x|] eqn:Ea; [|discriminate]. destruct (hex_val b) as [y|] eqn:Eb; [|discriminate].
      destruct (hex_decode s) as [r|e|w] eqn:Es; try discriminate. cbn [rbind] in H. apply ok_inj in H. subst d.
      apply nibble_val in Ea, Eb. pose proof (nibble_lt _ _ Ea). pose proof (nibble_lt _ _ Eb).
      apply (ht_byte a b x y); [exact Ea|exact Eb| |apply IH; [lia|exact Es]]. rewrite b2n_n2b. apply N.mod_small. lia.
  - induction 1 as [|a b x y c t d H1 H2 H3 _ IH]; [reflexivity|]. apply nibble_val in H1, H2. cbn [hex_decode]. rewrite H1, H2, IH. cbn [rbind].
    do 2 f_equal. apply b2n_inj. rewrite b2n_n2b, <- H3. apply N.mod_small, b2n_lt.
Qed.

(** * Base 64 *)
Lemma b64_dig c d : nth_error b64_digits (N.to_nat d) = Some c <-> b64_val c = Some d.
Proof.
  change b64_digits with b64_alphabet. split.
  - intros H. assert (L : (d < 64)%N).
    { assert (N.to_nat d < length b64_alphabet) by (apply nth_error_Some; congruence). change (length b64_alphabet) with 64 in H0. lia. }
    apply nth_error_nth with (d := x00) in H. rewrite <- H. exact (b64_val_char d L).
  - intros H. apply b64_val_lt in H. destruct H as [L H]. unfold b64_char in H. rewrite <- H. apply nth_error_nth'.
    change (length b64_alphabet) with 64. lia.
Qed.
Fixpoint b64v (l : bytes) : option N :=
  match l with
  | [] => Some 0%N
  | c :: l' => match b64_val c, b64v l' with Some x, Some v => Some (x * 64 ^ lenN l' + v)%N | _, _ => None end
  end.
Lemma b64v_snoc l c : b64v (l ++ [c]) = match b64v l, b64_val c with Some v, Some x => Some (64 * v + x)%N | _, _ => None end.
Proof.
  induction l as [|a l IH]; cbn [app b64v].
  - destruct (b64_val c); [|reflexivity]. f_equal. rewrite lenN_nil. change (64 ^ 0)%N with 1%N. lia.
  - rewrite IH. destruct (b64_val a), (b64v l); try reflexivity. destruct (b64_val c); [|reflexivity]. f_equal.
    rewrite lenN_app, lenN_cons, lenN_nil. replace (lenN l + N.succ 0)%N with (N.succ (lenN l)) by lia. rewrite N.pow_succ_r'. lia.
Qed.
Lemma b64v_iff l v : b64_value l v <-> b64v l = Some v.
Proof.
  split.
  - induction 1 as [|s v c d _ IH H]; [reflexivity|]. apply b64_dig in H. rewrite b64v_snoc, IH, H. reflexivity.
  - revert v. induction l as [|c l IH] using rev_ind; intros v.
    + cbn. intros H. inversion H. constructor.
    + rewrite b64v_snoc. destruct (b64v l) as [u|]; [|discriminate]. destruct (b64_val c) as [x|] eqn:E; [|discriminate].
      intros H. inversion H; subst. constructor; [apply IH; reflexivity|]. apply b64_dig. exact E.
Qed.
Lemma be_value_acc l : forall a, fold_left (fun v x => 256 * v + b2n x)%N l a = (a * 256 ^ lenN l + be_value l)%N.
Proof.
  unfold be_value. induction l as [|x l IH]; intros a; cbn [fold_left]; [rewrite lenN_nil; change (256 ^ 0)%N with 1%N; lia|].
  rewrite IH, (IH (256 * 0 + b2n x)%N), lenN_cons. rewrite N.pow_succ_r'. lia.
Qed.
Lemma be_value_cons x l : be_value (x :: l) = (b2n x * 256 ^ lenN l + be_value l)%N.
Proof. unfold be_value at 1. cbn [fold_left]. rewrite be_value_acc. replace (256 * 0 + b2n x)%N with (b2n x) by lia. reflexivity. Qed.
Lemma be_value_bound l : (be_value l < 256 ^ lenN l)%N.
Proof.
  induction l as [|x l IH]; [reflexivity|]. rewrite be_value_cons, lenN_cons. rewrite N.pow_succ_r'.
  pose proof (b2n_lt x). nia.
Qed.
Lemma be_value_inj a b : length a = length b -> be_value a = be_value b -> a = b.
Proof.
  revert b. induction a as [|x a IH]; intros [|y b] H E; try discriminate; [reflexivity|]. cbn [length] in H.
  rewrite !be_value_cons in E. assert (L : lenN a = lenN b) by (unfold lenN; lia). rewrite L in E.
  pose proof (be_value_bound a) as B1. pose proof (be_value_bound b) as B2. rewrite L in B1.
  rewrite (N.mul_comm (b2n x)), (N.mul_comm (b2n y)) in E.
  destruct (N.div_mod_unique _ _ _ _ _ B1 B2 E) as [E1 E2]. f_equal; [apply b2n_inj; exact E1|apply IH; [lia|exact E2]].
Qed.

Lemma lenN_cons1 x l : lenN (x :: l) = (lenN l + 1)%N.
Proof. rewrite lenN_cons. lia. Qed.
(** Groups of four. *)
Definition eq_ : byte := "="%byte.
Definition spec_of (u d : bytes) : Prop :=
  exists digits pad v, u = digits ++ repeat eq_ pad /\ pad <= 2 /\ b64v digits = Some v /\
    6 * length digits = 8 * length d + 2 * pad /\ be_value d = (v / 4 ^ N.of_nat pad)%N.
Lemma pow_64_256 L m p : 6 * L = 8 * m + 2 * p -> (64 ^ N.of_nat L = 256 ^ N.of_nat m * 4 ^ N.of_nat p)%N.
Proof.
  intros H. change 64%N with (2 ^ 6)%N. change 256%N with (2 ^ 8)%N. change 4%N with (2 ^ 2)%N.
  rewrite <- !N.pow_mul_r, <- N.pow_add_r. f_equal. lia.
Qed.
Lemma go_sound u d : b64_decode_go u = Ok d -> spec_of u d.
Proof.
  revert d. induction u as [|a|a b|a b c|a b c e u IH] using list_ind4; intros d H; try discriminate.
  - apply ok_inj in H. subst d. exists [], 0, 0%N. repeat split; auto.
  - cbn [b64_decode_go] in H. destruct (b64_val a) as [x|] eqn:Ea; [|discriminate]. destruct (b64_val b) as [y|] eqn:Eb; [|discriminate].
    destruct (b64_val_lt _ _ Ea) as [La _]. destruct (b64_val_lt _ _ Eb) as [Lb _].
    destruct (b64_val c) as [z|] eqn:Ec.
    + destruct (b64_val_lt _ _ Ec) as [Lc _]. destruct (b64_val e) as [w|] eqn:Ee.
      * destruct (b64_val_lt _ _ Ee) as [Le _]. destruct (b64_decode_go u) as [r|er|wh] eqn:Er; try discriminate. cbn [rbind] in H. apply ok_inj in H. subst d.
        destruct (IH r eq_refl) as (g & p & v & -> & Hp & Hv & HL & HB).
        exists (a :: b :: c :: e :: g), p, (x * 64 ^ (lenN g + 3) + (y * 64 ^ (lenN g + 2) + (z * 64 ^ (lenN g + 1) + (w * 64 ^ lenN g + v))))%N.
        split; [reflexivity|]. split; [exact Hp|]. split.
        { cbn [b64v]. rewrite Ea, Eb, Ec, Ee, Hv, !lenN_cons1. replace (lenN g + 1 + 1 + 1)%N with (lenN g + 3)%N by lia. replace (lenN g + 1 + 1)%N with (lenN g + 2)%N by lia. reflexivity. }
        split; [cbn [length]; lia|]. set (q := (x * 262144 + y * 4096 + z * 64 + w)%N).
        assert (Q : (q < 16777216)%N) by (unfold q; lia).
        transitivity (q * 256 ^ lenN r + be_value r)%N.
        { rewrite !be_value_cons, !lenN_cons1, !b2n_n2b. replace (q mod 256 mod 256)%N with (q mod 256)%N by (symmetry; apply N.mod_mod; discriminate).
          replace (q / 256 mod 256 mod 256)%N with (q / 256 mod 256)%N by (symmetry; apply N.mod_mod; discriminate).
          rewrite (N.mod_small (q / 65536)) by (apply N.div_lt_upper_bound; [discriminate|exact Q]).
          replace (lenN r + 1 + 1)%N with (lenN r + 2)%N by lia. rewrite !N.pow_add_r. change (256 ^ 2)%N with 65536%N. change (256 ^ 1)%N with 256%N.
          pose proof (N.div_mod q 256 ltac:(discriminate)) as D1. pose proof (N.div_mod (q / 256) 256 ltac:(discriminate)) as D2.
          rewrite N.div_div in D2 by discriminate. change (256 * 256)%N with 65536%N in D2.
          assert (E : q = (q / 65536 * 65536 + q / 256 mod 256 * 256 + q mod 256)%N) by lia.
          transitivity ((q / 65536 * 65536 + q / 256 mod 256 * 256 + q mod 256) * 256 ^ lenN r + be_value r)%N; [ring|rewrite <- E; reflexivity]. }
        rewrite HB. pose proof (pow_64_256 _ _ _ HL) as P. fold (lenN g) in P. fold (lenN r) in P.
        replace (x * 64 ^ (lenN g + 3) + (y * 64 ^ (lenN g + 2) + (z * 64 ^ (lenN g + 1) + (w * 64 ^ lenN g + v))))%N with (q * 256 ^ lenN r * 4 ^ N.of_nat p + v)%N.
        2:{ rewrite !N.pow_add_r. change (64 ^ 3)%N with 262144%N. change (64 ^ 2)%N with 4096%N. change (64 ^ 1)%N with 64%N. rewrite P. unfold q. ring. }
        rewrite N.div_add_l by (apply N.pow_nonzero; discriminate). reflexivity.
      * destruct (byte_eqb e pad_char) eqn:Ep; [|discriminate]. apply byte_eqb_eq in Ep. subst e. destruct u; [|discriminate].
        apply ok_inj in H. subst d. exists [a; b; c], 1, (x * 4096 + y * 64 + z)%N.
        split; [reflexivity|]. split; [lia|]. split.
        { cbn [b64v]. rewrite Ea, Eb, Ec, !lenN_cons1, lenN_nil. f_equal. change (64 ^ 0)%N with 1%N. change (64 ^ (0 + 1))%N with 64%N. change (64 ^ (0 + 1 + 1))%N with 4096%N. lia. }
        split; [reflexivity|]. set (q := (x * 262144 + y * 4096 + z * 64)%N).
        rewrite !be_value_cons, !b2n_n2b, !lenN_cons1, lenN_nil. change (256 ^ (0 + 1))%N with 256%N. change (256 ^ 0)%N with 1%N. change (be_value []) with 0%N.
        change (4 ^ N.of_nat 1)%N with 4%N.
        assert (Q : (q < 16777216)%N) by (unfold q; lia).
        rewrite (N.mod_small (q / 65536)) by (apply N.div_lt_upper_bound; [discriminate|exact Q]).
        replace (q / 256 mod 256 mod 256)%N with (q / 256 mod 256)%N by (symmetry; apply N.mod_mod; discriminate).
        pose proof (N.div_mod (q / 256) 256 ltac:(discriminate)) as D2. rewrite N.div_div in D2 by discriminate. change (256 * 256)%N with 65536%N in D2.
        transitivity (q / 256)%N; [lia|]. replace q with ((x * 4096 + y * 64 + z) * 64)%N by (unfold q; ring).
        change 256%N with (4 * 64)%N. apply N.div_mul_cancel_r; discriminate.
    + destruct (byte_eqb c pad_char && byte_eqb e pad_char) eqn:Ep; [|discriminate]. apply andb_true_iff in Ep. destruct Ep as [E1 E2].
      apply byte_eqb_eq in E1, E2. subst c e. destruct u; [|discriminate]. apply ok_inj in H. subst d. exists [a; b], 2, (x * 64 + y)%N.
      split; [reflexivity|]. split; [lia|]. split.
      { cbn [b64v]. rewrite Ea, Eb, !lenN_cons1, lenN_nil. f_equal. change (64 ^ 0)%N with 1%N. change (64 ^ (0 + 1))%N with 64%N. lia. }
      split; [reflexivity|]. rewrite !be_value_cons, !b2n_n2b, lenN_nil. change (256 ^ 0)%N with 1%N. change (be_value []) with 0%N. change (4 ^ N.of_nat 2)%N with 16%N.
      replace (x * 262144 + y * 4096)%N with ((x * 64 + y) * 4096)%N by ring. change 65536%N with (16 * 4096)%N.
      rewrite N.div_mul_cancel_r by discriminate. rewrite N.mod_small by (apply N.div_lt_upper_bound; [discriminate|lia]). lia.
Qed.
Lemma go_accepts n : forall g p v, length g <= n -> p <= 2 -> b64v g = Some v -> (exists m, 6 * length g = 8 * m + 2 * p) ->
  exists d, b64_decode_go (g ++ repeat eq_ p) = Ok d.
Proof.
  induction n as [|n IH]; intros g p v Hn Hp Hv (m & Hm).
  - destruct g; [|cbn [length] in Hn; lia]. cbn [length] in Hm. assert (p = 0) by lia. subst p. exists []. reflexivity.
  - destruct g as [|a g].
    { cbn [length] in Hm. assert (p = 0) by lia. subst p. exists []. reflexivity. }
    destruct g as [|b g]; [cbn [length] in Hm; lia|]. cbn [b64v] in Hv. destruct (b64_val a) as [x|] eqn:Ea; [|discriminate]. destruct (b64_val b) as [y|] eqn:Eb; [|discriminate].
    destruct g as [|c g].
    { cbn [length] in Hm. assert (p = 2) by lia. subst p. cbn [app repeat]. eexists. cbn [b64_decode_go]. rewrite Ea, Eb. reflexivity. }
    cbn [b64v] in Hv. destruct (b64_val c) as [z|] eqn:Ec; [|discriminate].
    destruct g as [|e g].
    { cbn [length] in Hm. assert (p = 1) by lia. subst p. cbn [app repeat]. eexists. cbn [b64_decode_go]. rewrite Ea, Eb, Ec. reflexivity. }
    cbn [b64v] in Hv. destruct (b64_val e) as [w|] eqn:Ee; [|discriminate]. destruct (b64v g) as [v'|] eqn:Eg; [|discriminate].
    cbn [length] in Hn, Hm. destruct (IH g p v') as (d & Hd); [lia|exact Hp|exact Eg|exists (m - 3); lia|].
    cbn [app]. eexists. cbn [b64_decode_go]. rewrite Ea, Eb, Ec, Ee, Hd. reflexivity.
Qed.
Lemma app_pad_inj g1 g2 p1 p2 v1 v2 : g1 ++ repeat eq_ p1 = g2 ++ repeat eq_ p2 -> b64v g1 = Some v1 -> b64v g2 = Some v2 -> g1 = g2 /\ p1 = p2.
Proof.
  revert g2 v1 v2. induction g1 as [|a g1 IH]; intros [|b g2] v1 v2 H H1 H2; cbn [app] in H.
  - split; [reflexivity|]. apply (f_equal (@length byte)) in H. rewrite !repeat_length in H. exact H.
  - destruct p1; cbn [repeat] in H; [discriminate|]. injection H as E _. subst b. discriminate.
  - destruct p2; cbn [repeat] in H; [discriminate|]. injection H as E _. subst a. discriminate.
  - injection H as -> H. cbn [b64v] in H1, H2. destruct (b64_val b); [|discriminate]. destruct (b64v g1) eqn:E1; [|discriminate]. destruct (b64v g2) eqn:E2; [|discriminate].
    destruct (IH _ _ _ H eq_refl E2) as [-> ->]. auto.
Qed.
Lemma go_iff u d : b64_decode_go u = Ok d <-> spec_of u d.
Proof.
  split; [apply go_sound|]. intros (g & p & v & -> & Hp & Hv & HL & HB).
  destruct (go_accepts (length g) g p v) as (d' & Hd); [lia|exact Hp|exact Hv|eauto|]. rewrite Hd. f_equal.
  apply go_sound in Hd. destruct Hd as (g' & p' & v' & E & _ & Hv' & HL' & HB'). destruct (app_pad_inj _ _ _ _ _ _ E Hv Hv') as [<- <-].
  assert (v' = v) by congruence. subst v'. apply be_value_inj; [lia|congruence].
Qed.
Lemma b64_text_iff t d : b64_decode t = Ok d <-> b64_text t d.
Proof.
  unfold b64_decode, b64_text. rewrite go_iff. unfold spec_of, unbroken. change eq_ with "="%byte. unfold is_newline.
  split; intros (g & p & v & H); exists g, p, v; (destruct H as (A & B & C & D); split; [exact A|split; [exact B|split; [apply b64v_iff; exact C|exact D]]]).
Qed.

(** * ParseAny *)
Lemma sep_not_newline c : c = ":"%byte \/ c = "-"%byte -> negb (is_newline c) = true.
Proof. intros [-> | ->]; reflexivity. Qed.
Lemma b64v_sep g v c : b64v g = Some v -> c = ":"%byte \/ c = "-"%byte -> ~ In c g.
Proof.
  revert v. induction g as [|a g IH]; intros v H Hc; [intros []|]. cbn [b64v] in H. destruct (b64_val a) eqn:E; [|discriminate]. destruct (b64v g) eqn:Eg; [|discriminate].
  intros [->|X]; [destruct Hc as [-> | ->]; discriminate|exact (IH _ eq_refl Hc X)].
Qed.
Lemma hex_text_sep t d : hex_text t d -> sep_free t.
Proof.
  assert (N : forall c v, nibble c v -> c <> ":"%byte /\ c <> "-"%byte).
  { intros c v H. apply nibble_val in H. split; intros ->; discriminate. }
  induction 1 as [|a b x y c t d H1 H2 _ _ [I1 I2]]; [split; intros []|].
  destruct (N _ _ H1), (N _ _ H2). split; (intros [X|[X|X]]; [congruence|congruence|auto]).
Qed.
Lemma b64_text_sep t d : b64_text t d -> sep_free t.
Proof.
  intros (g & p & v & U & _ & V & _). apply b64v_iff in V.
  assert (G : forall c, c = ":"%byte \/ c = "-"%byte -> ~ In c t).
  { intros c Hc Hin. assert (X : In c (unbroken t)) by (apply filter_In; split; [exact Hin|exact (sep_not_newline c Hc)]).
    rewrite U in X. apply in_app_iff in X. destruct X as [X|X]; [exact (b64v_sep _ _ _ V Hc X)|]. apply repeat_spec in X. destruct Hc as [-> | ->]; discriminate. }
  split; apply G; auto.
Qed.
Lemma digest_text_sep e n t d : digest_text e n t d -> sep_free t.
Proof.
  destruct e; cbn [digest_text]; intros H; try (eapply b64_text_sep; apply H); [| |destruct H].
  - eapply hex_text_sep. apply H.
  - destruct H as [H _]. apply DecodeString_exact, decode_iff_encode in H. subst t. exact (body_sep NixBase32 d).
Qed.

Lemma sizes_differ a n : digest_size a = Some n ->
  Nat.eqb (EncodedLen n) (hex_EncodedLen n) = false /\ Nat.eqb (b64_EncodedLen n) (hex_EncodedLen n) = false /\ Nat.eqb (b64_EncodedLen n) (EncodedLen n) = false.
Proof. destruct a; cbn; try discriminate; intros H; injection H as <-; vm_compute; auto. Qed.
Lemma rest_sound a incl b t r : parse_rest a incl b t = Ok r ->
  exists n, digest_size a = Some n /\ digest_text (he_enc r) n t (h_digest (he_hash r)).
Proof.
  intros H. apply parse_rest_inv in H. destruct H as (n & d & e0 & Hn & -> & H1 & H2). exists n. split; [exact Hn|]. cbn [he_enc he_hash h_digest].
  destruct H2 as [(-> & L & D)|[(-> & L & D)|(-> & L & D)]].
  - destruct b; [discriminate (H1 eq_refl)|]. cbn [digest_text]. split; [apply hex_text_iff; exact D|]. apply hex_decode_length in D. unfold hex_EncodedLen in L. lia.
  - destruct b; [discriminate (H1 eq_refl)|]. cbn [digest_text]. split; [apply DecodeString_exact; exact D|]. apply decode_length in D. rewrite D, L. apply DecodedLen_EncodedLen.
  - apply b64_text_iff in D. unfold b64_EncodedLen in L. rewrite Nat.mul_comm in L. destruct b; cbn [digest_text]; auto.
Qed.
Lemma rest_complete a incl e t n d : digest_size a = Some n -> digest_text e n t d ->
  parse_rest a incl (is_SRI e) t = Ok (HashEnc (Hash a d) e incl).
Proof.
  intros Hs Ht. unfold parse_rest. rewrite (proj2 (size_spec _ _) Hs). cbn [rbind]. destruct (sizes_differ a n Hs) as (N1 & N2 & N3).
  destruct e; cbn [digest_text is_SRI] in Ht |- *; try (now destruct Ht).
  all: destruct Ht as [Ht L].
  - apply hex_text_iff in Ht. pose proof (hex_decode_length _ _ Ht) as L2.
    assert (E : length t = hex_EncodedLen n) by (unfold hex_EncodedLen; lia). rewrite E, Nat.eqb_refl, Ht. reflexivity.
  - apply b64_text_iff in Ht. assert (E : length t = b64_EncodedLen n) by (unfold b64_EncodedLen; rewrite Nat.mul_comm; exact L). rewrite E, N2, N3, Nat.eqb_refl, Ht. reflexivity.
  - assert (E : length t = EncodedLen n) by (rewrite <- L; apply min_chars_EncodedLen; apply Ht). apply DecodeString_exact in Ht. rewrite E, N1, Nat.eqb_refl, Ht. reflexivity.
  - apply b64_text_iff in Ht. assert (E : length t = b64_EncodedLen n) by (unfold b64_EncodedLen; rewrite Nat.mul_comm; exact L). rewrite E, N2, N3, Nat.eqb_refl, Ht. reflexivity.
Qed.

Lemma algo_eqb_refl a n : digest_size a = Some n -> algo_eqb a a = true.
Proof. destruct a; cbn; try discriminate; reflexivity. Qed.
Lemma take_first p c (r : bytes) : firstn (length p) (p ++ c :: r) = p /\ skipn (S (length p)) (p ++ c :: r) = r.
Proof. exact (HashProps.split_at p r c). Qed.
Lemma ParseAny_exact s opt h : ParseAny s opt = Ok h <-> hash_says s opt h.
Proof.
  split.
  - intros H. destruct (ParseAny_inv _ _ _ H) as (t & b & Hs & Hr & Ho & Hi & Hb). destruct (rest_sound _ _ _ _ _ Hr) as (n & Hn & Ht).
    exists n, t. split; [exact Hn|]. split; [exact Ht|]. split.
    { destruct opt as [o|]; [right; rewrite (Ho o eq_refl); reflexivity|left; reflexivity]. }
    unfold hash_prefix in Hs. rewrite Hb in Hs. destruct b.
    + right; left. destruct (he_enc h) eqn:He; try discriminate. split; [|split; [reflexivity|rewrite Hs, <- app_assoc; reflexivity]].
      destruct (he_incl h) eqn:Ei; [reflexivity|exfalso]. specialize (Hi eq_refl). subst opt.
      unfold ParseAny in H. destruct (index_pos s ":"%byte) as [i|]; [|destruct (index_pos s "-"%byte) as [i|]].
      * destruct (ParseAlgorithm _) as [a| |]; try discriminate. cbn [rbind] in H. destruct (algo_eqb _ _); [|discriminate].
        apply parse_rest_inv in H. destruct H as (? & ? & ? & _ & -> & _). discriminate.
      * destruct (ParseAlgorithm _) as [a| |]; try discriminate. cbn [rbind] in H. destruct (algo_eqb _ _); [|discriminate].
        apply parse_rest_inv in H. destruct H as (? & ? & ? & _ & -> & _). discriminate.
      * apply parse_rest_inv in H. destruct H as (? & ? & e0 & _ & E & _ & H2). rewrite E in He. cbn in He.
        destruct H2 as [(-> & _)|[(-> & _)|(-> & _)]]; discriminate.
    + assert (Hne : he_enc h <> SRI) by (intros E; rewrite E in Hb; discriminate). destruct (he_incl h) eqn:Ei.
      * left. rewrite Hs, <- app_assoc. auto.
      * right; right. rewrite Hs. auto.
  - intros (n & t & Hn & Ht & Ho & Hf). destruct (digest_text_sep _ _ _ _ Ht) as [S1 S2].
    destruct (name_sep _ _ Hn) as [[N1 N2] N3]. pose proof (rest_complete _ (he_incl h) _ _ _ _ Hn Ht) as R.
    assert (Hh : HashEnc (Hash (h_algo (he_hash h)) (h_digest (he_hash h))) (he_enc h) (he_incl h) = h) by (destruct h as [[] ? ?]; reflexivity).
    rewrite Hh in R. pose proof (algo_eqb_refl _ _ Hn) as Q. unfold ParseAny.
    destruct Hf as [(Hi & He & ->)|[(Hi & He & ->)|(Hi & He & -> & Hk)]].
    + change (bs ":" ++ t) with (":"%byte :: t). rewrite index_pos_first by assumption.
      destruct (take_first (algo_name (h_algo (he_hash h))) ":"%byte t) as [-> ->]. rewrite (ParseAlgorithm_name _ _ Hn). cbn [rbind].
      assert (E : is_SRI (he_enc h) = false) by (destruct (he_enc h); try reflexivity; congruence). rewrite E, Hi in R.
      destruct Ho as [-> | ->]; rewrite ?Q; exact R.
    + change (bs "-" ++ t) with ("-"%byte :: t). rewrite index_pos_none.
      2:{ rewrite in_app_iff. intros [X|[X|X]]; [auto|discriminate|auto]. }
      rewrite index_pos_first by assumption.
      destruct (take_first (algo_name (h_algo (he_hash h))) "-"%byte t) as [-> ->]. rewrite (ParseAlgorithm_name _ _ Hn). cbn [rbind].
      rewrite He, Hi in R. destruct Ho as [-> | ->]; rewrite ?Q; exact R.
    + rewrite !index_pos_none by assumption. rewrite Hk.
      assert (E : is_SRI (he_enc h) = false) by (destruct (he_enc h); try reflexivity; congruence). rewrite E, Hi in R. exact R.
Qed.
