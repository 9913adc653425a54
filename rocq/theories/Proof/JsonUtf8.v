(** UTF-8: the model's decoder against RFC 3629. *)
From Verif Require Import Base.Bytes Base.BytesFacts Model.Json Spec.JsonSpec.
Ltac Zify.zify_post_hook ::= idtac.

Lemma inr_true lo hi b : inr_ lo hi b = true <-> (lo <= b2n b /\ b2n b <= hi)%N.
Proof. unfold inr_. rewrite andb_true_iff, !N.leb_le. reflexivity. Qed.
Lemma inr_false lo hi b : inr_ lo hi b = false <-> (b2n b < lo \/ hi < b2n b)%N.
Proof. unfold inr_. rewrite andb_false_iff, !N.leb_gt. reflexivity. Qed.
Lemma divmod a b x : (b <> 0 -> x < b -> (a * b + x) / b = a /\ (a * b + x) mod b = x)%N.
Proof.
  intros B X. split.
  - symmetry. apply (N.div_unique _ _ _ x); [exact X|lia].
  - symmetry. apply (N.mod_unique _ _ a); [exact X|lia].
Qed.
Ltac dm a b x := let H1 := fresh in let H2 := fresh in destruct (divmod a b x) as (H1 & H2); [lia|lia|]; rewrite ?H1, ?H2; clear H1 H2.
Lemma utf8_encode c b : utf8 c b -> b = encode_rune c.
Proof.
  intros H. unfold encode_rune. destruct H.
  - destruct (N.ltb_spec c 128); [reflexivity|lia].
  - destruct (N.ltb_spec (y * 64 + x) 128); [lia|]. destruct (N.ltb_spec (y * 64 + x) 2048); [|lia].
    destruct (divmod y 64 x) as (-> & ->); [lia|lia|]. reflexivity.
  - destruct (N.ltb_spec (z * 4096 + y * 64 + x) 128); [lia|]. destruct (N.ltb_spec (z * 4096 + y * 64 + x) 2048); [lia|].
    destruct (N.ltb_spec (z * 4096 + y * 64 + x) 65536); [|lia].
    replace (z * 4096 + y * 64 + x)%N with ((z * 64 + y) * 64 + x)%N by lia. destruct (divmod (z * 64 + y) 64 x) as (-> & ->); [lia|lia|].
    destruct (divmod z 64 y) as (_ & ->); [lia|lia|]. replace ((z * 64 + y) * 64 + x)%N with (z * 4096 + (y * 64 + x))%N by lia.
    destruct (divmod z 4096 (y * 64 + x)) as (-> & _); [lia|lia|]. reflexivity.
  - set (c := (u * 262144 + z * 4096 + y * 64 + x)%N) in *. 
    destruct (N.ltb_spec c 128); [lia|]. destruct (N.ltb_spec c 2048); [lia|]. destruct (N.ltb_spec c 65536); [lia|].
    assert (E1 : (c / 64 = u * 4096 + z * 64 + y /\ c mod 64 = x)%N).
    { replace c with ((u * 4096 + z * 64 + y) * 64 + x)%N by (unfold c; lia). apply divmod; lia. }
    assert (E2 : (c / 4096 = u * 64 + z)%N).
    { replace c with ((u * 64 + z) * 4096 + (y * 64 + x))%N by (unfold c; lia). apply divmod; lia. }
    assert (E3 : (c / 262144 = u)%N).
    { replace c with (u * 262144 + (z * 4096 + y * 64 + x))%N by (unfold c; lia). apply divmod; lia. }
    destruct E1 as (-> & ->). rewrite E2, E3.
    destruct (divmod u 64 z) as (_ & ->); [lia|lia|]. replace (u * 4096 + z * 64 + y)%N with ((u * 64 + z) * 64 + y)%N by lia.
    destruct (divmod (u * 64 + z) 64 y) as (_ & ->); [lia|lia|]. reflexivity.
Qed.
Lemma utf8_fun c b b' : utf8 c b -> utf8 c b' -> b = b'.
Proof. intros A B. apply utf8_encode in A, B. congruence. Qed.
Lemma utf8_scalar c b : utf8 c b -> scalar c.
Proof. unfold scalar. intros H. destruct H; auto; lia. Qed.
Lemma scalar_utf8 c : scalar c -> utf8 c (encode_rune c).
Proof.
  intros H. assert (E : exists b, utf8 c b); [|destruct E as (b & E); pose proof (utf8_encode _ _ E); congruence].
  assert (L : (c < 1114112)%N) by (destruct H; lia).
  destruct (N.lt_ge_cases c 128) as [A|A]; [eexists; constructor; exact A|].
  pose proof (N.div_mod c 64 ltac:(lia)) as D1. pose proof (N.mod_lt c 64 ltac:(lia)) as M1.
  set (q1 := (c / 64)%N) in *. set (r1 := (c mod 64)%N) in *.
  destruct (N.lt_ge_cases c 2048) as [B|B].
  { exists [n2b (192 + q1); n2b (128 + r1)]. replace c with (q1 * 64 + r1)%N by lia. constructor; lia. }
  pose proof (N.div_mod q1 64 ltac:(lia)) as D2. pose proof (N.mod_lt q1 64 ltac:(lia)) as M2.
  set (q2 := (q1 / 64)%N) in *. set (r2 := (q1 mod 64)%N) in *.
  destruct (N.lt_ge_cases c 65536) as [C|C].
  { exists [n2b (224 + q2); n2b (128 + r2); n2b (128 + r1)]. assert (E : c = (q2 * 4096 + r2 * 64 + r1)%N) by lia. rewrite E. constructor; try lia. rewrite <- E. exact H. }
  pose proof (N.div_mod q2 64 ltac:(lia)) as D3. pose proof (N.mod_lt q2 64 ltac:(lia)) as M3.
  set (q3 := (q2 / 64)%N) in *. set (r3 := (q2 mod 64)%N) in *.
  exists [n2b (240 + q3); n2b (128 + r3); n2b (128 + r2); n2b (128 + r1)]. assert (E : c = (q3 * 262144 + r3 * 4096 + r2 * 64 + r1)%N) by lia.
  rewrite E. constructor; try lia. rewrite <- E. exact H.
Qed.
Lemma utf8_len c b : utf8 c b -> b <> [].
Proof. intros H. destruct H; discriminate. Qed.
(** Decoding what was encoded. *)
Ltac yes_no := 
  repeat match goal with
  | |- context [(?a <? ?b)%N] => first [replace (a <? b)%N with true by (symmetry; apply N.ltb_lt; lia) | replace (a <? b)%N with false by (symmetry; apply N.ltb_ge; lia)]
  | |- context [(?a <=? ?b)%N] => first [replace (a <=? b)%N with true by (symmetry; apply N.leb_le; lia) | replace (a <=? b)%N with false by (symmetry; apply N.leb_gt; lia)]
  end; cbn [andb].
Lemma decode_utf8 c b rest : utf8 c b -> decode_rune (b ++ rest) = (c, length b).
Proof.
  intros H. destruct H; cbn [app length]; unfold decode_rune, inr_.
  - rewrite b2n_n2b_small by lia. yes_no. reflexivity.
  - rewrite !b2n_n2b_small by lia. yes_no. f_equal. lia.
  - rewrite !b2n_n2b_small by lia. yes_no. destruct (N.eqb_spec (224 + z) 224), (N.eqb_spec (224 + z) 237); try lia; unfold scalar in *; yes_no; f_equal; lia.
  - rewrite !b2n_n2b_small by lia. unfold scalar in *. yes_no. destruct (N.eqb_spec (240 + u) 240), (N.eqb_spec (240 + u) 244); try lia; yes_no; f_equal; lia.
Qed.
Lemma n2b_of b n : (b2n b = n -> n2b n = b)%N.
Proof. intros <-. apply n2b_b2n. Qed.
(** Every result of the decoder is a character or a replaced byte. *)
Lemma decode_cases c0 s r n : decode_rune (c0 :: s) = (r, n) ->
  (utf8 r (firstn n (c0 :: s)) /\ n <= length (c0 :: s)) \/ (r = runeError /\ n = 1 /\ (128 <= b2n c0)%N /\ forall c b t, utf8 c b -> c0 :: s <> b ++ t).
Proof.
  intros H. assert (NO : r = runeError /\ n = 1 -> (128 <= b2n c0)%N -> (r = runeError /\ n = 1 /\ (128 <= b2n c0)%N /\ forall c b t, utf8 c b -> c0 :: s <> b ++ t)).
  { intros (-> & ->) B. do 3 (split; [auto|]). intros c b t U E. rewrite E in H. rewrite (decode_utf8 c b t U) in H. assert (EL : length b = 1) by congruence.
    destruct U; try discriminate EL. cbn [app] in E. assert (E0 : c0 = n2b c) by congruence. rewrite E0, b2n_n2b_small in B by lia. lia. }
  unfold decode_rune in H. pose proof (b2n_lt c0) as L0.
  destruct (N.ltb_spec (b2n c0) 128) as [A|A].
  { assert (r = b2n c0 /\ n = 1) as (-> & ->) by (split; congruence). left. cbn [firstn length]. split; [|lia]. rewrite <- (n2b_b2n c0) at 2. constructor. exact A. }
  destruct s as [|c1 s]; [right; apply NO; [split; congruence|exact A]|]. pose proof (b2n_lt c1) as L1.
  destruct (inr_ 194 223 c0) eqn:E0.
  { destruct (inr_ 128 191 c1) eqn:E1; [|right; apply NO; [split; congruence|exact A]]. apply inr_true in E0, E1.
    assert (r = ((b2n c0 - 192) * 64 + (b2n c1 - 128))%N /\ n = 2) as (-> & ->) by (split; congruence). left. cbn [firstn length]. split; [|lia].
    rewrite <- (n2b_of c0 (192 + (b2n c0 - 192))) at 2 by lia. rewrite <- (n2b_of c1 (128 + (b2n c1 - 128))) at 2 by lia. constructor; lia. }
  destruct s as [|c2 s]; [right; apply NO; [split; congruence|exact A]|]. pose proof (b2n_lt c2) as L2.
  destruct (inr_ 224 239 c0) eqn:E1.
  { destruct (inr_ _ _ c1) eqn:E2; cbn [andb] in H; [|right; apply NO; [split; congruence|exact A]].
    destruct (inr_ 128 191 c2) eqn:E3; cbn [andb] in H; [|right; apply NO; [split; congruence|exact A]]. apply inr_true in E1, E2, E3.
    assert (r = ((b2n c0 - 224) * 4096 + (b2n c1 - 128) * 64 + (b2n c2 - 128))%N /\ n = 3) as (-> & ->) by (split; congruence). left. cbn [firstn length]. split; [|lia].
    destruct (N.eqb_spec (b2n c0) 224), (N.eqb_spec (b2n c0) 237); try lia;
    (rewrite <- (n2b_of c0 (224 + (b2n c0 - 224))) at 2 by lia; rewrite <- (n2b_of c1 (128 + (b2n c1 - 128))) at 2 by lia; rewrite <- (n2b_of c2 (128 + (b2n c2 - 128))) at 2 by lia;
     constructor; unfold scalar; lia). }
  destruct s as [|c3 s]; [right; apply NO; [split; congruence|exact A]|]. pose proof (b2n_lt c3) as L3.
  destruct (inr_ 240 244 c0) eqn:E2; cbn [andb] in H; [|right; apply NO; [split; congruence|exact A]].
  destruct (inr_ _ _ c1) eqn:E3; cbn [andb] in H; [|right; apply NO; [split; congruence|exact A]].
  destruct (inr_ 128 191 c2) eqn:E4; cbn [andb] in H; [|right; apply NO; [split; congruence|exact A]].
  destruct (inr_ 128 191 c3) eqn:E5; cbn [andb] in H; [|right; apply NO; [split; congruence|exact A]]. apply inr_true in E2, E3, E4, E5.
  assert (r = ((b2n c0 - 240) * 262144 + (b2n c1 - 128) * 4096 + (b2n c2 - 128) * 64 + (b2n c3 - 128))%N /\ n = 4) as (-> & ->) by (split; congruence). left. cbn [firstn length]. split; [|lia].
  destruct (N.eqb_spec (b2n c0) 240), (N.eqb_spec (b2n c0) 244); try lia;
  (rewrite <- (n2b_of c0 (240 + (b2n c0 - 240))) at 2 by lia; rewrite <- (n2b_of c1 (128 + (b2n c1 - 128))) at 2 by lia; rewrite <- (n2b_of c2 (128 + (b2n c2 - 128))) at 2 by lia;
   rewrite <- (n2b_of c3 (128 + (b2n c3 - 128))) at 2 by lia; constructor; unfold scalar; lia).
Qed.
Lemma utf8_first c b : utf8 c b -> exists x b', b = x :: b' /\ ((c < 128)%N -> b2n x = c /\ b' = []) /\ ((128 <= c)%N -> (128 <= b2n x)%N).
Proof.
  intros H. destruct H; eexists _, _; (split; [reflexivity|]); split; intros L; try lia; rewrite ?b2n_n2b_small by lia; [split; reflexivity|lia..].
Qed.
