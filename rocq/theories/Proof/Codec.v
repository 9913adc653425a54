(** Facts about the standard library codecs modelled in Model/GoStd.v. *)
From Verif Require Import Base.Bytes Base.BytesFacts Model.GoStd.

Ltac Zify.zify_post_hook ::= Z.div_mod_to_equations.
Arguments N.add : simpl never.
Arguments N.sub : simpl never.
Arguments N.mul : simpl never.
Arguments N.modulo : simpl never.
Arguments N.div : simpl never.
Arguments N.pow : simpl never.

Lemma list_ind3 {A} (P : list A -> Prop) :
  P [] -> (forall a, P [a]) -> (forall a b, P [a; b]) ->
  (forall a b c l, P l -> P (a :: b :: c :: l)) -> forall l, P l.
Proof.
  intros H0 H1 H2 H3. fix IH 1. intros [|a [|b [|c l]]]; [exact H0|apply H1|apply H2|].
  apply H3, IH.
Qed.
Lemma list_ind2 {A} (P : list A -> Prop) :
  P [] -> (forall a, P [a]) -> (forall a b l, P l -> P (a :: b :: l)) -> forall l, P l.
Proof.
  intros H0 H1 H2. fix IH 1. intros [|a [|b l]]; [exact H0|apply H1|]. apply H2, IH.
Qed.
Lemma list_ind4 {A} (P : list A -> Prop) :
  P [] -> (forall a, P [a]) -> (forall a b, P [a; b]) -> (forall a b c, P [a; b; c]) ->
  (forall a b c d l, P l -> P (a :: b :: c :: d :: l)) -> forall l, P l.
Proof.
  intros H0 H1 H2 H3 H4. fix IH 1. intros [|a [|b [|c [|d l]]]]; [exact H0|apply H1|apply H2|apply H3|].
  apply H4, IH.
Qed.

(** * hex *)
Lemma hex_val_char n : (n < 16)%N -> hex_val (hex_char n) = Some n.
Proof.
  intros H. assert (Hn : N.to_nat n < 16) by lia. rewrite <- (N2Nat.id n). 
  set (k := N.to_nat n) in *. clearbody k. clear H n.
  do 16 (destruct k as [|k]; [reflexivity|]). lia.
Qed.
Lemma hex_roundtrip l : hex_decode (hex_encode l) = Ok l.
Proof.
  induction l as [|b l IH]; [reflexivity|].
  cbn [hex_encode hex_decode]. pose proof (b2n_lt b).
  rewrite !hex_val_char by lia. rewrite IH. cbn [rbind]. f_equal. f_equal.
  rewrite <- N.div_mod by discriminate. apply n2b_b2n.
Qed.
Lemma hex_encode_length l : length (hex_encode l) = 2 * length l.
Proof. induction l; cbn [hex_encode length]; lia. Qed.
Lemma hex_decode_length s l : hex_decode s = Ok l -> length s = 2 * length l.
Proof.
  revert l. induction s as [|a|a b s IH] using list_ind2; intros l; cbn [hex_decode].
  - intros [= <-]. reflexivity.
  - destruct (hex_val a); discriminate.
  - destruct (hex_val a), (hex_val b); try discriminate.
    destruct (hex_decode s) as [r| |]; try discriminate. cbn [rbind]. intros [= <-].
    cbn [length]. rewrite (IH r eq_refl). lia.
Qed.
Lemma hex_decode_no_panic s : is_panic (hex_decode s) = false.
Proof.
  induction s as [|a|a b s IH] using list_ind2; cbn [hex_decode]; [reflexivity| |].
  - destruct (hex_val a); reflexivity.
  - destruct (hex_val a), (hex_val b); try reflexivity.
    destruct (hex_decode s); auto.
Qed.
(** Lower-case hex strings print back. *)
Definition upper_hex (c : byte) : bool := (65 <=? b2n c)%N && (b2n c <=? 70)%N.
Lemma hex_char_val c n : upper_hex c = false -> hex_val c = Some n -> hex_char n = c /\ (n < 16)%N.
Proof.
  intros Hu Hv.
  assert (Hs : forall c, (upper_hex c || match hex_val c with
                 | Some n => byte_eqb (hex_char n) c && (n <? 16)%N | None => true end) = true).
  { apply byte_sweep. vm_compute. reflexivity. }
  specialize (Hs c). rewrite Hu, Hv in Hs. cbn [orb] in Hs. apply andb_true_iff in Hs.
  destruct Hs as [H1 H2]. apply byte_eqb_eq in H1. apply N.ltb_lt in H2. auto.
Qed.
Lemma hex_printback s l :
  forallb (fun c => negb (upper_hex c)) s = true -> hex_decode s = Ok l -> hex_encode l = s.
Proof.
  revert l. induction s as [|a|a b s IH] using list_ind2; intros l; cbn [hex_decode forallb].
  - intros _ [= <-]. reflexivity.
  - destruct (hex_val a); discriminate.
  - rewrite !andb_true_iff, !negb_true_iff. intros (Ha & Hb & Hs).
    destruct (hex_val a) as [x|] eqn:Ex; [|discriminate]. destruct (hex_val b) as [y|] eqn:Ey; [|discriminate].
    destruct (hex_decode s) as [r| |]; try discriminate. cbn [rbind]. intros [= <-].
    apply hex_char_val in Ex; [|exact Ha]. apply hex_char_val in Ey; [|exact Hb].
    destruct Ex as [<- Hx], Ey as [<- Hy]. cbn [hex_encode]. rewrite (IH r Hs eq_refl).
    rewrite b2n_n2b_small by lia. do 2 f_equal; [|f_equal]; lia.
Qed.
Lemma hex_char_in n : (n < 16)%N -> In (hex_char n) hex_digits.
Proof. intros H. apply nth_In. change (length hex_digits) with 16. lia. Qed.
Lemma hex_encode_chars l : Forall (fun c => In c hex_digits) (hex_encode l).
Proof.
  induction l as [|b l IH]; cbn [hex_encode]; [constructor|]. pose proof (b2n_lt b).
  constructor; [apply hex_char_in; lia|]. constructor; [apply hex_char_in; lia|exact IH].
Qed.

(** * base64 *)
Ltac Zify.zify_post_hook ::= idtac.
Lemma b64_val_char n : (n < 64)%N -> b64_val (b64_char n) = Some n.
Proof.
  intros H. assert (Hn : N.to_nat n < 64) by lia. rewrite <- (N2Nat.id n).
  set (k := N.to_nat n) in *. clearbody k. clear H n.
  do 64 (destruct k as [|k]; [reflexivity|]). lia.
Qed.
Lemma b64_val_lt c n : b64_val c = Some n -> (n < 64)%N /\ b64_char n = c.
Proof.
  unfold b64_val. destruct (index_byte b64_alphabet c) as [i|] eqn:E; [|discriminate]. intros [= <-].
  apply index_byte_some in E. destruct E as (p & r & E & <- & _). split.
  - assert (length p < length b64_alphabet) by (rewrite E, app_length; cbn; lia).
    change (length b64_alphabet) with 64 in *. lia.
  - unfold b64_char. rewrite Nat2N.id, E, app_nth2, Nat.sub_diag by lia. reflexivity.
Qed.
Lemma b64_val_pad : b64_val pad_char = None.
Proof. reflexivity. Qed.
Lemma quad v : (v / 262144 * 262144 + v / 4096 mod 64 * 4096 + v / 64 mod 64 * 64 + v mod 64)%N = v.
Proof.
  change 262144%N with (64 * (64 * 64))%N at 1. change 4096%N with (64 * 64)%N at 1.
  rewrite <- !N.div_div by discriminate.
  pose proof (N.div_mod v 64 ltac:(discriminate)).
  pose proof (N.div_mod (v / 64) 64 ltac:(discriminate)).
  pose proof (N.div_mod (v / 64 / 64) 64 ltac:(discriminate)).
  lia.
Qed.
Lemma quad_bounds v : (v < 16777216)%N ->
  (v / 262144 < 64 /\ v / 4096 mod 64 < 64 /\ v / 64 mod 64 < 64 /\ v mod 64 < 64)%N.
Proof.
  intros H. repeat split; try (apply N.mod_lt; discriminate).
  apply N.div_lt_upper_bound; [discriminate|]. exact H.
Qed.
Lemma tri a b c : (a < 256)%N -> (b < 256)%N -> (c < 256)%N ->
  let v := (a * 65536 + b * 256 + c)%N in
  (v < 16777216 /\ v / 65536 = a /\ v / 256 mod 256 = b /\ v mod 256 = c)%N.
Proof.
  intros Ha Hb Hc v. unfold v. split; [lia|]. split; [|split].
  - symmetry. apply (N.div_unique _ _ _ (b * 256 + c)); lia.
  - replace ((a * 65536 + b * 256 + c) / 256)%N with (a * 256 + b)%N.
    + symmetry. apply (N.mod_unique _ _ a); lia.
    + apply (N.div_unique _ _ _ c); lia.
  - symmetry. apply (N.mod_unique _ _ (a * 256 + b)); lia.
Qed.
Lemma b64_go_roundtrip l : b64_decode_go (b64_encode l) = Ok l.
Proof.
  induction l as [|a|a b|a b c l IH] using list_ind3.
  - reflexivity.
  - pose proof (b2n_lt a) as La.
    destruct (tri (b2n a) 0 0) as (Hlt & H1 & H2 & H3); [assumption|reflexivity|reflexivity|].
    replace (b2n a * 65536 + 0 * 256 + 0)%N with (b2n a * 65536)%N in * by lia.
    set (v := (b2n a * 65536)%N) in *.
    pose proof (quad v) as Hq. destruct (quad_bounds v Hlt) as (B1 & B2 & B3 & B4).
    assert (Hz : (v mod 64 = 0)%N).
    { unfold v. replace (b2n a * 65536)%N with (b2n a * 1024 * 64)%N by lia. apply N.mod_mul. discriminate. }
    assert (Hz2 : (v / 64 mod 64 = 0)%N).
    { unfold v. replace (b2n a * 65536)%N with (b2n a * 1024 * 64)%N by lia. rewrite N.div_mul by discriminate.
      replace (b2n a * 1024)%N with (b2n a * 16 * 64)%N by lia. apply N.mod_mul. discriminate. }
    rewrite Hz, Hz2, N.mul_0_l, !N.add_0_r in Hq.
    cbn [b64_encode b64_decode_go]. fold v.
    rewrite !b64_val_char by assumption. rewrite b64_val_pad.
    change (byte_eqb pad_char pad_char && byte_eqb pad_char pad_char) with true.
    cbv iota zeta. rewrite Hq, H1, n2b_b2n. reflexivity.
  - pose proof (b2n_lt a) as La. pose proof (b2n_lt b) as Lb.
    destruct (tri (b2n a) (b2n b) 0) as (Hlt & H1 & H2 & H3); [assumption|assumption|reflexivity|].
    rewrite N.add_0_r in *. set (v := (b2n a * 65536 + b2n b * 256)%N) in *.
    pose proof (quad v) as Hq. destruct (quad_bounds v Hlt) as (B1 & B2 & B3 & B4).
    assert (Hz : (v mod 64 = 0)%N).
    { unfold v. replace (b2n a * 65536 + b2n b * 256)%N with ((b2n a * 1024 + b2n b * 4) * 64)%N by lia.
      apply N.mod_mul. discriminate. }
    rewrite Hz, N.add_0_r in Hq.
    cbn [b64_encode b64_decode_go]. fold v.
    rewrite !b64_val_char by assumption. rewrite b64_val_pad.
    change (byte_eqb pad_char pad_char) with true.
    cbv iota zeta. rewrite Hq, H1, H2, !n2b_b2n. reflexivity.
  - pose proof (b2n_lt a) as La. pose proof (b2n_lt b) as Lb. pose proof (b2n_lt c) as Lc.
    destruct (tri (b2n a) (b2n b) (b2n c)) as (Hlt & H1 & H2 & H3); [assumption..|].
    set (v := (b2n a * 65536 + b2n b * 256 + b2n c)%N) in *.
    pose proof (quad v) as Hq. destruct (quad_bounds v Hlt) as (B1 & B2 & B3 & B4).
    cbn [b64_encode b64_decode_go]. fold v.
    rewrite !b64_val_char by assumption. rewrite IH. cbn [rbind]. cbv zeta.
    rewrite Hq, H1, H2, H3, !n2b_b2n. reflexivity.
Qed.
Definition b64_ch (c : byte) : Prop := In c b64_alphabet \/ c = pad_char.
Lemma b64_char_in n : (n < 64)%N -> b64_ch (b64_char n).
Proof. intros H. left. apply nth_In. change (length b64_alphabet) with 64. lia. Qed.
Lemma b64_encode_chars l : Forall b64_ch (b64_encode l).
Proof.
  induction l as [|a|a b|a b c l IH] using list_ind3; cbn [b64_encode]; [constructor|..].
  - pose proof (b2n_lt a).
    destruct (quad_bounds (b2n a * 65536)) as (B1 & B2 & B3 & B4); [lia|].
    do 2 (constructor; [apply b64_char_in; assumption|]). repeat constructor; right; reflexivity.
  - pose proof (b2n_lt a). pose proof (b2n_lt b).
    destruct (quad_bounds (b2n a * 65536 + b2n b * 256)) as (B1 & B2 & B3 & B4); [lia|].
    do 3 (constructor; [apply b64_char_in; assumption|]). repeat constructor; right; reflexivity.
  - pose proof (b2n_lt a). pose proof (b2n_lt b). pose proof (b2n_lt c).
    destruct (quad_bounds (b2n a * 65536 + b2n b * 256 + b2n c)) as (B1 & B2 & B3 & B4); [lia|].
    do 4 (constructor; [apply b64_char_in; assumption|]). exact IH.
Qed.
Lemma b64_ch_not_newline c : b64_ch c -> is_newline c = false.
Proof.
  intros [H| ->]; [|reflexivity].
  assert (Hs : forallb (fun c => negb (is_newline c)) b64_alphabet = true) by reflexivity.
  rewrite forallb_forall in Hs. apply Hs in H. apply negb_true_iff. exact H.
Qed.
Lemma filter_id {A} (f : A -> bool) l : Forall (fun x => f x = true) l -> filter f l = l.
Proof. induction 1 as [|x l H _ IH]; cbn [filter]; [reflexivity|]. rewrite H, IH. reflexivity. Qed.
Lemma b64_roundtrip l : b64_decode (b64_encode l) = Ok l.
Proof.
  unfold b64_decode. rewrite filter_id; [apply b64_go_roundtrip|].
  eapply Forall_impl; [|apply b64_encode_chars]. cbn. intros c H.
  rewrite (b64_ch_not_newline c H). reflexivity.
Qed.
Lemma b64_encode_length l : length (b64_encode l) = b64_EncodedLen (length l).
Proof.
  unfold b64_EncodedLen.
  induction l as [|a|a b|a b c l IH] using list_ind3; cbn [b64_encode length]; try reflexivity.
  rewrite IH. replace (S (S (S (length l))) + 2) with (length l + 2 + 1 * 3) by lia.
  rewrite Nat.div_add by discriminate. lia.
Qed.
Lemma b64_go_no_panic s : is_panic (b64_decode_go s) = false.
Proof.
  induction s as [|a|a b|a b c|a b c d s IH] using list_ind4; try reflexivity.
  cbn [b64_decode_go]. destruct (b64_val a), (b64_val b); try reflexivity.
  destruct (b64_val c).
  - destruct (b64_val d).
    + destruct (b64_decode_go s); auto.
    + destruct (byte_eqb d pad_char); [destruct s|]; reflexivity.
  - destruct (_ && _); [destruct s|]; reflexivity.
Qed.
Lemma b64_no_panic s : is_panic (b64_decode s) = false.
Proof. apply b64_go_no_panic. Qed.
Lemma b64_go_length s l : b64_decode_go s = Ok l -> 4 * length l <= 3 * length s.
Proof.
  revert l. induction s as [|a|a b|a b c|a b c d s IH] using list_ind4; intros l;
    try (cbn [b64_decode_go]; discriminate).
  - intros [= <-]. cbn. lia.
  - cbn [b64_decode_go]. destruct (b64_val a), (b64_val b); try discriminate.
    destruct (b64_val c).
    + destruct (b64_val d).
      * destruct (b64_decode_go s) as [r| |]; try discriminate. cbn [rbind]. intros [= <-].
        specialize (IH r eq_refl). cbn [length]. lia.
      * destruct (byte_eqb d pad_char); [destruct s|]; try discriminate. intros [= <-]. cbn [length]. lia.
    + destruct (_ && _); [destruct s|]; try discriminate. intros [= <-]. cbn [length]. lia.
Qed.
Lemma filter_length {A} (f : A -> bool) l : length (filter f l) <= length l.
Proof. induction l as [|x l IH]; cbn [filter length]; [lia|]. destruct (f x); cbn [length]; lia. Qed.
Lemma b64_decode_length s l : b64_decode s = Ok l -> 4 * length l <= 3 * length s.
Proof.
  intros H. apply b64_go_length in H.
  pose proof (filter_length (fun c => negb (is_newline c)) s). lia.
Qed.

(** * Decimal numbers *)
Ltac Zify.zify_post_hook ::= Z.div_mod_to_equations.
Lemma digit_val_char d : (d < 10)%N -> digit_val (digit_char d) = Some d.
Proof. intros H. unfold digit_val, digit_char. rewrite b2n_n2b_small by lia. destruct (_ && _) eqn:E; [f_equal; lia|lia]. Qed.

Lemma parse_uint_app a b acc :
  parse_uint_go (a ++ b) acc = (let* v := parse_uint_go a acc in parse_uint_go b v).
Proof.
  revert acc. induction a as [|c a IH]; intros acc; [reflexivity|].
  cbn [app parse_uint_go]. destruct (digit_val c); [|reflexivity].
  destruct (_ <=? _)%N; [reflexivity|apply IH].
Qed.

Lemma fmt_uint_acc f n acc : fmt_uint_go f n acc = fmt_uint_go f n [] ++ acc.
Proof.
  revert n acc. induction f as [|f IH]; intros n acc; [reflexivity|].
  cbn [fmt_uint_go]. destruct (n <? 10)%N; [reflexivity|].
  rewrite IH. rewrite (IH _ [digit_char (n mod 10)]). rewrite <- app_assoc. reflexivity.
Qed.
Lemma fmt_uint_parse f n :
  (n < 2 ^ N.of_nat f)%N -> (n < 2 ^ 64)%N -> f <> 0 ->
  parse_uint_go (fmt_uint_go f n []) 0 = Ok n /\ fmt_uint_go f n [] <> [].
Proof.
  revert n. induction f as [|f IH]; intros n Hf H64 Hnz; [congruence|].
  cbn [fmt_uint_go]. destruct (N.ltb_spec n 10) as [H10|H10].
  - split; [|discriminate]. cbn [parse_uint_go]. rewrite digit_val_char by exact H10.
    replace (0 * 10 + n)%N with n by lia. destruct (N.leb_spec (2 ^ 64) n); [lia|reflexivity].
  - rewrite fmt_uint_acc. rewrite Nat2N.inj_succ, N.pow_succ_r in Hf by lia.
    destruct (IH (n / 10)%N) as [H1 H2].
    + lia.
    + lia.
    + intros ->. change (2 ^ N.of_nat 0)%N with 1%N in Hf. lia.
    + split; [|intros E; apply app_eq_nil in E; tauto].
      rewrite parse_uint_app, H1. cbn [rbind parse_uint_go].
      rewrite digit_val_char by lia.
      replace (n / 10 * 10 + n mod 10)%N with n by lia.
      destruct (N.leb_spec (2 ^ 64) n); [lia|reflexivity].
Qed.
Lemma size_nat_bound n : (n < 2 ^ N.of_nat (S (N.size_nat n)))%N.
Proof.
  rewrite Nat2N.inj_succ, N.pow_succ_r by lia.
  assert (H : (n < 2 ^ N.of_nat (N.size_nat n))%N).
  { destruct n as [|p]; [reflexivity|].
    cbn [N.size_nat]. induction p as [p IH|p IH|]; cbn [Pos.size_nat].
    - rewrite Nat2N.inj_succ, N.pow_succ_r by lia. lia.
    - rewrite Nat2N.inj_succ, N.pow_succ_r by lia. lia.
    - reflexivity. }
  lia.
Qed.
Lemma ParseUint_FormatUint n : (n < 2 ^ 64)%N -> ParseUint (FormatUint n) = Ok n.
Proof.
  intros H. unfold ParseUint, FormatUint.
  destruct (fmt_uint_parse (S (N.size_nat n)) n (size_nat_bound n) H ltac:(discriminate)) as [H1 H2].
  destruct (fmt_uint_go _ _ _); [congruence|exact H1].
Qed.
Lemma digit_char_digit d : (d < 10)%N -> (48 <= b2n (digit_char d) <= 57)%N.
Proof. intros H. unfold digit_char. rewrite b2n_n2b_small by lia. lia. Qed.
Lemma FormatUint_digits n : Forall (fun c => 48 <= b2n c <= 57)%N (FormatUint n).
Proof.
  unfold FormatUint. generalize (S (N.size_nat n)). intros f.
  assert (H : forall f n acc, Forall (fun c => 48 <= b2n c <= 57)%N acc ->
              Forall (fun c => 48 <= b2n c <= 57)%N (fmt_uint_go f n acc)).
  { clear. induction f as [|f IH]; intros n acc Ha; cbn [fmt_uint_go]; [exact Ha|].
    destruct (N.ltb_spec n 10).
    - constructor; [apply digit_char_digit; assumption|exact Ha].
    - apply IH. constructor; [apply digit_char_digit; lia|exact Ha]. }
  apply H. constructor.
Qed.
Lemma FormatUint_inj a b : FormatUint a = FormatUint b -> (a < 2 ^ 64)%N -> (b < 2 ^ 64)%N -> a = b.
Proof.
  intros E Ha Hb. pose proof (ParseUint_FormatUint a Ha) as H1. rewrite E, ParseUint_FormatUint in H1 by exact Hb.
  congruence.
Qed.
Lemma FormatUint_nonempty n : (n < 2 ^ 64)%N -> FormatUint n <> [].
Proof.
  intros H. destruct (fmt_uint_parse (S (N.size_nat n)) n (size_nat_bound n) H ltac:(discriminate)) as [_ H2].
  exact H2.
Qed.
Lemma ParseUint_no_panic s : is_panic (ParseUint s) = false.
Proof.
  unfold ParseUint. destruct s as [|c s]; [reflexivity|]. generalize (c :: s) 0%N. clear.
  induction l as [|c l IH]; intros acc; cbn [parse_uint_go]; [reflexivity|].
  destruct (digit_val c); [|reflexivity]. destruct (_ <=? _)%N; [reflexivity|apply IH].
Qed.
