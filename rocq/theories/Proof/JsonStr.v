(** JSON strings: encoder and decoder against the grammar. *)
From Verif Require Import Base.Bytes Base.BytesFacts Model.GoStd Model.Json Spec.JsonSpec Proof.JsonUtf8.
Ltac Zify.zify_post_hook ::= idtac.

Lemma hex_val_in a v : hex_val a = Some v -> In (a, v) hexes.
Proof.
  intros H. pose proof (byte_sweep (fun a => match hex_val a with Some v => existsb (fun p => byte_eqb (fst p) a && N.eqb (snd p) v) hexes | None => true end) eq_refl a) as S.
  cbn beta in S. rewrite H in S. apply existsb_exists in S. destruct S as ((x & y) & I & E). apply andb_prop in E. destruct E as (E1 & E2). cbn [fst snd] in E1, E2.
  apply byte_eqb_eq in E1. apply N.eqb_eq in E2. congruence.
Qed.
Lemma hexes_val a v : In (a, v) hexes -> hex_val a = Some v /\ (v < 16)%N.
Proof.
  intros H. assert (F : Forall (fun p => hex_val (fst p) = Some (snd p) /\ (snd p < 16)%N) hexes) by (repeat constructor).
  rewrite Forall_forall in F. exact (F _ H).
Qed.
Lemma hex_quad_bound c q : hex_quad c q -> (c < 65536)%N /\ length q = 4.
Proof.
  intros [a b c' d va vb vc vd A B C D]. apply hexes_val in A, B, C, D. split; [|reflexivity]. lia.
Qed.
Lemma hex4_quad c q t : hex_quad c q -> hex4 (q ++ t) = Some (c, t).
Proof.
  intros [a b c' d va vb vc vd A B C D]. apply hexes_val in A, B, C, D. cbn [app hex4]. destruct A as (-> & _), B as (-> & _), C as (-> & _), D as (-> & _). apply f_equal, f_equal2; [lia|reflexivity].
Qed.
Lemma hex4_inv t c t' : hex4 t = Some (c, t') -> exists q, hex_quad c q /\ t = q ++ t'.
Proof.
  destruct t as [|a [|b [|c0 [|d t]]]]; try discriminate. cbn [hex4]. intros H.
  destruct (hex_val a) as [va|] eqn:A; [|discriminate]. destruct (hex_val b) as [vb|] eqn:B; [|discriminate]. destruct (hex_val c0) as [vc|] eqn:C; [|discriminate]. destruct (hex_val d) as [vd|] eqn:D; [|discriminate].
  apply hex_val_in in A, B, C, D. assert (E : c = (((va * 16 + vb) * 16 + vc) * 16 + vd)%N /\ t' = t) by (split; [assert (c = (va * 4096 + vb * 256 + vc * 16 + vd)%N) by congruence; lia|congruence]).
  destruct E as (-> & ->). exists [a; b; c0; d]. split; [constructor; assumption|reflexivity].
Qed.
Lemma high_iff r : is_high r = true <-> exists h, (h < 1024)%N /\ r = (55296 + h)%N.
Proof.
  unfold is_high. rewrite andb_true_iff, N.leb_le, N.ltb_lt. split.
  - intros (A & B). exists (r - 55296)%N. lia.
  - intros (h & A & ->). lia.
Qed.
Lemma low_iff r : is_low r = true <-> exists h, (h < 1024)%N /\ r = (56320 + h)%N.
Proof.
  unfold is_low. rewrite andb_true_iff, N.leb_le, N.ltb_lt. split.
  - intros (A & B). exists (r - 56320)%N. lia.
  - intros (h & A & ->). lia.
Qed.
Lemma scalar_dec r : (r < 65536)%N -> is_high r = false -> is_low r = false -> scalar r.
Proof.
  unfold is_high, is_low, scalar. intros L A B. apply andb_false_iff in A, B. rewrite N.leb_gt, N.ltb_ge in A, B. lia.
Qed.
Lemma scalar_not r : scalar r -> is_high r = false /\ is_low r = false.
Proof.
  unfold scalar, is_high, is_low. intros S. split; apply andb_false_iff; rewrite N.leb_gt, N.ltb_ge; lia.
Qed.
Lemma surrogate_not r : is_high r = true \/ is_low r = true -> ~ scalar r.
Proof. intros H S. apply scalar_not in S. destruct S, H; congruence. Qed.
Lemma escape_letter_in e c : escape_letter e = Some c <-> In (e, c) short_escapes.
Proof.
  split.
  - intros H. pose proof (byte_sweep (fun e => match escape_letter e with Some v => existsb (fun p => byte_eqb (fst p) e && byte_eqb (snd p) v) short_escapes | None => true end) eq_refl e) as S.
    cbn beta in S. rewrite H in S. apply existsb_exists in S. destruct S as ((x & y) & I & E). apply andb_prop in E. destruct E as (E1 & E2). cbn [fst snd] in E1, E2.
    apply byte_eqb_eq in E1, E2. congruence.
  - intros H. cbn [short_escapes In] in H. repeat destruct H as [H|H]; (contradiction || (assert (Q := f_equal fst H); assert (R := f_equal snd H); cbn [fst snd] in Q, R; subst; reflexivity)).
Qed.
Lemma escape_not_u e c : In (e, c) short_escapes -> byte_eqb e "u" = false.
Proof. intros H. cbn [short_escapes In] in H. repeat destruct H as [H|H]; (contradiction || (assert (Q := f_equal fst H); cbn [fst snd] in Q; subst; reflexivity)). Qed.

(** * Decoding *)
Definition dec_step (k : nat) (r t' : bytes) : option (bytes * bytes) := match dec_chars k t' with Some (s, t'') => Some (r ++ s, t'') | None => None end.
Lemma dec_chars_S k t : dec_chars (S k) t =
  match t with
  | [] => None
  | c :: t' =>
      if byte_eqb c quote_c then Some ([], t')
      else if byte_eqb c back_c then
        match t' with
        | [] => None
        | e :: t2 =>
            if byte_eqb e "u" then
              match hex4 t2 with
              | None => None
              | Some (r, t3) =>
                  if is_high r then
                    match low_half t3 with
                    | Some (r2, t4) => dec_step k (encode_rune ((r - 55296) * 1024 + (r2 - 56320) + 65536)%N) t4
                    | None => dec_step k (encode_rune runeError) t3
                    end
                  else if is_low r then dec_step k (encode_rune runeError) t3
                  else dec_step k (encode_rune r) t3
              end
            else match escape_letter e with Some x => dec_step k [x] t2 | None => None end
        end
      else if (b2n c <? 32)%N then None
      else let '(r, n) := decode_rune t in dec_step k (encode_rune r) (skipn n t)
  end.
Proof. reflexivity. Qed.
Lemma dec_char s t k rest : jchar s t -> dec_chars (S k) (t ++ rest) = dec_step k s rest.
Proof.
  intros H. rewrite dec_chars_S. destruct H as [c b U A B C|e c I|c b q Q U|h l b q1 q2 Q1 Q2 H1 H2 U].
  - destruct (utf8_first _ _ U) as (x & b' & E & F1 & F2). pose proof (decode_utf8 c b rest U) as D. pose proof (utf8_encode _ _ U) as EN.
    assert (X : b ++ rest = x :: (b' ++ rest)) by (rewrite E; reflexivity). rewrite X at 1.
    assert (NX : (32 <= b2n x)%N /\ b2n x <> 34%N /\ b2n x <> 92%N) by (destruct (N.lt_ge_cases c 128) as [Z|Z]; [destruct (F1 Z) as (-> & _); auto|specialize (F2 Z); lia]).
    destruct NX as (N1 & N2 & N3).
    assert (Q1 : byte_eqb x quote_c = false) by (apply byte_eqb_neq; intros ->; apply N2; reflexivity).
    assert (Q2 : byte_eqb x back_c = false) by (apply byte_eqb_neq; intros ->; apply N3; reflexivity).
    rewrite Q1, Q2. destruct (N.ltb_spec (b2n x) 32); [lia|]. rewrite D, <- EN, skipn_app, skipn_all, Nat.sub_diag. reflexivity.
  - cbn [app]. change (byte_eqb "\" quote_c) with false. change (byte_eqb "\" back_c) with true. cbv iota. rewrite (escape_not_u _ _ I). apply escape_letter_in in I. rewrite I. reflexivity.
  - cbn [app bs list_byte_of_string]. change (bs "\u" ++ q) with ("\"%byte :: "u"%byte :: q). cbn [app]. change (byte_eqb "\" quote_c) with false. change (byte_eqb "\" back_c) with true. change (byte_eqb "u" "u") with true. cbv iota.
    rewrite (hex4_quad _ _ _ Q). destruct (scalar_not _ (utf8_scalar _ _ U)) as (-> & ->). rewrite <- (utf8_encode _ _ U). reflexivity.
  - change (bs "\u" ++ q1 ++ bs "\u" ++ q2) with ("\"%byte :: "u"%byte :: (q1 ++ "\"%byte :: "u"%byte :: q2)). cbn [app]. change (byte_eqb "\" quote_c) with false. change (byte_eqb "\" back_c) with true. change (byte_eqb "u" "u") with true. cbv iota.
    rewrite <- app_assoc. rewrite (hex4_quad _ _ _ Q1).
    replace (is_high (55296 + h)) with true by (symmetry; apply high_iff; eauto). cbn [app low_half]. change (byte_eqb "\" "\" && byte_eqb "u" "u") with true. cbv iota.
    rewrite (hex4_quad _ _ _ Q2). replace (is_low (56320 + l)) with true by (symmetry; apply low_iff; eauto). f_equal. rewrite (utf8_encode _ _ U). f_equal. lia.
Qed.
Lemma replacement_rune : encode_rune runeError = replacement.
Proof. reflexivity. Qed.
Lemma utf8_ascii x : (b2n x < 128)%N -> utf8 (b2n x) [x].
Proof. intros L. rewrite <- (n2b_b2n x) at 2. constructor. exact L. Qed.
Lemma jchar_nonempty s t : jchar s t -> t <> [].
Proof. intros [c b U A B C|e c I|c b q Q U|h l b q1 q2 Q1 Q2 H1 H2 U]; try discriminate. exact (utf8_len _ _ U). Qed.
(** The closing quote is part of no character and of no escape. *)
Lemma utf8_tail n b : utf8 n b -> forall x b', b = x :: b' -> Forall (fun y => (128 <= b2n y)%N) b'.
Proof. intros H x b' E. destruct H; assert (Q := f_equal (@tl byte) E); cbn [tl] in Q; subst b'; repeat constructor; rewrite b2n_n2b_small by lia; lia. Qed.
Lemma stray_quote c t rest : stray_byte c t <-> stray_byte c (t ++ x22 :: rest).
Proof.
  split; intros (G & H); (split; [exact G|]); intros n b r U E.
  - destruct (utf8_first _ _ U) as (x & b' & EB & _). pose proof (utf8_tail _ _ U _ _ EB) as F. subst b. cbn [app] in E. assert (x = c /\ t ++ x22 :: rest = b' ++ r) as (-> & E2) by (split; congruence).
    assert (X : exists r', t = b' ++ r').
    { clear - F E2. revert t E2. induction F as [|y b' Y F IH]; intros t E; [exists t; reflexivity|]. destruct t as [|z t]; cbn [app] in E.
      - assert (y = x22) by congruence. subst y. exfalso. apply Y. reflexivity.
      - destruct (IH t ltac:(congruence)) as (r' & ->). exists r'. cbn [app]. congruence. }
    destruct X as (r' & ->). exact (H n _ r' U eq_refl).
  - apply (H n b (r ++ x22 :: rest) U). rewrite app_assoc, <- E. reflexivity.
Qed.
Lemma hex_not_quote c q : hex_quad c q -> Forall (fun y => y <> x22) q.
Proof.
  intros [a b0 c0 d va vb vc vd A B C D].
  assert (Z : forall y v, In (y, v) hexes -> y <> x22).
  { intros y v I ->. apply hexes_val in I. destruct I as (I & _). discriminate I. }
  repeat constructor; eauto.
Qed.
Lemma before_quote b t rest r : Forall (fun y => y <> x22) b -> t ++ x22 :: rest = b ++ r -> exists r', t = b ++ r'.
Proof.
  intros F. revert t. induction F as [|y b Y F IH]; intros t E; [exists t; reflexivity|]. destruct t as [|z t]; cbn [app] in E; [congruence|].
  destruct (IH t ltac:(congruence)) as (r' & ->). exists r'. cbn [app]. congruence.
Qed.
Lemma half_quote c t rest : stray_half c t <-> stray_half c (t ++ x22 :: rest).
Proof.
  split; intros (G & H); (split; [exact G|]); intros h l q r Hh Hl Q EC E.
  - rewrite app_assoc in E. destruct (before_quote (bs "\u" ++ q) _ _ _ ltac:(apply Forall_app; split; [repeat constructor; discriminate|exact (hex_not_quote _ _ Q)]) E) as (r' & ->). exact (H h l q r' Hh Hl Q EC (eq_sym (app_assoc _ _ _))).
  - apply (H h l q (r ++ x22 :: rest) Hh Hl Q EC). rewrite E, <- !app_assoc. reflexivity.
Qed.
Lemma low_half_inv t r t' : low_half t = Some (r, t') -> exists l q, (l < 1024)%N /\ r = (56320 + l)%N /\ hex_quad r q /\ t = bs "\u" ++ q ++ t'.
Proof.
  unfold low_half. intros LH. destruct t as [|b [|u t3]]; try discriminate LH. destruct (byte_eqb b "\" && byte_eqb u "u") eqn:BU; [|discriminate LH].
  destruct (hex4 t3) as [(r2' & t5)|] eqn:X2; [|discriminate LH]. destruct (is_low r2') eqn:LO; [|discriminate LH]. assert (r2' = r /\ t5 = t') as (-> & ->) by (split; congruence).
  destruct (hex4_inv _ _ _ X2) as (q2 & HQ2 & ->). apply andb_prop in BU. destruct BU as (B1 & B2). apply byte_eqb_eq in B1, B2. subst b u.
  apply low_iff in LO. destruct LO as (l & Hl & ->). exists l, q2. auto.
Qed.
Lemma low_half_quad l q t : (l < 1024)%N -> hex_quad (56320 + l) q -> low_half (bs "\u" ++ q ++ t) = Some ((56320 + l)%N, t).
Proof.
  intros L Q. change (bs "\u" ++ q ++ t) with ("\"%byte :: "u"%byte :: (q ++ t)). cbn [low_half]. change (byte_eqb "\" "\" && byte_eqb "u" "u") with true. cbv iota.
  rewrite (hex4_quad _ _ _ Q). replace (is_low (56320 + l)) with true by (symmetry; apply low_iff; eauto). reflexivity.
Qed.
Lemma dec_chars_complete lax s u : jchars lax s u -> forall fuel rest, length u < fuel -> dec_chars fuel (u ++ x22 :: rest) = Some (s, rest).
Proof.
  induction 1 as [|s t s' t' C H IH|c s' t' LX ST H IH|c q s' t' LX Q ST H IH]; intros fuel rest L.
  - destruct fuel; [cbn in L; lia|]. reflexivity.
  - destruct fuel as [|k]; [lia|]. rewrite <- app_assoc, (dec_char _ _ _ _ C). unfold dec_step. rewrite app_length in L. pose proof (jchar_nonempty _ _ C) as N.
    rewrite IH; [reflexivity|]. destruct t; [congruence|]. cbn [length] in L. lia.
  - destruct fuel as [|k]; [lia|]. rewrite dec_chars_S. cbn [app]. apply (stray_quote c t' rest) in ST. destruct ST as (G & NO).
    assert (Q1 : byte_eqb c quote_c = false) by (apply byte_eqb_neq; intros ->; apply G; reflexivity). assert (Q2 : byte_eqb c back_c = false) by (apply byte_eqb_neq; intros ->; apply G; reflexivity). rewrite Q1, Q2.
    destruct (N.ltb_spec (b2n c) 32) as [Z|Z]; [lia|]. destruct (decode_rune (c :: t' ++ x22 :: rest)) as (r & n) eqn:D. destruct (decode_cases _ _ _ _ D) as [(U & LE)|(-> & -> & _ & _)].
    + exfalso. exact (NO _ _ (skipn n (c :: t' ++ x22 :: rest)) U (eq_sym (firstn_skipn _ _))).
    + unfold dec_step. cbn [skipn]. cbn [length] in L. rewrite IH by lia. reflexivity.
  - destruct fuel as [|k]; [lia|]. rewrite dec_chars_S. rewrite <- !app_assoc. change (bs "\u" ++ q ++ t' ++ x22 :: rest) with ("\"%byte :: "u"%byte :: (q ++ t' ++ x22 :: rest)).
    change (byte_eqb "\" quote_c) with false. change (byte_eqb "\" back_c) with true. change (byte_eqb "u" "u") with true. cbv iota. rewrite (hex4_quad _ _ _ Q). apply (half_quote c t' rest) in ST. destruct ST as (NS & NO).
    assert (IHX : dec_step k (encode_rune runeError) (t' ++ x22 :: rest) = Some (replacement ++ s', rest)).
    { unfold dec_step. rewrite !app_length in L. change (length (bs "\u")) with 2 in L. rewrite IH by lia. reflexivity. }
    destruct (hex_quad_bound _ _ Q) as (RB & _). destruct (is_high c) eqn:HI.
    + destruct (low_half (t' ++ x22 :: rest)) as [(r2 & t4)|] eqn:LH; [|exact IHX]. exfalso. destruct (low_half_inv _ _ _ LH) as (l & q2 & Hl & -> & Q2 & E). apply high_iff in HI. destruct HI as (h & Hh & ->). exact (NO h l q2 t4 Hh Hl Q2 eq_refl E).
    + destruct (is_low c) eqn:LO; [exact IHX|]. exfalso. apply NS. apply scalar_dec; assumption.
Qed.
Lemma jchars_lax lax s u : jchars false s u -> jchars lax s u.
Proof. induction 1 as [|s t s' t' C H IH|c s' t' LX|c q s' t' LX]; try discriminate LX; [constructor|apply jcs_cons; assumption]. Qed.
Lemma dec_chars_sound : forall fuel t s rest, dec_chars fuel t = Some (s, rest) -> exists u, jchars true s u /\ t = u ++ x22 :: rest.
Proof.
  induction fuel as [|k IH]; intros t s rest H; [discriminate H|]. rewrite dec_chars_S in H.
  assert (ST : forall r u t', jchar r u -> dec_step k r t' = Some (s, rest) -> t = u ++ t' -> exists u, jchars true s u /\ t = u ++ x22 :: rest).
  { intros r u t' J D ->. unfold dec_step in D. destruct (dec_chars k t') as [(s' & t'')|] eqn:E; [|discriminate D]. destruct (IH _ _ _ E) as (u' & U & ->).
    assert (s = r ++ s' /\ t'' = rest) as (-> & ->) by (split; congruence). exists (u ++ u'). split; [apply jcs_cons; assumption|rewrite <- app_assoc; reflexivity]. }
  destruct t as [|c t]; [discriminate H|]. destruct (byte_eqb c quote_c) eqn:Q.
  { apply byte_eqb_eq in Q. assert (s = [] /\ t = rest) as (-> & ->) by (split; congruence). exists []. split; [constructor|]. rewrite Q. reflexivity. }
  destruct (byte_eqb c back_c) eqn:B.
  - apply byte_eqb_eq in B. destruct t as [|e t2]; [discriminate H|]. destruct (byte_eqb e "u") eqn:EU.
    + apply byte_eqb_eq in EU. destruct (hex4 t2) as [(r & t3)|] eqn:X; [|discriminate H]. destruct (hex4_inv _ _ _ X) as (q & HQ & ->). destruct (hex_quad_bound _ _ HQ) as (RB & _).
      subst c e.
      assert (HALF : ~ scalar r -> (forall h l q' r', (h < 1024)%N -> (l < 1024)%N -> hex_quad (56320 + l) q' -> r = (55296 + h)%N -> t3 <> bs "\u" ++ q' ++ r') -> dec_step k (encode_rune runeError) t3 = Some (s, rest) ->
                     exists u, jchars true s u /\ back_c :: "u"%byte :: q ++ t3 = u ++ x22 :: rest).
      { intros NS NO D. unfold dec_step in D. destruct (dec_chars k t3) as [(s' & t'')|] eqn:E; [|discriminate D]. destruct (IH _ _ _ E) as (u' & U & ->). assert (s = replacement ++ s' /\ t'' = rest) as (-> & ->) by (split; [rewrite <- replacement_rune|]; congruence).
        exists (bs "\u" ++ q ++ u'). split; [apply (jcs_half true r); [reflexivity|exact HQ|apply (half_quote r u' rest); split; assumption|exact U]|]. rewrite <- !app_assoc. reflexivity. }
      destruct (is_high r) eqn:IHI.
      * destruct (low_half t3) as [(r2 & t4)|] eqn:LH.
        -- destruct (low_half_inv _ _ _ LH) as (l & q2 & Hl & -> & HQ2 & ->). apply high_iff in IHI. destruct IHI as (h & Hh & ->).
           replace (55296 + h - 55296)%N with h in H by lia. replace (56320 + l - 56320)%N with l in H by lia.
           eapply ST; [|exact H|].
           ++ eapply (jc_pair h l); [exact HQ|exact HQ2|exact Hh|exact Hl|]. replace (h * 1024 + l + 65536)%N with (65536 + h * 1024 + l)%N by lia. apply scalar_utf8. unfold scalar. lia.
           ++ change (bs "\u" ++ q ++ bs "\u" ++ q2) with (back_c :: "u"%byte :: (q ++ "\"%byte :: "u"%byte :: q2)). cbn [app]. rewrite <- app_assoc. reflexivity.
        -- apply HALF; [apply surrogate_not; auto| |exact H]. intros h l q' r' Hh Hl Q' _ E. rewrite E, (low_half_quad l q' r' Hl Q') in LH. discriminate LH.
      * destruct (is_low r) eqn:ILO.
        -- apply HALF; [apply surrogate_not; auto| |exact H]. intros h l q' r' Hh Hl Q' -> _. rewrite (proj2 (high_iff _)) in IHI by eauto. discriminate IHI.
        -- eapply ST; [|exact H|]; [eapply jc_hex; [exact HQ|apply scalar_utf8; apply scalar_dec; assumption]|reflexivity].
    + destruct (escape_letter e) as [x|] eqn:EL; [|discriminate H]. apply escape_letter_in in EL. subst c. eapply ST; [|exact H|]; [apply jc_short; exact EL|reflexivity].
  - destruct (N.ltb_spec (b2n c) 32) as [L|L]; [discriminate H|]. destruct (decode_rune (c :: t)) as (r & n) eqn:D. apply byte_eqb_neq in Q, B.
    destruct (decode_cases _ _ _ _ D) as [(U & LE)|(-> & -> & G & NO)].
    + eapply (ST _ (firstn n (c :: t))); [|exact H|rewrite firstn_skipn; reflexivity]. pose proof (utf8_encode _ _ U) as EN. rewrite <- EN. destruct (utf8_first _ _ U) as (x & b' & E & F1 & F2).
      assert (XC : x = c).
      { destruct n; [exfalso; exact (utf8_len _ _ U eq_refl)|]. cbn [firstn] in E. congruence. }
      subst x. destruct (N.lt_ge_cases r 128) as [Z|Z].
      * destruct (F1 Z) as (E1 & E2). apply (jc_plain r); [exact U|lia| |].
        -- intros R. apply Q. apply b2n_inj. rewrite E1, R. reflexivity.
        -- intros R. apply B. apply b2n_inj. rewrite E1, R. reflexivity.
      * apply (jc_plain r); [exact U|lia|lia|lia].
    + cbn [skipn] in H. unfold dec_step in H. destruct (dec_chars k t) as [(s' & t'')|] eqn:E; [|discriminate H]. destruct (IH _ _ _ E) as (u' & U & ->). assert (s = replacement ++ s' /\ t'' = rest) as (-> & ->) by (split; [rewrite <- replacement_rune|]; congruence).
      exists (c :: u'). split; [|reflexivity]. apply (jcs_byte true); [reflexivity| |exact U]. apply (stray_quote c u' rest). split; assumption.
Qed.

(** * Encoding *)
Lemma enc_one short c : (b2n c < 128)%N -> jchar [c] (if html_safe c then [c] else esc_byte short c).
Proof.
  intros L. destruct (html_safe c) eqn:S.
  - apply (jc_plain (b2n c)); [apply utf8_ascii; exact L| | |]; unfold html_safe in S; apply andb_prop in S; destruct S as (S1 & S2); apply N.leb_le in S1; [exact S1| |];
    intros E; apply negb_true_iff in S2; cbn [existsb] in S2; repeat (apply orb_false_iff in S2; destruct S2 as (? & S2));
    repeat match goal with H : byte_eqb _ _ = false |- _ => apply byte_eqb_neq in H end;
    match goal with H : c <> _ |- _ => apply H; apply b2n_inj; exact E end.
  - unfold esc_byte. destruct (byte_eqb c "\") eqn:E1; [apply byte_eqb_eq in E1; subst; apply jc_short; cbn; tauto|].
    destruct (byte_eqb c x22) eqn:E2; [apply byte_eqb_eq in E2; subst; apply jc_short; cbn; tauto|]. cbn [orb].
    destruct (byte_eqb c x0a) eqn:E3; [apply byte_eqb_eq in E3; subst; apply jc_short; cbn; tauto|].
    destruct (byte_eqb c x0d) eqn:E4; [apply byte_eqb_eq in E4; subst; apply jc_short; cbn; tauto|].
    destruct (byte_eqb c x09) eqn:E5; [apply byte_eqb_eq in E5; subst; apply jc_short; cbn; tauto|].
    destruct (short && byte_eqb c x08) eqn:E6; [apply andb_prop in E6; destruct E6 as (_ & E6); apply byte_eqb_eq in E6; subst; apply jc_short; cbn; tauto|].
    destruct (short && byte_eqb c x0c) eqn:E7; [apply andb_prop in E7; destruct E7 as (_ & E7); apply byte_eqb_eq in E7; subst; apply jc_short; cbn; tauto|].
    change (back_c :: bs "u00" ++ [hex_char (b2n c / 16); hex_char (b2n c mod 16)]) with (bs "\u" ++ ["0"; "0"; hex_char (b2n c / 16); hex_char (b2n c mod 16)]%byte).
    apply (jc_hex (b2n c)); [|apply utf8_ascii; exact L].
    assert (HC : forall v, (v < 16)%N -> In (hex_char v, v) hexes).
    { intros v Hv. assert (K : In v (map N.of_nat (seq 0 16))) by (apply in_map_iff; exists (N.to_nat v); split; [lia|apply in_seq; lia]).
      cbn in K. repeat destruct K as [<-|K]; try contradiction; vm_compute; tauto. }
    assert (Z : In ("0"%byte, 0%N) hexes) by (vm_compute; tauto).
    pose proof (N.div_mod (b2n c) 16 ltac:(lia)) as DM. pose proof (N.mod_lt (b2n c) 16 ltac:(lia)) as ML.
    assert (DL : (b2n c / 16 < 16)%N) by (apply N.div_lt_upper_bound; lia).
    replace (b2n c) with (((0 * 16 + 0) * 16 + b2n c / 16) * 16 + b2n c mod 16)%N at 1 by lia. constructor; auto.
Qed.
(** What the encoder makes of a string. *)
Lemma repaired_utf8 s s' : is_utf8 s -> repaired s s' -> s' = s.
Proof.
  intros U R. induction R as [|c b s s' B R IH|x s s' NO R IH]; [reflexivity| |].
  - f_equal. apply IH. inversion U as [E|c0 b0 s0 B0 U0 EQ].
    + destruct b; [exfalso; exact (utf8_len _ _ B eq_refl)|discriminate].
    + pose proof (decode_utf8 _ _ s B) as D. pose proof (decode_utf8 _ _ s0 B0) as D0. rewrite EQ in D0. rewrite D in D0. assert (length b = length b0) as L by congruence. assert (c = c0) by congruence. subst c0.
      pose proof (utf8_fun _ _ _ B B0). subst b0. apply app_inv_head in EQ. subst s0. exact U0.
  - exfalso. inversion U as [|c0 b0 s0 B0 U0 EQ]. exact (NO _ _ _ B0 (eq_sym EQ)).
Qed.
Lemma enc_chars_any short : forall fuel s, length s <= fuel -> exists s', jchars false s' (enc_chars short fuel s) /\ repaired s s'.
Proof.
  induction fuel as [|k IH]; intros s L.
  - destruct s; [|cbn in L; lia]. exists []. split; constructor.
  - destruct s as [|c s]; [exists []; split; constructor|]. cbn [enc_chars]. cbn [length] in L. destruct (N.ltb_spec (b2n c) 128) as [A|A].
    + destruct (IH s ltac:(lia)) as (s' & J & E). exists ([c] ++ s'). split; [apply jcs_cons; [apply enc_one; exact A|exact J]|]. change (c :: s) with ([c] ++ s). apply (rp_char (b2n c)); [apply utf8_ascii; exact A|exact E].
    + destruct (decode_rune (c :: s)) as (r & n) eqn:D. destruct (decode_cases _ _ _ _ D) as [(U & LE)|(-> & -> & G & NO)].
      * assert (NZ : n <> 0) by (intros ->; exact (utf8_len _ _ U eq_refl)).
        destruct (IH (skipn n (c :: s))) as (s' & J & E); [rewrite skipn_length; cbn [length]; lia|].
        assert (ED : (r =? runeError)%N && (n =? 1) = false).
        { apply andb_false_iff. destruct (Nat.eqb_spec n 1) as [->|]; [|right; reflexivity]. left. apply N.eqb_neq. intros ->. cbn [firstn] in U. apply utf8_encode in U. discriminate U. }
        rewrite ED. exists (firstn n (c :: s) ++ s'). split.
        -- apply jcs_cons; [|exact J]. destruct ((r =? 8232)%N || (r =? 8233)%N) eqn:LS.
           ++ apply orb_prop in LS. assert (QQ : hex_quad r ([ "2"; "0"; "2" ]%byte ++ [hex_char (r mod 16)])).
              { assert (H2 : In ("2"%byte, 2%N) hexes) by (vm_compute; tauto). assert (H0 : In ("0"%byte, 0%N) hexes) by (vm_compute; tauto).
                destruct LS as [LS|LS]; apply N.eqb_eq in LS; subst r; cbn [app].
                - change (8232 mod 16)%N with 8%N. change 8232%N with (((2 * 16 + 0) * 16 + 2) * 16 + 8)%N. constructor; auto. vm_compute. tauto.
                - change (8233 mod 16)%N with 9%N. change 8233%N with (((2 * 16 + 0) * 16 + 2) * 16 + 9)%N. constructor; auto. vm_compute. tauto. }
              change (bs "\u202" ++ [hex_char (r mod 16)]) with (bs "\u" ++ ([ "2"; "0"; "2" ]%byte ++ [hex_char (r mod 16)])). exact (jc_hex r _ _ QQ U).
           ++ destruct (utf8_first _ _ U) as (x & b' & EF & F1 & F2). assert (x = c) by (destruct n; [congruence|cbn [firstn] in EF; congruence]). subst x.
              assert (128 <= r)%N by (destruct (N.lt_ge_cases r 128) as [Z|Z]; [destruct (F1 Z); lia|exact Z]). apply (jc_plain r); [exact U|lia..].
        -- rewrite <- (firstn_skipn n (c :: s)) at 1. apply (rp_char r); assumption.
      * destruct (IH s ltac:(lia)) as (s' & J & E). change ((runeError =? runeError)%N && (1 =? 1)) with true. cbv iota. cbn [skipn]. exists (replacement ++ s'). split.
        -- apply jcs_cons; [|exact J]. change (bs "\ufffd") with (bs "\u" ++ bs "fffd"). apply (jc_hex runeError); [|exact (scalar_utf8 runeError ltac:(unfold scalar, runeError; lia))].
           change runeError with (((15 * 16 + 15) * 16 + 15) * 16 + 13)%N. constructor; vm_compute; tauto.
        -- apply rp_byte; assumption.
Qed.
Lemma enc_string_any short s : exists s', jstring false s' (enc_string short s) /\ repaired s s'.
Proof.
  destruct (enc_chars_any short (length s) s (le_n _)) as (s' & J & E). exists s'. split; [|exact E]. exists (enc_chars short (length s) s). split; [exact J|reflexivity].
Qed.
