(** Scanning an archive for references (C103): nothing but the texts of the tree counts. *)
From Verif Require Import Base.Bytes Base.BytesFacts Spec.WireSpec Spec.NarSpec Spec.StorePathSpec Spec.RefSpec Spec.ScanSpec
  Proof.RefProps Proof.NarReaderFacts.
Ltac Zify.zify_post_hook ::= idtac.

Lemma no_b32 c h : ~ is_b32 c -> hash_part h -> ~ In c h.
Proof. intros H [_ F] X. rewrite Forall_forall in F. exact (H (F c X)). Qed.
Lemma app_mid {A} (a b p q : list A) c : a ++ c :: b = p ++ q -> (exists r, a = p ++ r /\ q = r ++ c :: b) \/ (exists r, p = a ++ c :: r /\ b = r ++ q).
Proof.
  revert p. induction a as [|x a IH]; intros p E.
  - destruct p as [|y p]; [left; exists []; auto|]. injection E as <- E. right. exists p. auto.
  - destruct p as [|y p]; [left; exists (x :: a); auto|]. injection E as <- E. destruct (IH p E) as [(r & -> & R)|(r & -> & R)]; [left|right]; exists r; auto.
Qed.
Lemma aligned_behind a c pre : ~ is_b32 c -> aligned (a ++ c :: pre) <-> aligned pre.
Proof.
  intros N. split.
  - intros (x & run & k & E & F & L & X).
    destruct (app_mid a pre x run c E) as [(r & -> & R)|(r & -> & R)].
    + exfalso. subst run. apply Forall_app in F. destruct F as [_ F]. inversion F. contradiction.
    + exists r, run, k. split; [exact R|]. split; [exact F|]. split; [exact L|]. destruct X as [X|(x' & z & X & Z)]; [destruct a; discriminate X|].
      destruct r as [|y r _] using rev_ind; [auto|]. right. exists r, y. split; [reflexivity|].
      assert (y = z); [|congruence]. change (a ++ c :: r ++ [y]) with (a ++ (c :: r) ++ [y]) in X. rewrite app_assoc in X. apply app_snoc_inv in X. tauto.
  - intros (x & run & k & -> & F & L & X). exists (a ++ c :: x), run, k. split; [rewrite <- app_assoc; reflexivity|]. split; [exact F|]. split; [exact L|]. right.
    destruct X as [->|(x' & z & -> & Z)]; [exists a, c; auto|]. exists (a ++ c :: x'), z. split; [rewrite <- app_assoc; reflexivity|exact Z].
Qed.
(** A character that is no base32 digit separates. *)
Lemma occ_split h a c b : ~ is_b32 c -> aligned_occurrence h (a ++ c :: b) <-> aligned_occurrence h a \/ aligned_occurrence h b.
Proof.
  intros N. split.
  - intros (HP & pre & post & E & A). destruct (app_mid a b pre (h ++ post) c E) as [(r & -> & R)|(r & -> & R)].
    + destruct (app_mid r b h post c (eq_sym R)) as [(q & -> & Q)|(q & -> & Q)].
      * left. split; [exact HP|]. exists pre, q. auto.
      * exfalso. apply (no_b32 c (r ++ c :: q) N HP). apply in_or_app. right. left. reflexivity.
    + right. split; [exact HP|]. exists r, post. split; [exact R|]. apply aligned_behind in A; assumption.
  - intros [(HP & pre & post & -> & A)|(HP & pre & post & -> & A)]; split; try exact HP.
    + exists pre, (post ++ c :: b). split; [rewrite <- !app_assoc; reflexivity|exact A].
    + exists (a ++ c :: pre), post. split; [rewrite <- app_assoc; reflexivity|]. apply aligned_behind; assumption.
Qed.
Lemma occ_short h x : length x < 32 -> ~ aligned_occurrence h x.
Proof. intros L ([HL _] & pre & post & -> & _). rewrite !app_length in L. lia. Qed.
Lemma zero_b32 : ~ is_b32 x00.
Proof. unfold is_b32. apply contains_byte_false. reflexivity. Qed.

Definition starts_quiet (r : bytes) : Prop := match r with [] => True | c :: _ => ~ is_b32 c end.
Lemma occ_quiet h x r : starts_quiet r -> aligned_occurrence h (x ++ r) <-> aligned_occurrence h x \/ aligned_occurrence h r.
Proof.
  intros Q. destruct r as [|c r]; [rewrite app_nil_r; split; [auto|intros [H|H]; [exact H|elim (occ_short h []); [cbn; lia|exact H]]]|].
  rewrite occ_split by exact Q. pose proof (occ_split h [] c r Q) as S. cbn [app] in S. rewrite S. pose proof (occ_short h [] ltac:(cbn; lia)). tauto.
Qed.
Lemma occ_zeros h k r : aligned_occurrence h (repeat x00 k ++ r) <-> aligned_occurrence h r.
Proof.
  induction k as [|k IH]; [reflexivity|]. change (repeat x00 (S k) ++ r) with ([] ++ x00 :: repeat x00 k ++ r). rewrite occ_split by exact zero_b32.
  pose proof (occ_short h [] ltac:(cbn; lia)). tauto.
Qed.
Lemma quiet_zeros k r : starts_quiet r -> starts_quiet (repeat x00 k ++ r).
Proof. destruct k; [auto|]. intros _. exact zero_b32. Qed.
Lemma le8_shape n : (n < 2 ^ 56)%N -> exists p, le8 n = p ++ [x00] /\ length p = 7.
Proof.
  intros H. unfold le8. change (seq 0 8) with (seq 0 7 ++ [7]). rewrite map_app. cbn [map]. eexists. split; [|rewrite map_length, seq_length; reflexivity]. f_equal. f_equal.
  rewrite N.div_small; [reflexivity|]. exact H.
Qed.
(** A token behind a run of fewer than 32 characters. *)
Lemma occ_length h x n r : (n < 2 ^ 56)%N -> length x <= 24 -> aligned_occurrence h (x ++ le8 n ++ r) <-> aligned_occurrence h r.
Proof.
  intros H L. destruct (le8_shape n H) as (p & -> & LP). rewrite <- app_assoc. cbn [app]. rewrite app_assoc. rewrite occ_split by exact zero_b32.
  pose proof (occ_short h (x ++ p)). rewrite app_length in *. assert (~ aligned_occurrence h (x ++ p)) by (apply H0; lia). tauto.
Qed.
Lemma occ_field h x y r : (lenN y < 2 ^ 56)%N -> length x <= 24 -> starts_quiet r ->
  aligned_occurrence h (x ++ field y ++ r) <-> aligned_occurrence h y \/ aligned_occurrence h r.
Proof.
  intros H L Q. unfold field. rewrite <- !app_assoc. rewrite occ_length by assumption. rewrite occ_quiet by (apply quiet_zeros; exact Q). rewrite occ_zeros. reflexivity.
Qed.
Lemma occ_token h (s : string) r : length (bs s) <= 24 -> starts_quiet r -> aligned_occurrence h (str s ++ r) <-> aligned_occurrence h r.
Proof.
  intros L Q. unfold str. change (field (bs s) ++ r) with ([] ++ field (bs s) ++ r). rewrite occ_field; [|unfold lenN; lia|cbn; lia|exact Q].
  pose proof (occ_short h (bs s) ltac:(lia)). tauto.
Qed.
Lemma occ_token_field h (s : string) y r : length (bs s) <= 16 -> (lenN y < 2 ^ 56)%N -> starts_quiet r ->
  aligned_occurrence h (str s ++ field y ++ r) <-> aligned_occurrence h y \/ aligned_occurrence h r.
Proof.
  intros L H Q. unfold str. unfold field at 1. rewrite <- !app_assoc. pose proof (occ_length h [] (lenN (bs s)) (bs s ++ repeat x00 (pad_len (length (bs s))) ++ field y ++ r)) as E.
  cbn [app] in E. rewrite E; [|unfold lenN; lia|cbn; lia]. rewrite app_assoc. apply occ_field; [exact H| |exact Q].
  rewrite app_length, repeat_length. unfold pad_len. pose proof (Nat.mod_upper_bound (8 - length (bs s) mod 8) 8 ltac:(lia)). lia.
Qed.
(** Where a token or a node begins there is a small length. *)
Lemma quiet_token (s : string) r : match bs s with [] => true | _ => (lenN (bs s) <? 48)%N end = true -> starts_quiet (str s ++ r).
Proof.
  intros H. unfold str, field, le8. change (seq 0 8) with (0 :: seq 1 7). cbn [map app starts_quiet]. change (256 ^ N.of_nat 0)%N with 1%N. rewrite N.div_1_r.
  assert (L : (lenN (bs s) < 48)%N) by (destruct (bs s); [cbn; lia|apply N.ltb_lt; exact H]). clear H.
  unfold is_b32. intros X. assert (W : forallb (fun c => (48 <=? b2n c)%N) hash_alphabet = true) by reflexivity. rewrite forallb_forall in W. apply W in X. apply N.leb_le in X.
  rewrite b2n_n2b in X by lia. lia.
Qed.
Ltac quiet := first [apply quiet_token; reflexivity|assumption].
Ltac tk := rewrite occ_token; [|cbn; lia|quiet].
Lemma quiet_ser t r : starts_quiet (ser t ++ r).
Proof. destruct t; cbn [ser]; rewrite <- app_assoc; quiet. Qed.
Lemma ser_occ h t : Forall (fun x => (lenN x < 2 ^ 56)%N) (texts t) -> forall r, starts_quiet r ->
  aligned_occurrence h (ser t ++ r) <-> (exists x, In x (texts t) /\ aligned_occurrence h x) \/ aligned_occurrence h r.
Proof.
  induction t as [ex c|tg|es IH] using node_ind2; intros HL r Q; cbn [ser texts] in *; rewrite <- !app_assoc.
  - tk. tk. rewrite occ_token; [|cbn; lia|destruct ex; [rewrite <- !app_assoc|cbn [app]]; quiet].
    apply Forall_inv in HL.
    assert (E : aligned_occurrence h ((if ex then str "executable" ++ str "" else []) ++ str "contents" ++ field c ++ str ")" ++ r) <-> aligned_occurrence h c \/ aligned_occurrence h r).
    { destruct ex; cbn [app]; rewrite <- ?app_assoc.
      - tk. tk. rewrite occ_token_field; [|cbn; lia|exact HL|quiet]. rewrite occ_token; [reflexivity|cbn; lia|exact Q].
      - rewrite occ_token_field; [|cbn; lia|exact HL|quiet]. rewrite occ_token; [reflexivity|cbn; lia|exact Q]. }
    rewrite E. split; [intros [X|X]; [left; exists c; split; [left; reflexivity|exact X]|right; exact X]|]. intros [(x & [<-|[]] & X)|X]; auto.
  - apply Forall_inv in HL. tk. tk. tk. rewrite occ_token_field; [|cbn; lia|exact HL|quiet]. rewrite occ_token; [|cbn; lia|exact Q].
    split; [intros [X|X]; [left; exists tg; split; [left; reflexivity|exact X]|right; exact X]|]. intros [(x & [<-|[]] & X)|X]; auto.
  - assert (QE : forall es, starts_quiet (concat (map (fun e => entry_open (fst e) ++ ser (snd e) ++ str ")") es) ++ str ")" ++ r)).
    { intros [|e l]; cbn [map concat app]; [quiet|]. unfold entry_open. rewrite <- !app_assoc. quiet. }
    tk. tk. rewrite occ_token; [|cbn; lia|apply QE].
    induction es as [|e es IHes]; cbn [map concat app] in *.
    + rewrite occ_token; [|cbn; lia|exact Q]. split; [auto|]. intros [(x & [] & _)|X]; exact X.
    + unfold entry_open. rewrite <- !app_assoc. inversion HL as [|? ? HN HL']. subst. apply Forall_app in HL'. destruct HL' as [HL1 HL2]. inversion IH as [|? ? IH1 IH2]. subst.
      tk. tk. rewrite occ_token_field; [|cbn; lia|exact HN|quiet]. rewrite occ_token; [|cbn; lia|apply quiet_ser].
      rewrite IH1; [|exact HL1|quiet]. rewrite occ_token; [|cbn; lia|apply QE]. rewrite IHes by assumption.
      split.
      * intros [X|[(x & X & Y)|[(x & X & Y)|X]]].
        -- left. exists (fst e). split; [left; reflexivity|exact X].
        -- left. exists x. split; [right; apply in_or_app; auto|exact Y].
        -- left. exists x. split; [right; apply in_or_app; auto|exact Y].
        -- right. exact X.
      * intros [(x & [<-|X] & Y)|X]; auto. apply in_app_or in X. destruct X as [X|X]; right; [left|right; left]; exists x; auto.
Qed.
Lemma nar_occ h t : below_64PiB t -> aligned_occurrence h (nar t) <-> exists x, In x (texts t) /\ aligned_occurrence h x.
Proof.
  intros H. unfold nar. rewrite occ_token; [|cbn; lia|rewrite <- (app_nil_r (ser t)); apply quiet_ser]. rewrite <- (app_nil_r (ser t)). rewrite (ser_occ h t H [] I).
  pose proof (occ_short h [] ltac:(cbn; lia)). tauto.
Qed.
