(** Lemmas about the wire model. *)
From Verif Require Import Base.Bytes Base.BytesFacts Model.GoIO Model.Wire Spec.WireSpec.

Arguments N.add : simpl never.
Arguments N.sub : simpl never.
Arguments N.mul : simpl never.
Arguments N.modulo : simpl never.
Arguments N.div : simpl never.
Arguments N.pow : simpl never.

(** * Padding and little endian *)
Lemma pad_len_lt n : pad_len n < 8.
Proof. apply Nat.mod_upper_bound. discriminate. Qed.
Lemma pad_len_mod n : (n + pad_len n) mod 8 = 0.
Proof.
  unfold pad_len. pose proof (Nat.mod_upper_bound n 8 ltac:(discriminate)) as H.
  rewrite (Nat.div_mod n 8) at 1 by discriminate.
  destruct (Nat.eq_dec (n mod 8) 0) as [E|E].
  - rewrite E. replace ((8 - 0) mod 8) with 0 by reflexivity.
    rewrite !Nat.add_0_r, Nat.mul_comm. apply Nat.mod_mul. discriminate.
  - rewrite (Nat.mod_small (8 - n mod 8) 8) by lia.
    replace (8 * (n / 8) + n mod 8 + (8 - n mod 8)) with ((n / 8 + 1) * 8) by lia.
    apply Nat.mod_mul. discriminate.
Qed.
Lemma pad_len_least n k : (n + k) mod 8 = 0 -> pad_len n <= k.
Proof.
  intros H. unfold pad_len.
  pose proof (Nat.mod_upper_bound n 8 ltac:(discriminate)) as Hb.
  destruct (Nat.eq_dec (n mod 8) 0) as [E|E].
  - rewrite E. cbn. lia.
  - rewrite (Nat.mod_small (8 - n mod 8) 8) by lia.
    destruct (Nat.le_gt_cases (8 - n mod 8) k) as [|Hlt]; [assumption|exfalso].
    rewrite (Nat.div_mod n 8) in H by discriminate.
    replace (8 * (n / 8) + n mod 8 + k) with (n mod 8 + k + (n / 8) * 8) in H by lia.
    rewrite Nat.mod_add in H by discriminate.
    rewrite Nat.mod_small in H by lia. lia.
Qed.

Lemma le8_le64 n : le8 n = le64 n.
Proof.
  unfold le8, le64. cbn [map seq le_bytes].
  rewrite !N.div_div by discriminate.
  repeat f_equal.
  all: try (rewrite N.div_1_r; reflexivity).
Qed.
Lemma le8_length n : length (le8 n) = 8.
Proof. reflexivity. Qed.
Lemma le64_length n : length (le64 n) = 8.
Proof. reflexivity. Qed.
Lemma le_val_le_bytes k n : (le_val (le_bytes k n) = n mod 256 ^ N.of_nat k)%N.
Proof.
  revert n. induction k as [|k IH]; intros n; cbn [le_bytes le_val fold_right].
  - cbn. rewrite N.mod_1_r. reflexivity.
  - fold (le_val (le_bytes k (n / 256))). rewrite IH, b2n_n2b.
    rewrite Nat2N.inj_succ, N.pow_succ_r by lia.
    rewrite N.mod_mul_r by (try apply N.pow_nonzero; discriminate). reflexivity.
Qed.
Lemma le_val_le8 n : (n < 2 ^ 64)%N -> le_val (le8 n) = n.
Proof.
  intros H. rewrite le8_le64. unfold le64. rewrite le_val_le_bytes.
  apply N.mod_small. exact H.
Qed.
Lemma le_val_bound l : (le_val l < 256 ^ lenN l)%N.
Proof.
  induction l as [|b l IH]; [cbn; lia|].
  cbn [le_val fold_right]. fold (le_val l). rewrite lenN_cons, N.pow_succ_r by lia.
  pose proof (b2n_lt b). lia.
Qed.
Lemma le_bytes_le_val l : le_bytes (length l) (le_val l) = l.
Proof.
  induction l as [|b l IH]; [reflexivity|].
  cbn [length le_bytes le_val fold_right]. fold (le_val l).
  pose proof (b2n_lt b) as Hb. f_equal.
  - rewrite <- (n2b_b2n b) at 2. rewrite <- n2b_mod. f_equal.
    rewrite (N.mul_comm 256), N.mod_add by discriminate. apply N.mod_small. exact Hb.
  - rewrite (N.mul_comm 256), N.div_add by discriminate.
    rewrite (N.div_small _ _ Hb), N.add_0_l. exact IH.
Qed.
Lemma le8_le_val l : length l = 8 -> le8 (le_val l) = l.
Proof. intros H. rewrite le8_le64. unfold le64. rewrite <- H. apply le_bytes_le_val. Qed.

(** * The environment's reader *)
Lemma flat_data s d e : flat s = (d, e) -> src_data s = d /\ fin s = e.
Proof. intros H. inversion H. auto. Qed.

Lemma firstn_le_app {A} n (a b : list A) : n <= length a -> firstn n (a ++ b) = firstn n a.
Proof.
  intros H. rewrite firstn_app. replace (n - length a) with 0 by lia.
  cbn. apply app_nil_r.
Qed.
Lemma skipn_le_app {A} n (a b : list A) : n <= length a -> skipn n (a ++ b) = skipn n a ++ b.
Proof. intros H. rewrite skipn_app. replace (n - length a) with 0 by lia. reflexivity. Qed.
Lemma firstn_length_app {A} (a b : list A) : firstn (length a) (a ++ b) = a.
Proof. rewrite firstn_app, Nat.sub_diag, firstn_all. apply app_nil_r. Qed.
Lemma skipn_length_app {A} (a b : list A) : skipn (length a) (a ++ b) = b.
Proof. rewrite skipn_app, Nat.sub_diag, skipn_all. reflexivity. Qed.

(** One Read with a buffer of [n] > 0 bytes: a prefix of the data comes out,
    the flat stream moves on by it, and the stream gets strictly smaller unless
    it was exhausted. *)
Lemma src_read_spec n s b er s' :
  src_read n s = (b, er, s') ->
  flat s = (b ++ src_data s', fin s') /\ (lenN b <= n)%N /\
  (er = None \/ (er = Some (fin s) /\ src_data s' = [] /\ chunks s' = [])) /\
  (chunks s = [] -> er = Some (fin s) /\ s' = s /\ b = []) /\
  ((0 < n)%N -> chunks s <> [] -> src_size s' < src_size s) /\
  eager s' = eager s /\
  (chunks s <> [] -> er <> None -> eager s = true) /\
  src_size s' <= src_size s.
Proof.
  destruct s as [cs f eg]. unfold src_read, flat, src_size, src_data. cbn [chunks fin eager].
  destruct cs as [|c cs].
  - intros [= <- <- <-]. cbn. repeat split; auto; try lia; try congruence.
  - destruct (N.leb_spec (lenN c) n) as [Hle|Hgt].
    + intros E. inversion E; subst; clear E. cbn [concat chunks fin eager length].
      repeat split; auto; try lia; try discriminate.
      * destruct cs; [destruct eg|]; auto.
      * intros _ _. rewrite app_length. lia.
      * intros _ Her. destruct cs; [destruct eg|]; congruence.
      * rewrite app_length. lia.
    + intros E. inversion E; subst; clear E. cbn [concat chunks fin eager length].
      repeat split; auto; try discriminate.
      * rewrite app_assoc, firstn_skipn. reflexivity.
      * unfold lenN. rewrite firstn_length. lia.
      * intros Hn0 _. unfold lenN in Hgt. rewrite !app_length, skipn_length. lia.
      * rewrite !app_length, skipn_length. lia.
Qed.

Lemma src_data_chunks_nil s : chunks s = [] -> src_data s = [].
Proof. unfold src_data. intros ->. reflexivity. Qed.

Lemma ntake_app b d n : (lenN b <= n)%N -> ntake n (b ++ d) = b ++ ntake (n - lenN b) d.
Proof.
  unfold ntake, lenN. intros H. rewrite firstn_app, firstn_all2 by lia. f_equal. f_equal. lia.
Qed.
Lemma ndrop_app b d n : (lenN b <= n)%N -> ndrop n (b ++ d) = ndrop (n - lenN b) d.
Proof.
  unfold ndrop, lenN. intros H. rewrite skipn_app, skipn_all2 by lia. cbn. f_equal. lia.
Qed.
Lemma ntake_0 d : ntake 0 d = [].
Proof. reflexivity. Qed.
Lemma ndrop_0 d : ndrop 0 d = d.
Proof. reflexivity. Qed.
Lemma ntake_ndrop n d : ntake n d ++ ndrop n d = d.
Proof. apply firstn_skipn. Qed.
Lemma ntake_len n d : (n <= lenN d)%N -> lenN (ntake n d) = n.
Proof. unfold ntake, lenN. intros H. rewrite firstn_length. lia. Qed.
Lemma ndrop_len n d : lenN (ndrop n d) = (lenN d - n)%N.
Proof. unfold ndrop, lenN. rewrite skipn_length. lia. Qed.
Lemma ntake_exact a d : ntake (lenN a) (a ++ d) = a.
Proof. unfold ntake, lenN. rewrite Nat2N.id. apply firstn_length_app. Qed.
Lemma ndrop_exact a d : ndrop (lenN a) (a ++ d) = d.
Proof. unfold ndrop, lenN. rewrite Nat2N.id. apply skipn_length_app. Qed.
Lemma ndrop_all n d : (lenN d <= n)%N -> ndrop n d = [].
Proof. unfold ndrop, lenN. intros H. apply skipn_all2. lia. Qed.

Lemma read_full_src fuel need acc s d e :
  src_size s < fuel -> flat s = (d, e) ->
  exists s', eager s' = eager s /\ src_size s' <= src_size s /\
  if (need <=? lenN d)%N
  then read_full src_read fuel need acc s = (Ok (acc ++ ntake need d), s')
       /\ flat s' = (ndrop need d, e)
  else read_full src_read fuel need acc s = (Err (short_error (acc ++ d) e), s')
       /\ flat s' = ([], e).
Proof.
  revert need acc s d. induction fuel as [|f IH]; intros need acc s d Hf Hs; [lia|].
  cbn [read_full].
  destruct (N.eqb_spec need 0) as [->|Hn].
  { exists s. split; [reflexivity|]. split; [lia|].
    rewrite (proj2 (N.leb_le 0 (lenN d))) by lia.
    rewrite ntake_0, ndrop_0, app_nil_r. auto. }
  destruct (src_read need s) as [[b er] s1] eqn:E.
  apply src_read_spec in E. destruct E as (Hfl & Hlen & Her & Hemp & Hsz & Heg & _ & Hszle).
  rewrite Hs in Hfl. injection Hfl as Hd He. subst d.
  destruct Her as [-> | (-> & Hd1 & Hc1)].
  - (* no error: continue *)
    destruct (chunks s) as [|c cs] eqn:Ec.
    { destruct (Hemp eq_refl) as [? _]. discriminate. }
    assert (Hlt : src_size s1 < src_size s) by (apply Hsz; [lia|discriminate]).
    destruct (IH (need - lenN b)%N (acc ++ b) s1 (src_data s1)) as (s' & Heg' & Hsz' & H).
    { lia. }
    { unfold flat. rewrite He. reflexivity. }
    exists s'. split; [congruence|]. split; [lia|].
    rewrite lenN_app.
    destruct (N.leb_spec (need - lenN b) (lenN (src_data s1))) as [H1|H1];
      destruct (N.leb_spec need (lenN b + lenN (src_data s1))) as [H2|H2]; try lia.
    + rewrite <- app_assoc in H. rewrite ntake_app, ndrop_app by lia. exact H.
    + rewrite <- app_assoc in H. exact H.
  - (* terminal error *)
    rewrite Hd1 in *. rewrite app_nil_r.
    destruct (flat_data _ _ _ Hs) as [_ Hfin]. rewrite Hfin.
    destruct (N.eqb_spec (need - lenN b) 0) as [Hz|Hz].
    + exists s1. split; [congruence|]. split; [lia|].
      rewrite (proj2 (N.leb_le need (lenN b))) by lia.
      unfold ntake, ndrop, lenN in *. rewrite firstn_all2, skipn_all2 by lia.
      split; [reflexivity|]. unfold flat. rewrite Hd1, He. reflexivity.
    + exists s1. split; [congruence|]. split; [lia|].
      destruct (N.leb_spec need (lenN b)) as [H2|H2]; [lia|].
      split; [|unfold flat; rewrite Hd1, He; reflexivity].
      unfold short_error. destruct e; reflexivity.
Qed.

Lemma src_read_full_spec need s d e :
  flat s = (d, e) ->
  exists s', eager s' = eager s /\ src_size s' <= src_size s /\
  if (need <=? lenN d)%N
  then src_read_full need s = (Ok (ntake need d), s') /\ flat s' = (ndrop need d, e)
  else src_read_full need s = (Err (short_error d e), s') /\ flat s' = ([], e).
Proof. intros H. apply (read_full_src _ need [] s d e); [lia|exact H]. Qed.

(** The limited reader, asked for at most what is left of its limit, behaves
    like the underlying one. *)
Lemma read_full_lim fuel need acc rem s :
  (need <= rem)%N ->
  read_full lim_read fuel need acc (rem, s) =
  (let '(r, s') := read_full src_read fuel need acc s in
   (r, (rem - (lenN (src_data s) - lenN (src_data s')), s'))%N).
Proof.
  revert need acc rem s. induction fuel as [|f IH]; intros need acc rem s Hn; cbn [read_full].
  - destruct (N.eqb_spec need 0); repeat f_equal; lia.
  - destruct (N.eqb_spec need 0) as [|Hz]; [repeat f_equal; lia|].
    unfold lim_read at 1. destruct (N.eqb_spec rem 0) as [|Hr]; [lia|].
    rewrite N.min_l by lia.
    destruct (src_read need s) as [[b er] s1] eqn:E.
    apply src_read_spec in E. destruct E as (Hfl & Hlen & _).
    injection Hfl as Hd He.
    assert (Hl : lenN (src_data s) = (lenN b + lenN (src_data s1))%N)
      by (rewrite Hd; apply lenN_app).
    destruct er as [er|].
    + assert (Hx : (lenN (src_data s) - lenN (src_data s1))%N = lenN b) by lia.
      destruct (N.eqb (need - lenN b) 0); [|destruct er]; rewrite Hx; reflexivity.
    + rewrite IH by lia.
      destruct (read_full src_read f (need - lenN b) (acc ++ b) s1) as [r s'] eqn:E2.
      assert (Hle : (lenN (src_data s') <= lenN (src_data s1))%N);
        [|replace (rem - lenN b - (lenN (src_data s1) - lenN (src_data s')))%N
            with (rem - (lenN (src_data s) - lenN (src_data s')))%N by lia; reflexivity].
      clear - E2. revert E2. generalize (need - lenN b)%N (acc ++ b) s1.
      induction f as [|f IHf]; intros nd ac s0; cbn [read_full];
        destruct (N.eqb nd 0); intros E; try (inversion E; subst; lia).
      destruct (src_read nd s0) as [[b0 e0] s2] eqn:E0.
      apply src_read_spec in E0. destruct E0 as (Hfl & _). injection Hfl as Hd _.
      assert (lenN (src_data s0) = (lenN b0 + lenN (src_data s2))%N) by (rewrite Hd; apply lenN_app).
      destruct e0 as [e0|].
      * destruct (N.eqb (nd - lenN b0) 0); [|destruct e0]; inversion E; subst; lia.
      * apply IHf in E. lia.
Qed.

Lemma lim_read_full_spec n s d e :
  flat s = (d, e) ->
  exists s', eager s' = eager s /\ src_size s' <= src_size s /\
  if (n <=? lenN d)%N
  then lim_read_full n (n, s) = (Ok (ntake n d), (0, s'))%N /\ flat s' = (ndrop n d, e)
  else lim_read_full n (n, s) = (Err (short_error d e), (n - lenN d, s'))%N /\ flat s' = ([], e).
Proof.
  intros H. destruct (read_full_src (S (src_size s)) n [] s d e ltac:(lia) H) as (s' & Heg & Hsz & H1).
  exists s'. split; [exact Heg|]. split; [exact Hsz|].
  unfold lim_read_full. cbn [snd]. rewrite read_full_lim by lia.
  destruct (flat_data _ _ _ H) as [Hd _].
  destruct (N.leb_spec n (lenN d)) as [Hle|Hgt]; destruct H1 as [-> Hfl]; (split; [|exact Hfl]);
    destruct (flat_data _ _ _ Hfl) as [Hd' _]; rewrite Hd, Hd'; cbn [app];
    repeat f_equal; rewrite ?ndrop_len, ?lenN_nil; lia.
Qed.

(** One Read through the limited reader. *)
Lemma lim_read_spec n rem s b er rem' s' d e :
  flat s = (d, e) ->
  lim_read n (rem, s) = (b, er, (rem', s')) ->
  d = b ++ src_data s' /\ fin s' = e /\ eager s' = eager s /\
  (lenN b <= n)%N /\ rem = (lenN b + rem')%N /\
  (rem = 0%N -> er = Some EEOF /\ s' = s) /\
  (rem <> 0%N -> er = None \/ (er = Some e /\ src_data s' = [])) /\
  (rem <> 0%N -> (0 < n)%N -> er = None -> src_size s' < src_size s) /\
  (rem <> 0%N -> er <> None -> d <> [] -> eager s = true) /\
  src_size s' <= src_size s.
Proof.
  intros Hs. unfold lim_read. destruct (N.eqb_spec rem 0) as [->|Hr].
  { intros [= <- <- <- <-]. destruct (flat_data _ _ _ Hs) as [-> ->].
    cbn. repeat split; auto; lia. }
  destruct (src_read (N.min n rem) s) as [[b0 e0] s0] eqn:E.
  intros [= <- <- <- <-].
  apply src_read_spec in E. destruct E as (Hfl & Hlen & Her & Hemp & Hsz & Heg & Hne & Hszle).
  rewrite Hs in Hfl. injection Hfl as Hd He.
  destruct (flat_data _ _ _ Hs) as [Hd0 Hf].
  repeat split; auto; try lia.
  - intros _. destruct Her as [->|(-> & H1 & _)]; [auto|right; rewrite Hf; auto].
  - intros _ Hn0 Hnone. apply Hsz; [lia|]. intros Hc. destruct (Hemp Hc) as [Hx _]. congruence.
  - intros _ Hne0 Hd1. apply Hne; [|exact Hne0].
    intros Hc. apply Hd1. rewrite <- Hd0. apply src_data_chunks_nil. exact Hc.
Qed.

(** * The wire readers on the flat stream *)
Lemma ReadUint64_spec s d e :
  flat s = (d, e) ->
  exists s', eager s' = eager s /\ src_size s' <= src_size s /\
  if (8 <=? lenN d)%N
  then ReadUint64 s = (Ok (le_val (ntake 8 d)), s') /\ flat s' = (ndrop 8 d, e)
  else ReadUint64 s = (Err (short_error d e), s') /\ flat s' = ([], e).
Proof.
  intros H. destruct (src_read_full_spec 8 s d e H) as (s' & Heg & Hsz & H1).
  exists s'. split; [exact Heg|]. split; [exact Hsz|]. unfold ReadUint64.
  destruct (8 <=? lenN d)%N; destruct H1 as [-> H1]; auto.
Qed.

Definition pad_N (n : N) : N := ((8 - n mod 8) mod 8)%N.
Lemma pad_N_nat (c : bytes) : pad_N (lenN c) = N.of_nat (pad_len (length c)).
Proof.
  unfold pad_N, pad_len, lenN. rewrite Nat2N.inj_mod, Nat2N.inj_sub, Nat2N.inj_mod. reflexivity.
Qed.
Lemma pad_N_zero n : (n mod 8 = 0)%N -> pad_N n = 0%N.
Proof. unfold pad_N. intros ->. reflexivity. Qed.
Lemma pad_N_nonzero n : (n mod 8 <> 0)%N -> pad_N n = (8 - n mod 8)%N.
Proof.
  unfold pad_N. intros H. pose proof (N.mod_lt n 8 ltac:(discriminate)).
  apply N.mod_small. lia.
Qed.

Definition all_zero (l : bytes) : bool := forallb (byte_eqb x00) l.

(** readPadding as a function of the flat stream. *)
Definition pad_error (n : N) (d : bytes) (e : error) : option error :=
  if (pad_N n <=? lenN d)%N
  then if all_zero (ntake (pad_N n) d) then None else Some (EMsg "invalid padding")
  else Some (short_error d e).

Lemma readPadding_spec s n d e :
  flat s = (d, e) ->
  exists s', eager s' = eager s /\ src_size s' <= src_size s /\
    readPadding s n = (pad_error n d e, s') /\ flat s' = (ndrop (pad_N n) d, e).
Proof.
  intros H. unfold readPadding, pad_error. destruct (N.eqb_spec (n mod 8) 0) as [Hz|Hz].
  - exists s. rewrite (pad_N_zero n Hz), (proj2 (N.leb_le 0 (lenN d))) by lia.
    rewrite ndrop_0. auto.
  - rewrite (pad_N_nonzero n Hz).
    destruct (src_read_full_spec (8 - n mod 8) s d e H) as (s' & Heg & Hsz & H1).
    exists s'. split; [exact Heg|]. split; [exact Hsz|].
    destruct (N.leb_spec (8 - n mod 8) (lenN d)) as [Hle|Hgt]; destruct H1 as [-> H1].
    + auto.
    + split; [reflexivity|]. rewrite ndrop_all by lia. exact H1.
Qed.

(** The draining loop of BytesReader.Close.  The terminal error shows up if
    the stream ends before the limit, or, for an impolite reader, together with
    the very last byte. *)
Lemma drain_spec fuel rem s d e :
  src_size s + 1 < fuel -> flat s = (d, e) ->
  exists er rem' s', drain fuel (rem, s) = (er, (rem', s')) /\
    eager s' = eager s /\ flat s' = (ndrop rem d, e) /\ src_size s' <= src_size s /\
    (er = None \/ (er = Some e /\ e <> EEOF /\ (lenN d <= rem)%N)) /\
    ((rem < lenN d)%N -> er = None) /\
    ((rem <= lenN d)%N -> polite s -> er = None) /\
    ((lenN d < rem)%N -> e <> EEOF -> er = Some e) /\
    ((rem <= lenN d)%N -> rem' = 0%N).
Proof.
  revert rem s d. induction fuel as [|f IH]; intros rem s d Hf Hs; [lia|].
  cbn [drain]. destruct (lim_read 1024%N (rem, s)) as [[b er] [rem1 s1]] eqn:E.
  destruct (lim_read_spec _ _ _ _ _ _ _ _ _ Hs E)
    as (Hd & He & Heg & Hlb & Hrem & Hz & Hnz & Hdec & Heag & Hsz).
  assert (Hld : lenN d = (lenN b + lenN (src_data s1))%N) by (rewrite Hd; apply lenN_app).
  destruct (N.eq_dec rem 0) as [->|Hr].
  - destruct (Hz eq_refl) as [-> ->]. exists None, rem1, s.
    assert (rem1 = 0%N) by lia. repeat split; auto; lia.
  - destruct (Hnz Hr) as [-> | [-> Hd1]].
    + destruct (IH rem1 s1 (src_data s1)) as (er' & rem' & s' & H1 & H2 & H3 & H4 & H5 & H6 & H7 & H8 & H9).
      { specialize (Hdec Hr ltac:(lia) eq_refl). lia. }
      { unfold flat. congruence. }
      exists er', rem', s'. rewrite H1. split; [reflexivity|]. split; [congruence|].
      split. { rewrite H3, Hd, ndrop_app by lia. f_equal. f_equal. lia. }
      split; [lia|].
      assert (Hpol : polite s -> polite s1).
      { unfold polite. destruct (flat_data _ _ _ Hs) as [_ Hfs]. rewrite Heg, He, Hfs. tauto. }
      repeat split.
      * destruct H5 as [->|(-> & ? & ?)]; [auto|right; repeat split; auto; lia].
      * intros. apply H6. lia.
      * intros. apply H7; [lia|auto].
      * intros. apply H8; [lia|auto].
      * intros. apply H9. lia.
    + rewrite Hd1 in *. rewrite lenN_nil in Hld.
      assert (Hfl : flat s1 = (ndrop rem d, e)).
      { unfold flat. rewrite Hd1, He. rewrite ndrop_all by lia. reflexivity. }
      assert (Hgoal : forall er, (e = EEOF -> er = None) -> (e <> EEOF -> er = Some e) ->
        exists er' rem' s', (er, (rem1, s1)) = (er', (rem', s')) /\
        eager s' = eager s /\ flat s' = (ndrop rem d, e) /\ src_size s' <= src_size s /\
        (er' = None \/ (er' = Some e /\ e <> EEOF /\ (lenN d <= rem)%N)) /\
        ((rem < lenN d)%N -> er' = None) /\
        ((rem <= lenN d)%N -> polite s -> er' = None) /\
        ((lenN d < rem)%N -> e <> EEOF -> er' = Some e) /\
        ((rem <= lenN d)%N -> rem' = 0%N)).
      { intros er He1 He2. exists er, rem1, s1.
        split; [reflexivity|]. split; [exact Heg|]. split; [exact Hfl|]. split; [exact Hsz|].
        assert (Hdec2 : e = EEOF \/ e <> EEOF) by (destruct e; [left; reflexivity|right..]; discriminate).
        split. { destruct Hdec2; [left; auto|right; repeat split; auto; lia]. }
        split. { intros; lia. }
        split. { intros Hle Hp. destruct Hdec2 as [|Hne]; [auto|].
                 exfalso. destruct Hp as [Hp|Hp].
                 - assert (eager s = true); [|congruence]. apply Heag; auto; [discriminate|].
                   intros ->. rewrite lenN_nil in *. lia.
                 - destruct (flat_data _ _ _ Hs). congruence. }
        split; [auto|]. intros; lia. }
      destruct e; apply Hgoal; congruence.
Qed.

(** Close of a BytesReader whose unread content is [rem] bytes. *)
Lemma br_close_spec len rem s d e :
  flat s = (d, e) -> (rem <= lenN d)%N -> polite s \/ (rem < lenN d)%N ->
  exists s', br_close (BR len rem) s = (pad_error len (ndrop rem d) e, (BR len 0, s')) /\
    eager s' = eager s /\ flat s' = (ndrop (rem + pad_N len) d, e) /\ src_size s' <= src_size s.
Proof.
  intros Hs Hle Hp. unfold br_close. cbn [br_rem br_len].
  destruct (drain_spec (S (S (src_size s))) rem s d e ltac:(lia) Hs)
    as (er & rem' & s1 & H1 & H2 & H3 & H4 & H5 & H6 & H7 & H8 & H9).
  rewrite H1. assert (er = None) as -> by (destruct Hp; auto).
  rewrite (H9 Hle).
  destruct (readPadding_spec s1 len _ _ H3) as (s2 & Heg & Hsz & -> & Hfl).
  exists s2. split; [reflexivity|]. split; [congruence|]. split; [|lia].
  rewrite Hfl. f_equal. unfold ndrop. rewrite skipn_skipn. f_equal. lia.
Qed.

(** In every case Close leaves the stream at the same position. *)
Lemma br_close_pos len rem s d e :
  flat s = (d, e) ->
  exists er br' s', br_close (BR len rem) s = (er, (br', s')) /\
    eager s' = eager s /\ src_size s' <= src_size s /\
    (flat s' = (ndrop (rem + pad_N len) d, e) \/ flat s' = (ndrop rem d, e)) /\
    ((lenN d <= rem)%N -> flat s' = ([], e)).
Proof.
  intros Hs. unfold br_close. cbn [br_rem br_len].
  destruct (drain_spec (S (S (src_size s))) rem s d e ltac:(lia) Hs)
    as (er & rem' & s1 & H1 & H2 & H3 & H4 & H5 & H6 & H7 & H8 & H9).
  rewrite H1. destruct er as [er|].
  - exists (Some er), (BR len rem'), s1. split; [reflexivity|]. repeat split; auto.
    intros Hle. rewrite ndrop_all in H3 by lia. exact H3.
  - destruct (readPadding_spec s1 len _ _ H3) as (s2 & Heg & Hsz & -> & Hfl).
    exists (pad_error len (ndrop rem d) e), (BR len rem'), s2. split; [reflexivity|].
    split; [congruence|]. split; [lia|].
    assert (Hf2 : flat s2 = (ndrop (rem + pad_N len) d, e)).
    { rewrite Hfl. f_equal. unfold ndrop. rewrite skipn_skipn. f_equal. lia. }
    split; [left; exact Hf2|]. intros Hle. rewrite ndrop_all in Hf2 by lia. exact Hf2.
Qed.

(** ReadBytesFull as a function of the flat stream. *)
Definition rbf_spec (max : N) (d : bytes) (e : error) : res bytes * bytes :=
  if (lenN d <? 8)%N then (Err (short_error d e), [])
  else
    let n := le_val (ntake 8 d) in
    let d1 := ndrop 8 d in
    if (max <? n)%N then (Err (EMsg "content length exceeds maximum"), d1)
    else if (2 ^ 63 <=? n)%N then (Panic "makeslice: len out of range", d1)
    else if (lenN d1 <? n)%N then (Err (short_error d1 e), [])
    else (Ok (ntake n d1), ndrop (n + pad_N n) d1).

Lemma ReadBytesFull_spec s max d e :
  flat s = (d, e) ->
  exists s', eager s' = eager s /\ src_size s' <= src_size s /\
    ReadBytesFull s max = (fst (rbf_spec max d e), s') /\ flat s' = (snd (rbf_spec max d e), e).
Proof.
  intros Hs. unfold ReadBytesFull, ReadBytes, rbf_spec.
  destruct (ReadUint64_spec s d e Hs) as (s1 & Heg1 & Hsz1 & H1).
  destruct (N.leb_spec 8 (lenN d)) as [Hle|Hlt]; destruct H1 as [-> Hfl1].
  - destruct (N.ltb_spec (lenN d) 8); [lia|]. cbn [rbind].
    set (n := le_val (ntake 8 d)) in *.
    destruct (N.ltb_spec max n) as [Hm|Hm]; [exists s1; auto|].
    destruct (N.leb_spec (2 ^ 63) n) as [Hb|Hb]; [exists s1; auto|].
    unfold NewBytesReader. rewrite (proj2 (N.ltb_lt n (2 ^ 63))) by lia. cbn [br_rem br_len].
    destruct (lim_read_full_spec n s1 _ _ Hfl1) as (s2 & Heg2 & Hsz2 & H2).
    destruct (N.leb_spec n (lenN (ndrop 8 d))) as [Hn|Hn]; destruct H2 as [-> Hfl2].
    + destruct (N.ltb_spec (lenN (ndrop 8 d)) n); [lia|].
      destruct (readPadding_spec s2 n _ _ Hfl2) as (s3 & Heg3 & Hsz3 & Hrp & Hfl3).
      assert (Hbc : br_close (BR n 0) s2 = (pad_error n (ndrop n (ndrop 8 d)) e, (BR n 0, s3))).
      { unfold br_close. cbn [br_rem br_len drain lim_read N.eqb]. rewrite Hrp. reflexivity. }
      rewrite Hbc. exists s3. split; [congruence|]. split; [lia|]. split; [reflexivity|].
      rewrite Hfl3. cbn [snd]. f_equal. unfold ndrop. rewrite !skipn_skipn. f_equal. lia.
    + destruct (N.ltb_spec (lenN (ndrop 8 d)) n); [|lia].
      destruct (br_close_pos n (n - lenN (ndrop 8 d)) s2 _ _ Hfl2) as (er & br' & s3 & -> & Heg3 & Hsz3 & _ & Hfl3).
      exists s3. split; [congruence|]. split; [lia|]. split; [reflexivity|].
      cbn [snd]. apply Hfl3. rewrite lenN_nil. lia.
  - destruct (N.ltb_spec (lenN d) 8); [|lia]. exists s1. auto.
Qed.
