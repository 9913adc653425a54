(** Proofs of the wire properties C01-C08. *)
From Verif Require Import Base.Bytes Base.BytesFacts Model.GoIO Model.Wire
  Spec.WireSpec Spec.WireHist Proof.WireFacts.

Arguments N.add : simpl never.
Arguments N.sub : simpl never.
Arguments N.mul : simpl never.
Arguments N.modulo : simpl never.
Arguments N.div : simpl never.
Arguments N.pow : simpl never.

(** * Writers on a working sink *)
Lemma wwrite_ok p o : wwrite_ p (Sink o []) = (None, Sink (o ++ p) []).
Proof. reflexivity. Qed.

Lemma WriteUint64_ok o n : WriteUint64 (Sink o []) n = (None, Sink (o ++ uint_field n) []).
Proof. unfold WriteUint64, uint_field. rewrite le8_le64. apply wwrite_ok. Qed.

Lemma WriteBool_ok o b : WriteBool (Sink o []) b = (None, Sink (o ++ bool_field b) []).
Proof. unfold WriteBool, bool_field. destruct b; rewrite WriteUint64_ok; reflexivity. Qed.

Lemma writePadding_ok o c :
  writePadding (Sink o []) (lenN c) = (None, Sink (o ++ repeat x00 (pad_len (length c))) []).
Proof.
  unfold writePadding.
  assert (Hm : N.to_nat (lenN c mod 8) = length c mod 8).
  { unfold lenN. rewrite N2Nat.inj_mod, Nat2N.id. reflexivity. }
  pose proof (Nat.mod_upper_bound (length c) 8 ltac:(discriminate)) as Hb.
  destruct (N.eqb_spec (lenN c mod 8) 0) as [E|E].
  - unfold pad_len. rewrite <- Hm, E. cbn. rewrite app_nil_r. reflexivity.
  - rewrite wwrite_ok, Hm. unfold pad_len. rewrite (Nat.mod_small (8 - _) 8) by lia. reflexivity.
Qed.

Lemma WriteBytes_ok o c : WriteBytes (Sink o []) c = (None, Sink (o ++ field c) []).
Proof.
  unfold WriteBytes. rewrite WriteUint64_ok, wwrite_ok, writePadding_ok.
  unfold field, uint_field. rewrite <- !app_assoc. reflexivity.
Qed.
Lemma WriteString_ok o c : WriteString (Sink o []) c = (None, Sink (o ++ field c) []).
Proof. exact (WriteBytes_ok o c). Qed.

Lemma field_length c : length (field c) mod 8 = 0.
Proof.
  unfold field. rewrite !app_length, le8_length, repeat_length.
  rewrite <- Nat.add_mod_idemp_r, pad_len_mod by discriminate. reflexivity.
Qed.

(** * Reading fields *)
Lemma ntake_le8 n x : ntake 8 (le8 n ++ x) = le8 n.
Proof. exact (ntake_exact (le8 n) x). Qed.
Lemma ndrop_le8 n x : ndrop 8 (le8 n ++ x) = x.
Proof. exact (ndrop_exact (le8 n) x). Qed.

Lemma field_read c rest e s max :
  flat s = (field c ++ rest, e) -> (lenN c < 2 ^ 63)%N -> (lenN c <= max)%N ->
  exists s', ReadBytesFull s max = (Ok c, s') /\ flat s' = (rest, e) /\ eager s' = eager s
             /\ src_size s' <= src_size s.
Proof.
  intros Hs H63 Hmax. destruct (ReadBytesFull_spec s max _ _ Hs) as (s' & Heg & Hsz & Hr & Hfl).
  assert (Hspec : rbf_spec max (field c ++ rest) e = (Ok c, rest)).
  { unfold rbf_spec, field. rewrite <- !app_assoc.
    assert (H8 : forall x, lenN (le8 (lenN c) ++ x) = (8 + lenN x)%N) by (intros; apply lenN_app).
    rewrite H8. destruct (N.ltb_spec (8 + lenN (c ++ repeat x00 (pad_len (length c)) ++ rest)) 8); [lia|].
    cbv zeta. rewrite !ntake_le8, !ndrop_le8, le_val_le8 by lia.
    destruct (N.ltb_spec max (lenN c)); [lia|].
    destruct (N.leb_spec (2 ^ 63) (lenN c)); [lia|].
    rewrite lenN_app. destruct (N.ltb_spec (lenN c + lenN (repeat x00 (pad_len (length c)) ++ rest)) (lenN c)); [lia|].
    rewrite ntake_exact. f_equal.
    rewrite ndrop_app by lia. replace (lenN c + pad_N (lenN c) - lenN c)%N with (pad_N (lenN c)) by lia.
    rewrite pad_N_nat.
    replace (N.of_nat (pad_len (length c))) with (lenN (repeat x00 (pad_len (length c))))
      by (unfold lenN; rewrite repeat_length; reflexivity).
    apply ndrop_exact. }
  rewrite Hspec in *. exists s'. auto.
Qed.

Lemma uint_read n rest e s :
  flat s = (uint_field n ++ rest, e) -> (n < 2 ^ 64)%N ->
  exists s', ReadUint64 s = (Ok n, s') /\ flat s' = (rest, e) /\ eager s' = eager s
             /\ src_size s' <= src_size s.
Proof.
  intros Hs H64. destruct (ReadUint64_spec s _ _ Hs) as (s' & Heg & Hsz & H1).
  unfold uint_field in *.
  assert (H8 : lenN (le8 n ++ rest) = (8 + lenN rest)%N) by apply lenN_app.
  rewrite H8 in H1. destruct (N.leb_spec 8 (8 + lenN rest)); [|lia].
  rewrite ntake_le8, ndrop_le8, le_val_le8 in H1 by lia. exists s'. tauto.
Qed.

Lemma bool_read b rest e s :
  flat s = (bool_field b ++ rest, e) ->
  exists s', ReadBool s = (Ok b, s') /\ flat s' = (rest, e).
Proof.
  intros Hs. unfold bool_field in Hs.
  destruct (uint_read (if b then 1 else 0)%N rest e s Hs) as (s' & Hr & Hfl & _).
  { destruct b; reflexivity. }
  exists s'. unfold ReadBool. rewrite Hr. destruct b; auto.
Qed.

(** * C01 *)
Lemma C01_uint64 n o :
  (n < 2 ^ 64)%N ->
  exists w f, WriteUint64 (Sink o []) n = (None, w) /\ out w = o ++ f /\
  forall s rest e, flat s = (f ++ rest, e) ->
  exists s', ReadUint64 s = (Ok n, s') /\ flat s' = (rest, e).
Proof.
  intros Hn. exists (Sink (o ++ uint_field n) []), (uint_field n).
  rewrite WriteUint64_ok. split; [reflexivity|]. split; [reflexivity|].
  intros s rest e Hs. destruct (uint_read n rest e s Hs Hn) as (s' & ? & ? & _). eauto.
Qed.
Lemma C01_bool b o :
  exists w f, WriteBool (Sink o []) b = (None, w) /\ out w = o ++ f /\
  forall s rest e, flat s = (f ++ rest, e) ->
  exists s', ReadBool s = (Ok b, s') /\ flat s' = (rest, e).
Proof.
  exists (Sink (o ++ bool_field b) []), (bool_field b).
  rewrite WriteBool_ok. split; [reflexivity|]. split; [reflexivity|].
  intros s rest e Hs. eapply bool_read; eauto.
Qed.
Lemma C01_bytes c o :
  (lenN c < 2 ^ 63)%N ->
  exists w f, WriteBytes (Sink o []) c = (None, w) /\ out w = o ++ f /\
  forall s rest e max, flat s = (f ++ rest, e) -> (lenN c <= max)%N ->
  exists s', ReadBytesFull s max = (Ok c, s') /\ flat s' = (rest, e).
Proof.
  intros Hn. exists (Sink (o ++ field c) []), (field c).
  rewrite WriteBytes_ok. split; [reflexivity|]. split; [reflexivity|].
  intros s rest e max Hs Hm. destruct (field_read c rest e s max Hs Hn Hm) as (s' & ? & ? & _). eauto.
Qed.
Lemma C01_string c o :
  (lenN c < 2 ^ 63)%N ->
  exists w f, WriteString (Sink o []) c = (None, w) /\ out w = o ++ f /\
  forall s rest e max, flat s = (f ++ rest, e) -> (lenN c <= max)%N ->
  exists s', ReadString s max = (Ok c, s') /\ flat s' = (rest, e).
Proof. exact (C01_bytes c o). Qed.

(** * C03 *)
Lemma C03_uint64 s1 s2 : flat s1 = flat s2 -> same_result (ReadUint64 s1) (ReadUint64 s2).
Proof.
  intros H. destruct (flat s2) as [d e] eqn:H2.
  destruct (ReadUint64_spec s1 _ _ H) as (t1 & _ & _ & H1').
  destruct (ReadUint64_spec s2 _ _ H2) as (t2 & _ & _ & H2').
  unfold same_result.
  destruct (8 <=? lenN d)%N; destruct H1' as [-> Hf1], H2' as [-> Hf2]; cbn [fst snd]; split; congruence.
Qed.
Lemma C03_bool s1 s2 : flat s1 = flat s2 -> same_result (ReadBool s1) (ReadBool s2).
Proof.
  intros H. destruct (C03_uint64 s1 s2 H) as [Hr Hf]. unfold same_result, ReadBool.
  destruct (ReadUint64 s1) as [r1 t1], (ReadUint64 s2) as [r2 t2]. cbn in *. subst. auto.
Qed.
Lemma C03_bytes s1 s2 : flat s1 = flat s2 -> same_result (ReadBytes s1) (ReadBytes s2).
Proof.
  intros H. destruct (C03_uint64 s1 s2 H) as [Hr Hf]. unfold same_result, ReadBytes.
  destruct (ReadUint64 s1) as [r1 t1], (ReadUint64 s2) as [r2 t2]. cbn in *. subst. auto.
Qed.
Lemma C03_bytes_full s1 s2 max :
  flat s1 = flat s2 -> same_result (ReadBytesFull s1 max) (ReadBytesFull s2 max).
Proof.
  intros H. destruct (flat s2) as [d e] eqn:H2.
  destruct (ReadBytesFull_spec s1 max _ _ H) as (t1 & _ & _ & H1' & H1'').
  destruct (ReadBytesFull_spec s2 max _ _ H2) as (t2 & _ & _ & H2' & H2'').
  unfold same_result. rewrite H1', H2'. cbn. split; congruence.
Qed.

(** * C04 *)
Lemma C04_bounded s max b s' : ReadBytesFull s max = (Ok b, s') -> (lenN b <= max)%N.
Proof.
  intros H. destruct (flat s) as [d e] eqn:Hs.
  destruct (ReadBytesFull_spec s max _ _ Hs) as (s1 & _ & _ & Hr & _).
  rewrite Hr in H. unfold rbf_spec in H.
  destruct (lenN d <? 8)%N; [discriminate|].
  destruct (N.ltb_spec max (le_val (ntake 8 d))); [discriminate|].
  destruct (2 ^ 63 <=? _)%N; [discriminate|].
  destruct (N.ltb_spec (lenN (ndrop 8 d)) (le_val (ntake 8 d))); [discriminate|].
  injection H as <- _. rewrite ntake_len; assumption.
Qed.
Lemma C04_too_long s d e n max :
  flat s = (le8 n ++ d, e) -> (n < 2 ^ 64)%N -> (max < n)%N ->
  exists s' er, ReadBytesFull s max = (Err er, s') /\ flat s' = (d, e).
Proof.
  intros Hs H64 Hm. destruct (ReadBytesFull_spec s max _ _ Hs) as (s' & _ & _ & Hr & Hf).
  assert (Hsp : rbf_spec max (le8 n ++ d) e = (Err (EMsg "content length exceeds maximum"), d)).
  { unfold rbf_spec. assert (H8 : lenN (le8 n ++ d) = (8 + lenN d)%N) by apply lenN_app.
    rewrite H8. destruct (N.ltb_spec (8 + lenN d) 8); [lia|].
    cbv zeta. rewrite ntake_le8, ndrop_le8, le_val_le8 by lia.
    destruct (N.ltb_spec max n); [reflexivity|lia]. }
  rewrite Hsp in *. eauto.
Qed.
Lemma C04_no_panic s max : (max < 2 ^ 63)%N -> is_panic (fst (ReadBytesFull s max)) = false.
Proof.
  intros Hm. destruct (flat s) as [d e] eqn:Hs.
  destruct (ReadBytesFull_spec s max _ _ Hs) as (s1 & _ & _ & -> & _). cbn [fst].
  unfold rbf_spec.
  destruct (lenN d <? 8)%N; [reflexivity|].
  destruct (N.ltb_spec max (le_val (ntake 8 d))); [reflexivity|].
  destruct (N.leb_spec (2 ^ 63) (le_val (ntake 8 d))); [lia|].
  destruct (lenN (ndrop 8 d) <? _)%N; reflexivity.
Qed.

(** * C05 *)
Lemma C05_bool s d e b :
  flat s = (d, e) ->
  (fst (ReadBool s) = Ok b <-> exists rest, d = bool_field b ++ rest).
Proof.
  intros Hs. split.
  - unfold ReadBool. destruct (ReadUint64_spec s d e Hs) as (s1 & _ & _ & H1).
    destruct (N.leb_spec 8 (lenN d)) as [Hle|]; destruct H1 as [-> _]; [|discriminate].
    cbn [rbind fst]. set (n := le_val (ntake 8 d)).
    assert (Hd : d = le8 n ++ ndrop 8 d).
    { rewrite <- (ntake_ndrop 8 d) at 1. f_equal. symmetry. apply le8_le_val.
      unfold ntake. rewrite firstn_length. unfold lenN in Hle. lia. }
    destruct (N.eqb_spec n 0) as [E0|E0]; cbn [negb andb].
    + rewrite E0 in *. intros [= <-]. exists (ndrop 8 d). exact Hd.
    + destruct (N.eqb_spec n 1) as [E1|E1]; cbn [negb andb]; [|discriminate].
      rewrite E1 in *. intros [= <-]. exists (ndrop 8 d). exact Hd.
  - intros [rest ->]. destruct (bool_read b rest e s Hs) as (s' & -> & _). reflexivity.
Qed.
Lemma C05_no_panic s : is_panic (fst (ReadBool s)) = false.
Proof.
  destruct (flat s) as [d e] eqn:Hs. unfold ReadBool.
  destruct (ReadUint64_spec s d e Hs) as (s1 & _ & _ & H1).
  destruct (8 <=? lenN d)%N; destruct H1 as [-> _]; [|reflexivity].
  cbn [fst rbind]. destruct (negb _ && negb _); reflexivity.
Qed.

(** * C06 *)
Definition bw_rel (n : N) (o : bytes) (st : bytes_writer * sink) (abs : bytes * bool) : Prop :=
  let '(bw, w) := st in
  bw_written bw = lenN (fst abs) /\ bw_total bw = n /\ bw_padded bw = snd abs /\
  (lenN (fst abs) <= n)%N /\ (snd abs = true -> lenN (fst abs) = n) /\
  w = Sink (o ++ bw_abs_out n abs) [].

Lemma bw_run_refines n o ops st abs :
  (n < 2 ^ 63)%N ->
  (forall p, In (BWrite p) ops -> lenN p < 2 ^ 63)%N ->
  bw_rel n o st abs ->
  exists l st' abs', bw_run ops st = (l, st') /\ bw_abs_run n ops abs = (l, abs') /\
                     bw_rel n o st' abs'.
Proof.
  intros Hn. revert st abs. induction ops as [|op ops IH]; intros st abs Hp Hrel.
  { exists [], st, abs. auto. }
  assert (Hp' : forall p, In (BWrite p) ops -> (lenN p < 2 ^ 63)%N) by (intros; apply Hp; right; assumption).
  destruct st as [[wr tot pad] w], abs as [c closed].
  destruct Hrel as (H1 & H2 & H3 & H4 & H5 & H6). cbn [bw_written bw_total bw_padded fst snd] in *. subst.
  destruct op as [p|]; cbn [bw_run bw_abs_run bw_abs_step fst snd].
  - assert (Hl : (lenN p < 2 ^ 63)%N) by (apply Hp; left; reflexivity).
    unfold bw_write. cbn [bw_total bw_written bw_padded].
    rewrite N.mod_small by lia.
    destruct (N.ltb_spec n (lenN c + lenN p)) as [Hgt|Hle];
      destruct (N.leb_spec (lenN c + lenN p) n) as [Hle2|Hgt2]; try lia.
    + destruct (IH (BW (lenN c) n closed, Sink (o ++ bw_abs_out n (c, closed)) []) (c, closed) Hp')
        as (l & st' & abs' & -> & -> & Hr).
      { cbn. auto 10. }
      exists (SWrite 0 false :: l), st', abs'. auto.
    + cbn [wwrite plan out].
      destruct (IH (BW ((lenN c + N.of_nat (length p)) mod 2 ^ 64) n closed,
                    Sink ((o ++ bw_abs_out n (c, closed)) ++ p) []) (c ++ p, closed) Hp')
        as (l & st' & abs' & -> & -> & Hr).
      { cbn [bw_rel bw_written bw_total bw_padded fst snd]. fold (lenN p).
        rewrite N.mod_small by lia. rewrite lenN_app.
        repeat split; auto; try lia.
        f_equal. unfold bw_abs_out. cbn [fst snd]. destruct closed.
          + specialize (H5 eq_refl). assert (p = []) as -> by (apply lenN_zero; lia).
            rewrite !app_nil_r. reflexivity.
          + rewrite !app_nil_r, <- !app_assoc. reflexivity. }
      exists (SWrite (length p) true :: l), st', abs'. auto.
  - unfold bw_close. cbn [bw_total bw_written bw_padded].
    destruct closed.
    + rewrite (H5 eq_refl), N.eqb_refl.
      destruct (IH (BW (lenN c) n true, Sink (o ++ bw_abs_out n (c, true)) []) (c, true) Hp')
        as (l & st' & abs' & E & -> & Hr).
      { cbn. auto 10. }
      rewrite (H5 eq_refl) in E. rewrite E.
      exists (SClose true :: l), st', abs'. auto.
    + destruct (N.eqb_spec (lenN c) n) as [E|E]; cbn [negb].
      * subst n. rewrite writePadding_ok. cbn [out plan].
        destruct (IH (BW (lenN c) (lenN c) true,
                      Sink ((o ++ bw_abs_out (lenN c) (c, false)) ++ repeat x00 (pad_len (length c))) []) (c, true) Hp')
          as (l & st' & abs' & Er & Ea & Hr).
        { cbn [bw_rel bw_written bw_total bw_padded fst snd]. repeat split; auto; try lia.
          f_equal. unfold bw_abs_out. cbn [fst snd]. rewrite app_nil_r, <- !app_assoc. reflexivity. }
        rewrite Er, Ea.
        exists (SClose true :: l), st', abs'. auto.
      * destruct (IH (BW (lenN c) n false, Sink (o ++ bw_abs_out n (c, false)) []) (c, false) Hp')
          as (l & st' & abs' & -> & -> & Hr).
        { cbn. repeat split; auto. }
        exists (SClose false :: l), st', abs'. auto.
Qed.

Lemma C06_refines n o ops :
  (n < 2 ^ 63)%N ->
  (forall p, In (BWrite p) ops -> lenN p < 2 ^ 63)%N ->
  exists bw w l st' abs',
    NewBytesWriter (Sink o []) n = (Ok bw, w) /\
    bw_run ops (bw, w) = (l, st') /\
    bw_abs_run n ops ([], false) = (l, abs') /\
    out (snd st') = o ++ bw_abs_out n abs' /\ (lenN (fst abs') <= n)%N.
Proof.
  intros Hn Hp. unfold NewBytesWriter. rewrite WriteUint64_ok.
  destruct (bw_run_refines n o ops (BW 0 n false, Sink (o ++ uint_field n) []) ([], false) Hn Hp)
    as (l & st' & abs' & Hr & Ha & Hrel).
  { cbn. repeat split; auto; try lia; try discriminate. }
  exists (BW 0 n false), (Sink (o ++ uint_field n) []), l, st', abs'.
  destruct st' as [bw' w']. destruct Hrel as (_ & _ & _ & Hle & _ & ->).
  auto.
Qed.

(** The abstract machine itself: a successful Close means the exact field. *)
Lemma C06_closed_field n ops l abs' :
  bw_abs_run n ops ([], false) = (l, abs') ->
  snd abs' = true ->
  bw_abs_out n abs' = field (fst abs') /\ lenN (fst abs') = n.
Proof.
  intros Hrun Hc.
  assert (Hinv : forall ops st l st', bw_abs_run n ops st = (l, st') ->
    (lenN (fst st) <= n)%N -> (snd st = true -> lenN (fst st) = n) ->
    (snd st' = true -> lenN (fst st') = n)).
  { clear. induction ops as [|op ops IH]; intros [c cl] l st' H H1 H2; cbn [bw_abs_run] in H.
    - injection H as <- <-. exact H2.
    - destruct (bw_abs_step n (c, cl) op) as [o st1] eqn:E.
      destruct (bw_abs_run n ops st1) as [l1 st2] eqn:E2. injection H as <- <-.
      eapply IH; [exact E2|..]; clear - E H1 H2; destruct op as [p|]; cbn [bw_abs_step] in E.
      + destruct (N.leb_spec (lenN c + lenN p) n); injection E as <- <-; cbn in *; rewrite ?lenN_app; lia.
      + destruct (N.eqb_spec (lenN c) n); injection E as <- <-; cbn in *; lia.
      + destruct (N.leb_spec (lenN c + lenN p) n); injection E as <- <-; cbn in *; auto.
        intros Hx. specialize (H2 Hx). rewrite lenN_app. lia.
      + destruct (N.eqb_spec (lenN c) n); injection E as <- <-; cbn in *; auto. }
  assert (Hn : lenN (fst abs') = n).
  { apply (Hinv ops ([], false) l abs' Hrun); [cbn; lia|discriminate|exact Hc]. }
  split; [|exact Hn]. unfold bw_abs_out, field. rewrite Hc, Hn. reflexivity.
Qed.

(** On a writer that may fail at any call: Writes, then a Close reporting nil. *)
Definition wfail (k : nat) (p : bytes) (w w' : sink) (e : option error) (n : nat) : Prop :=
  out w' = out w ++ firstn n p /\ n <= length p /\ (e = None -> n = length p).
Lemma wwrite_spec p w n e w' :
  wwrite p w = (n, e, w') ->
  out w' = out w ++ firstn n p /\ n <= length p /\ (e = None -> n = length p).
Proof.
  unfold wwrite. destruct (plan w) as [|[k|] pl].
  - intros [= <- <- <-]. cbn. rewrite firstn_all. auto.
  - intros [= <- <- <-]. cbn [out]. repeat split; [lia|discriminate].
  - intros [= <- <- <-]. cbn. rewrite firstn_all. auto.
Qed.
Lemma wwrite__ok p w w' : wwrite_ p w = (None, w') -> out w' = out w ++ p.
Proof.
  unfold wwrite_. destruct (wwrite p w) as [[n e] w1] eqn:E. intros [= -> <-].
  apply wwrite_spec in E. destruct E as (-> & _ & H). rewrite (H eq_refl), firstn_all. reflexivity.
Qed.

Lemma bw_writes_any n ps bw w l bw' w' :
  (n < 2 ^ 63)%N -> Forall (fun p => lenN p < 2 ^ 63)%N ps ->
  bw_total bw = n -> (bw_written bw <= n)%N -> bw_padded bw = false ->
  bw_run (map BWrite ps) (bw, w) = (l, (bw', w')) ->
  out w' = out w ++ reported ps l /\
  bw_written bw' = (bw_written bw + lenN (reported ps l))%N /\
  bw_total bw' = n /\ (bw_written bw' <= n)%N /\ bw_padded bw' = false.
Proof.
  intros Hn Hps. revert bw w l. induction Hps as [|p ps Hp Hps IH]; intros bw w l Ht Hw Hpad Hrun.
  - cbn in Hrun. injection Hrun as <- <- <-. cbn [reported map]. rewrite app_nil_r, lenN_nil, N.add_0_r. auto.
  - cbn [map bw_run fst snd] in Hrun. unfold bw_write in Hrun.
    rewrite N.mod_small in Hrun by lia. rewrite Ht in Hrun.
    destruct (N.ltb_spec n (bw_written bw + lenN p)) as [Hgt|Hle].
    + destruct (bw_run (map BWrite ps) (bw, w)) as [l1 st1] eqn:E. injection Hrun as <- ->.
      cbn [reported firstn app]. apply (IH bw w l1 Ht Hw Hpad E).
    + destruct (wwrite p w) as [[k e] w1] eqn:Ew. apply wwrite_spec in Ew.
      destruct Ew as (Ho & Hk & _).
      assert (Hk' : (N.of_nat k <= lenN p)%N) by (unfold lenN; lia).
      rewrite N.mod_small in Hrun by lia.
      destruct (bw_run (map BWrite ps) _) as [l1 st1] eqn:E. injection Hrun as <- ->.
      apply IH in E; cbn [bw_total bw_written bw_padded]; auto; [|lia].
      destruct E as (E1 & E2 & E3 & E4 & E5). cbn [bw_written] in E2.
      cbn [reported]. rewrite E1, Ho, app_assoc. repeat split; auto.
      rewrite E2, lenN_app. unfold lenN at 2. rewrite firstn_length, Nat.min_l by lia. lia.
Qed.

Lemma C06_failing_writer n w0 bw w ps l bw1 w1 st2 :
  (n < 2 ^ 63)%N -> Forall (fun p => lenN p < 2 ^ 63)%N ps ->
  NewBytesWriter w0 n = (Ok bw, w) ->
  bw_run (map BWrite ps) (bw, w) = (l, (bw1, w1)) ->
  bw_close bw1 w1 = (None, st2) ->
  out (snd st2) = out w0 ++ field (reported ps l) /\ lenN (reported ps l) = n.
Proof.
  intros Hn Hps Hnew Hrun Hclose. unfold NewBytesWriter, WriteUint64 in Hnew.
  destruct (wwrite_ (le64 n) w0) as [[e0|] w0'] eqn:E0; [discriminate|].
  injection Hnew as <- <-. apply wwrite__ok in E0.
  apply (bw_writes_any n) in Hrun; cbn [bw_total bw_written bw_padded]; auto; try lia.
  destruct Hrun as (H1 & H2 & H3 & H4 & H5). cbn [bw_written] in H2. rewrite N.add_0_l in H2.
  unfold bw_close in Hclose. rewrite H5, H3 in Hclose.
  destruct (N.eqb_spec (bw_written bw1) n) as [E|E]; cbn [negb] in Hclose; [|discriminate].
  destruct (writePadding w1 n) as [[ep|] w2] eqn:Ep; [discriminate|].
  injection Hclose as <-. cbn [snd].
  assert (Hlen : lenN (reported ps l) = n) by congruence.
  split; [|exact Hlen].
  unfold writePadding in Ep.
  assert (Hm : N.to_nat (n mod 8) = length (reported ps l) mod 8).
  { rewrite <- Hlen. unfold lenN. rewrite N2Nat.inj_mod, Nat2N.id. reflexivity. }
  assert (Hp : out w2 = out w1 ++ repeat x00 (pad_len (length (reported ps l)))).
  { pose proof (Nat.mod_upper_bound (length (reported ps l)) 8 ltac:(discriminate)) as Hb.
    unfold pad_len. rewrite <- Hm in *.
    destruct (N.eqb_spec (n mod 8) 0) as [Ez|Ez].
    - injection Ep as <-. rewrite Ez. cbn. rewrite app_nil_r. reflexivity.
    - apply wwrite__ok in Ep. rewrite Ep, (Nat.mod_small (8 - _) 8) by lia. reflexivity. }
  rewrite Hp, H1, E0. unfold field. rewrite <- !app_assoc, le8_le64, Hlen. reflexivity.
Qed.

(** * C07 *)
Lemma br_reads_spec ns len rem s d e l br' s' :
  flat s = (d, e) -> (rem <= lenN d)%N ->
  br_reads ns (BR len rem, s) = (l, (br', s')) ->
  exists k, concat (map fst l) = ntake k d /\ (k <= rem)%N /\ br' = BR len (rem - k) /\
    flat s' = (ndrop k d, e) /\ eager s' = eager s /\
    Forall2 (fun n p => lenN (fst p) <= n)%N ns l /\
    (polite s \/ (rem < lenN d)%N -> Forall (fun p => snd p = None \/ (snd p = Some EEOF /\ k = rem)) l).
Proof.
  revert rem s d l. induction ns as [|n ns IH]; intros rem s d l Hs Hle Hrun; cbn [br_reads] in Hrun.
  - injection Hrun as <- <- <-. exists 0%N. rewrite N.sub_0_r. repeat split; auto; lia.
  - unfold br_read in Hrun. cbn [fst snd br_rem br_len] in Hrun.
    destruct (lim_read n (rem, s)) as [[b er] [rem1 s1]] eqn:E.
    destruct (br_reads ns (BR len rem1, s1)) as [l1 st1] eqn:E1. injection Hrun as <- ->.
    destruct (lim_read_spec _ _ _ _ _ _ _ _ _ Hs E)
      as (Hd & He & Heg & Hlb & Hrem & Hz & Hnz & Hdec & Heag & Hsz).
    assert (Hld : lenN d = (lenN b + lenN (src_data s1))%N) by (rewrite Hd; apply lenN_app).
    destruct (IH rem1 s1 (src_data s1) l1) as (k & K1 & K2 & K3 & K4 & K5 & K6 & K7).
    { unfold flat. congruence. } { lia. } { exact E1. }
    exists (lenN b + k)%N. cbn [map fst concat]. rewrite K1, Hd, ntake_app, ndrop_app by lia.
    replace (lenN b + k - lenN b)%N with k by lia.
    replace (rem1 - k)%N with (rem - (lenN b + k))%N in K3 by lia.
    repeat split; auto; try lia; try congruence.
    rewrite <- Hd. intros Hp.
    assert (Hp1 : polite s1 \/ (rem1 < lenN (src_data s1))%N).
    { destruct Hp as [Hp|Hp]; [left|right; lia]. unfold polite in *.
      destruct (flat_data _ _ _ Hs) as [_ Hfs]. rewrite Heg, He. rewrite Hfs in Hp. exact Hp. }
    specialize (K7 Hp1). constructor.
    + cbn [snd]. destruct (N.eq_dec rem 0) as [->|Hr].
      * destruct (Hz eq_refl) as [-> _]. right. split; [reflexivity|]. lia.
      * destruct (Hnz Hr) as [->|[-> Hd1]]; [auto|]. rewrite Hd1, lenN_nil in *.
        destruct Hp as [[Hp|Hp]|Hp]; [| |lia].
        -- exfalso. assert (eager s = true); [|congruence]. apply Heag; auto; [discriminate|].
           intros ->. rewrite lenN_nil in *. lia.
        -- right. destruct (flat_data _ _ _ Hs) as [_ Hfs]. split; [congruence|].
           assert (rem1 = 0%N) by lia. lia.
    + eapply Forall_impl; [|exact K7]. cbn. intros p [Hn|[Hn1 Hn2]]; [auto|right; split; [auto|lia]].
Qed.

Lemma C07_reader s c tail e ns :
  flat s = (le8 (lenN c) ++ c ++ tail, e) -> (lenN c < 2 ^ 63)%N ->
  polite s \/ tail <> [] ->
  exists br s1 l br2 s2 k s3,
    ReadBytes s = (Ok (lenN c, br), s1) /\
    br_reads ns (br, s1) = (l, (br2, s2)) /\
    concat (map fst l) = ntake k c /\ (k <= lenN c)%N /\
    Forall2 (fun n p => lenN (fst p) <= n)%N ns l /\
    Forall (fun p => snd p = None \/ (snd p = Some EEOF /\ k = lenN c)) l /\
    br_close br2 s2 = (pad_error (lenN c) tail e, (BR (lenN c) 0, s3)) /\
    flat s3 = (ndrop (pad_N (lenN c)) tail, e).
Proof.
  intros Hs Hc Hp.
  destruct (uint_read (lenN c) (c ++ tail) e s) as (s1 & Hr & Hfl & Heg & Hsz); [exact Hs|lia|].
  destruct (br_reads ns (BR (lenN c) (lenN c), s1)) as [l [br2 s2]] eqn:E.
  destruct (br_reads_spec ns (lenN c) (lenN c) s1 _ _ l br2 s2 Hfl) as (k & K1 & K2 & K3 & K4 & K5 & K6 & K7).
  { rewrite lenN_app. lia. } { exact E. }
  assert (Hfins : fin s = e /\ fin s2 = e).
  { destruct (flat_data _ _ _ Hs), (flat_data _ _ _ K4). auto. }
  assert (Hp1 : polite s1 \/ (lenN c < lenN (c ++ tail))%N).
  { destruct Hp as [Hp|Hp].
    - left. unfold polite in *. destruct (flat_data _ _ _ Hfl) as [_ ->]. rewrite Heg.
      destruct Hfins as [Hf _]. rewrite Hf in Hp. exact Hp.
    - right. rewrite lenN_app. destruct tail; [congruence|]. rewrite lenN_cons. lia. }
  assert (Hdl : lenN (ndrop k (c ++ tail)) = (lenN c + lenN tail - k)%N) by (rewrite ndrop_len, lenN_app; reflexivity).
  destruct (br_close_spec (lenN c) (lenN c - k) s2 _ _ K4) as (s3 & Hcl & _ & Hfl3 & _).
  { rewrite Hdl. lia. }
  { rewrite Hdl. destruct Hp as [Hp|Hp].
    - left. unfold polite in *. destruct Hfins as [Hf1 Hf2]. rewrite Hf2, K5, Heg. rewrite Hf1 in Hp. exact Hp.
    - right. destruct tail; [congruence|]. rewrite lenN_cons. lia. }
  assert (Hdrop : forall m, ndrop (lenN c - k + m) (ndrop k (c ++ tail)) = ndrop m tail).
  { intros m. unfold ndrop. rewrite skipn_skipn, skipn_app.
    unfold lenN in *. rewrite skipn_all2 by lia. cbn. f_equal. lia. }
  exists (BR (lenN c) (lenN c)), s1, l, br2, s2, k, s3.
  unfold ReadBytes. rewrite Hr. cbn [rbind]. unfold NewBytesReader.
  destruct (N.ltb_spec (lenN c) (2 ^ 63)); [|lia].
  split; [reflexivity|]. split; [exact E|].
  split. { rewrite K1. unfold ntake. rewrite firstn_app. unfold lenN in K2.
           replace (N.to_nat k - length c) with 0 by lia. cbn. apply app_nil_r. }
  split; [exact K2|]. split; [exact K6|]. split; [exact (K7 Hp1)|].
  subst br2. split.
  - rewrite Hcl. specialize (Hdrop 0%N). rewrite N.add_0_r, ndrop_0 in Hdrop. rewrite Hdrop. reflexivity.
  - rewrite Hfl3, Hdrop. reflexivity.
Qed.

(** * C08 *)
Lemma C08_refuted_witness :
  let s := Src [le8 1 ++ [x41] ++ [x00; x00; x00; x00; x00; x00; xff]; le8 7] EEOF false in
  exists s', ReadString s 10 = (Ok [x41], s') /\ flat s' = (le8 7, EEOF).
Proof. eexists. vm_compute. auto. Qed.
Lemma C08_refuted_truncated :
  let s := Src [le8 1 ++ [x41]] EEOF false in
  exists s', ReadString s 10 = (Ok [x41], s').
Proof. eexists. vm_compute. reflexivity. Qed.

(** The exact condition for acceptance: the padding is irrelevant. *)
Lemma C08_exact s d e max b :
  flat s = (d, e) -> (max < 2 ^ 63)%N ->
  (fst (ReadString s max) = Ok b <->
   exists tail, d = le8 (lenN b) ++ b ++ tail /\ (lenN b <= max)%N).
Proof.
  intros Hs Hmax. unfold ReadString.
  destruct (ReadBytesFull_spec s max _ _ Hs) as (s1 & _ & _ & -> & _). cbn [fst]. unfold rbf_spec.
  split.
  - destruct (N.ltb_spec (lenN d) 8) as [|H8]; [discriminate|].
    destruct (N.ltb_spec max (le_val (ntake 8 d))) as [|Hm]; [discriminate|].
    destruct (N.leb_spec (2 ^ 63) (le_val (ntake 8 d))); [discriminate|].
    destruct (N.ltb_spec (lenN (ndrop 8 d)) (le_val (ntake 8 d))) as [|Hn]; [discriminate|].
    cbn [fst]. intros [= <-]. rewrite ntake_len by assumption.
    exists (ndrop (le_val (ntake 8 d)) (ndrop 8 d)). split; [|exact Hm].
    rewrite ntake_ndrop, le8_le_val, ntake_ndrop; [reflexivity|].
    unfold ntake. rewrite firstn_length. unfold lenN in H8. lia.
  - intros (tail & -> & Hm).
    assert (H8 : forall x, lenN (le8 (lenN b) ++ x) = (8 + lenN x)%N) by (intros; apply lenN_app).
    rewrite H8. destruct (N.ltb_spec (8 + lenN (b ++ tail)) 8); [lia|].
    cbv zeta. rewrite !ntake_le8, !ndrop_le8, le_val_le8 by lia.
    destruct (N.ltb_spec max (lenN b)); [lia|].
    destruct (N.leb_spec (2 ^ 63) (lenN b)); [lia|].
    rewrite lenN_app. destruct (N.ltb_spec (lenN b + lenN tail) (lenN b)); [lia|].
    rewrite ntake_exact. reflexivity.
Qed.

Lemma pad_error_ok c rest e :
  pad_error (lenN c) (repeat x00 (pad_len (length c)) ++ rest) e = None.
Proof.
  unfold pad_error. rewrite pad_N_nat.
  replace (N.of_nat (pad_len (length c))) with (lenN (repeat x00 (pad_len (length c))))
    by (unfold lenN; rewrite repeat_length; reflexivity).
  rewrite lenN_app, ntake_exact.
  destruct (N.leb_spec (lenN (repeat x00 (pad_len (length c))))
              (lenN (repeat x00 (pad_len (length c))) + lenN rest)); [|lia].
  assert (Hz : forall k, all_zero (repeat x00 k) = true).
  { induction k; cbn; auto. }
  rewrite Hz. reflexivity.
Qed.
Lemma pad_drop_ok c rest :
  ndrop (pad_N (lenN c)) (repeat x00 (pad_len (length c)) ++ rest) = rest.
Proof.
  rewrite pad_N_nat.
  replace (N.of_nat (pad_len (length c))) with (lenN (repeat x00 (pad_len (length c))))
    by (unfold lenN; rewrite repeat_length; reflexivity).
  apply ndrop_exact.
Qed.
Lemma pad_error_bad c tail e :
  firstn (pad_len (length c)) tail <> repeat x00 (pad_len (length c)) ->
  pad_error (lenN c) tail e <> None.
Proof.
  unfold pad_error. rewrite pad_N_nat. intros H.
  destruct (N.leb_spec (N.of_nat (pad_len (length c))) (lenN tail)) as [Hle|]; [|discriminate].
  destruct (all_zero (ntake (N.of_nat (pad_len (length c))) tail)) eqn:E; [|discriminate].
  exfalso. apply H. unfold ntake in E. rewrite Nat2N.id in E.
  set (k := pad_len (length c)) in *. unfold lenN in Hle.
  assert (Hk : length (firstn k tail) = k) by (rewrite firstn_length; lia).
  rewrite <- Hk at 2. clear - E. revert E. generalize (firstn k tail).
  induction l as [|x l IH]; [reflexivity|]. unfold all_zero. cbn [forallb length repeat].
  intros E. apply andb_true_iff in E. destruct E as [E1 E2]. apply byte_eqb_eq in E1. subst x.
  f_equal. apply IH. exact E2.
Qed.

Lemma C07_close_ok s c rest e ns :
  flat s = (field c ++ rest, e) -> (lenN c < 2 ^ 63)%N -> polite s \/ rest <> [] ->
  exists br s1 l br2 s2 k br3 s3,
    ReadBytes s = (Ok (lenN c, br), s1) /\
    br_reads ns (br, s1) = (l, (br2, s2)) /\
    concat (map fst l) = ntake k c /\ (k <= lenN c)%N /\
    Forall2 (fun n p => lenN (fst p) <= n)%N ns l /\
    Forall (fun p => snd p = None \/ (snd p = Some EEOF /\ k = lenN c)) l /\
    br_close br2 s2 = (None, (br3, s3)) /\ flat s3 = (rest, e).
Proof.
  intros Hs Hc Hp. unfold field in Hs. rewrite <- !app_assoc in Hs.
  destruct (C07_reader s c _ e ns Hs Hc) as (br & s1 & l & br2 & s2 & k & s3 & H1 & H2 & H3 & H4 & H5 & H6 & H7 & H8).
  { destruct Hp as [Hp|Hp]; [auto|right]. destruct rest; [congruence|].
    intros E. apply app_eq_nil in E. destruct E. discriminate. }
  rewrite pad_error_ok in H7. rewrite pad_drop_ok in H8.
  exists br, s1, l, br2, s2, k, (BR (lenN c) 0), s3. auto 10.
Qed.
Lemma C07_close_bad s c tail e ns :
  flat s = (le8 (lenN c) ++ c ++ tail, e) -> (lenN c < 2 ^ 63)%N -> polite s \/ tail <> [] ->
  firstn (pad_len (length c)) tail <> repeat x00 (pad_len (length c)) ->
  exists br s1 l br2 s2 er st3,
    ReadBytes s = (Ok (lenN c, br), s1) /\
    br_reads ns (br, s1) = (l, (br2, s2)) /\
    br_close br2 s2 = (Some er, st3).
Proof.
  intros Hs Hc Hp Hbad.
  destruct (C07_reader s c _ e ns Hs Hc Hp) as (br & s1 & l & br2 & s2 & k & s3 & H1 & H2 & H3 & H4 & H5 & H6 & H7 & H8).
  destruct (pad_error (lenN c) tail e) as [er|] eqn:E.
  - exists br, s1, l, br2, s2, er, (BR (lenN c) 0, s3). auto.
  - exfalso. exact (pad_error_bad c tail e Hbad E).
Qed.
