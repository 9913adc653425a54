(** Nothing is read ahead (C118): what a call returns does not depend on the part of the stream it has not touched. *)
From Verif Require Import Base.Bytes Base.BytesFacts Model.GoIO Model.GoStd Model.Wire Model.Nar
  Model.NarReader Spec.WireSpec Spec.NarHist Proof.WireFacts Proof.NarReaderFacts.
Ltac Zify.zify_post_hook ::= idtac.

Section Ahead.
Variables (x : bytes) (xs : list bytes) (e1 : error) (g1 : bool) (ys : list bytes) (e2 : error) (g2 : bool).
Hypothesis Hy : ys = [] -> g2 = false.
Variable (gl : bool).
Hypothesis Hg : gl = true -> x <> [].
(** The part [cs] of the stream in front of [x :: xs]; with [gl] the last chunk of [cs] and [x] are one chunk. *)
Fixpoint glue (cs : list bytes) : list bytes :=
  match cs with
  | [] => x :: xs
  | [c] => if gl then (c ++ x) :: xs else c :: x :: xs
  | c :: cs' => c :: glue cs'
  end.
Definition A (cs : list bytes) : src := Src (glue cs) e1 g1.
Definition B (cs : list bytes) : src := Src (cs ++ ys) e2 g2.
Definition past (s : src) : Prop := src_size s < src_size (A []).
Definition Loc {R} (f : src -> R * src) : Prop :=
  (forall s, src_size (snd (f s)) <= src_size s) /\
  (forall cs, past (snd (f (A cs))) \/ exists r cs', f (A cs) = (r, A cs') /\ f (B cs) = (r, B cs')).

Lemma Loc_ext {R} (f g : src -> R * src) : (forall s, g s = f s) -> Loc f -> Loc g.
Proof.
  intros E [M L]. split; [intros s; rewrite E; apply M|]. intros cs. rewrite !E. apply L.
Qed.
Lemma Loc_ret {R} (r : R) : Loc (fun s => (r, s)).
Proof. split; [intros; cbn [snd]; lia|]. intros cs. right. exists r, cs. auto. Qed.
Lemma Loc_bind {R S} (f : src -> R * src) (g : R -> src -> S * src) : Loc f -> (forall r, Loc (g r)) ->
  Loc (fun s => let '(r, s') := f s in g r s').
Proof.
  intros [Mf Lf] G. split.
  - intros s. specialize (Mf s). destruct (f s) as [r s']. cbn [snd] in *. pose proof (proj1 (G r) s'). lia.
  - intros cs. destruct (Lf cs) as [P|(r & cs' & EA & EB)].
    + left. destruct (f (A cs)) as [r s']. cbn [snd] in P. unfold past in *. pose proof (proj1 (G r) s'). lia.
    + rewrite EA, EB. apply G.
Qed.
Lemma Loc_bind2 {R X S} (f : src -> R * (X * src)) (g : R -> X -> src -> S * src) :
  Loc (fun s => let '(r, (y, s')) := f s in ((r, y), s')) -> (forall r y, Loc (g r y)) ->
  Loc (fun s => let '(r, (y, s')) := f s in g r y s').
Proof.
  intros F G. eapply Loc_ext; [|exact (Loc_bind _ (fun ry => g (fst ry) (snd ry)) F (fun ry => G _ _))].
  intros s. cbv beta. destruct (f s) as [r [y s']]. reflexivity.
Qed.
Lemma Loc_map {R S} (h : R -> S) (f : src -> R * src) : Loc f -> Loc (fun s => let '(r, s') := f s in (h r, s')).
Proof. intros F. apply Loc_bind; [exact F|]. intros r. apply Loc_ret. Qed.

(** * Reads *)
Lemma src_read_mono n s : src_size (snd (src_read n s)) <= src_size s.
Proof.
  destruct s as [[|c cs] f eg]; unfold src_read, src_size, src_data; cbn [chunks fin eager snd]; [lia|].
  destruct (N.leb _ _); cbn [snd chunks concat length]; rewrite ?app_length, ?skipn_length; cbn [length]; lia.
Qed.
Lemma src_read_less n s : (0 < n)%N -> chunks s <> [] -> src_size (snd (src_read n s)) < src_size s.
Proof.
  intros Hn. destruct s as [[|c cs] f eg]; unfold src_read, src_size, src_data; cbn [chunks fin eager snd]; [congruence|intros _].
  destruct (N.leb_spec (lenN c) n); cbn [snd chunks concat length]; rewrite ?app_length, ?skipn_length; unfold lenN in *; cbn [length]; lia.
Qed.
Lemma glue_cons c cs : cs <> [] -> glue (c :: cs) = c :: glue cs.
Proof. destruct cs; [congruence|reflexivity]. Qed.
Lemma glue_some cs : glue cs <> [].
Proof. destruct cs as [|c [|d cs]]; cbn [glue]; try destruct gl; discriminate. Qed.
Lemma src_read_loc n : (0 < n)%N -> Loc (src_read n).
Proof.
  intros Hn. split; [apply src_read_mono|].
  assert (K : forall c cs, glue (c :: cs) = c :: glue cs ->
     exists r cs', src_read n (A (c :: cs)) = (r, A cs') /\ src_read n (B (c :: cs)) = (r, B cs')).
  { intros c cs E. unfold src_read, A, B. rewrite E. cbn [app chunks fin eager]. destruct (N.leb (lenN c) n) eqn:El.
    + exists (c, None), cs. split; [destruct (glue cs) eqn:E1; [apply glue_some in E1; destruct E1|reflexivity]|].
      destruct (cs ++ ys) eqn:E2; [|reflexivity]. apply app_eq_nil in E2. destruct E2 as [_ E2]. rewrite (Hy E2). reflexivity.
    + exists (firstn (N.to_nat n) c, None), (skipn (N.to_nat n) c :: cs). split; [|reflexivity]. do 2 f_equal.
      destruct cs; [|reflexivity]. cbn [glue] in E |- *. destruct gl; [|reflexivity].
      exfalso. injection E as E _. apply Hg; [reflexivity|]. apply (f_equal (@length _)) in E. rewrite app_length in E. destruct x; [reflexivity|cbn [length] in E; lia]. }
  intros [|c cs].
  - left. apply src_read_less; [exact Hn|discriminate].
  - destruct cs as [|c2 cs]; [|right; apply K; reflexivity]. destruct gl eqn:Eg; [|right; apply K; cbn [glue]; rewrite Eg; reflexivity].
    assert (EA : A [c] = Src ((c ++ x) :: xs) e1 g1) by (unfold A; cbn [glue]; rewrite Eg; reflexivity). rewrite EA.
    destruct (N.leb_spec n (lenN c)) as [Hl|Hl].
    + right. specialize (Hg eq_refl). exists (firstn (N.to_nat n) c, None).
      assert (Hx : (0 < lenN x)%N) by (destruct x; [congruence|unfold lenN; cbn [length]; lia]).
      destruct (N.eq_dec n (lenN c)) as [En|En].
      * exists []. unfold src_read, B. cbn [app chunks fin eager].
        rewrite (proj2 (N.leb_gt (lenN (c ++ x)) n)) by (unfold lenN in *; rewrite app_length; lia).
        rewrite (proj2 (N.leb_le (lenN c) n)) by lia.
        assert (E1 : N.to_nat n = length c) by (unfold lenN in *; lia). rewrite E1, firstn_app, skipn_app, Nat.sub_diag, firstn_all, skipn_all. cbn [firstn skipn app].
        rewrite app_nil_r. split; [reflexivity|]. destruct ys; [rewrite (Hy eq_refl)|]; reflexivity.
      * exists [skipn (N.to_nat n) c]. unfold src_read, B. cbn [app chunks fin eager].
        rewrite (proj2 (N.leb_gt (lenN (c ++ x)) n)) by (unfold lenN in *; rewrite app_length; lia).
        rewrite (proj2 (N.leb_gt (lenN c) n)) by lia.
        assert (E1 : N.to_nat n - length c = 0) by (unfold lenN in *; lia). rewrite firstn_app, skipn_app, E1. cbn [firstn skipn].
        rewrite app_nil_r. unfold A. cbn [glue]. rewrite Eg. auto.
    + left. unfold past, src_read. cbn [app chunks fin eager]. destruct (N.leb_spec (lenN (c ++ x)) n) as [Hm|Hm]; cbn [snd];
        unfold A, src_size, src_data; cbn [glue chunks concat length]; rewrite ?app_length, ?skipn_length, ?app_length; unfold lenN in *; rewrite ?app_length in *; try lia.
Qed.
Definition lim (rem : N) (n : N) (s : src) : (bytes * option error * N) * src :=
  let '(r, (rem', s')) := lim_read n (rem, s) in ((r, rem'), s').
Lemma lim_loc rem n : (0 < n)%N -> Loc (lim rem n).
Proof.
  intros Hn. unfold lim, lim_read. destruct (N.eqb_spec rem 0).
  - apply Loc_ret.
  - assert (Hm : (0 < N.min n rem)%N) by lia. eapply Loc_ext; [|exact (Loc_map (fun be => (be, (rem - lenN (fst be))%N)) (src_read (N.min n rem)) (src_read_loc _ Hm))].
    intros s. cbv beta. destruct (src_read (N.min n rem) s) as [[b er] s']. reflexivity.
Qed.
Lemma lim_less rem n s : rem <> 0%N -> (0 < n)%N -> chunks s <> [] -> src_size (snd (lim rem n s)) < src_size s.
Proof.
  intros Hr Hn Hc. unfold lim, lim_read. destruct (N.eqb_spec rem 0); [contradiction|].
  pose proof (src_read_less (N.min n rem) s ltac:(lia) Hc) as H. destruct (src_read _ s) as [[b er] s']. exact H.
Qed.

Lemma read_full_mono f : forall need acc s, src_size (snd (read_full src_read f need acc s)) <= src_size s.
Proof.
  induction f as [|f IH]; intros need acc s; cbn [read_full]; destruct (N.eqb need 0); cbn [snd]; try lia.
  pose proof (src_read_mono need s) as M. destruct (src_read need s) as [[b [er|]] s']; cbn [snd] in M.
  - destruct (N.eqb _ 0); [exact M|]. destruct er; exact M.
  - pose proof (IH (need - lenN b)%N (acc ++ b) s'). lia.
Qed.
Lemma A_size cs : chunks (A cs) <> [].
Proof. apply glue_some. Qed.
Lemma read_full_loc f : forall f' need acc cs, src_size (A cs) < f -> src_size (B cs) < f' ->
  past (snd (read_full src_read f need acc (A cs))) \/
  exists r cs', read_full src_read f need acc (A cs) = (r, A cs') /\ read_full src_read f' need acc (B cs) = (r, B cs').
Proof.
  induction f as [|f IH]; intros [|f'] need acc cs HA HB; try lia. cbn [read_full].
  destruct (N.eqb_spec need 0) as [->|Hn]; [right; exists (Ok acc), cs; auto|].
  pose proof (src_read_less need (A cs) ltac:(lia) (A_size cs)) as LA.
  destruct (proj2 (src_read_loc need ltac:(lia)) cs) as [P|([b er] & cs' & EA & EB)].
  - left. destruct (src_read need (A cs)) as [[b er] s']. cbn [snd] in *. unfold past in *. destruct er as [er|].
    + destruct (N.eqb _ 0); [exact P|]. destruct er; exact P.
    + pose proof (read_full_mono f (need - lenN b)%N (acc ++ b) s'). lia.
  - assert (LB : src_size (B cs') < src_size (B cs) \/ cs' = cs).
    { pose proof (src_read_less need (B cs) ltac:(lia)) as L. rewrite EB in L. cbn [snd] in L.
      destruct (chunks (B cs)) eqn:Ec; [|left; apply L; discriminate]. right. unfold B in Ec. cbn [chunks] in Ec.
      apply app_eq_nil in Ec. destruct Ec as [-> Ey]. unfold src_read, B in EB. rewrite Ey in EB. cbn [chunks app fin] in EB. injection EB as _ _ E0. rewrite app_nil_r in E0. auto. }
    rewrite EA, EB in *. cbn [snd] in *. destruct er as [er|].
    + right. destruct (N.eqb _ 0); [eexists _, cs'; auto|]. destruct er; eexists _, cs'; auto.
    + destruct LB as [LB| ->]; [|lia]. apply IH; lia.
Qed.
Lemma src_read_full_loc n : Loc (src_read_full n).
Proof.
  split; [intros s; apply read_full_mono|]. intros cs. apply read_full_loc; lia.
Qed.
Lemma ReadUint64_loc : Loc ReadUint64.
Proof. unfold ReadUint64. apply (Loc_map (fun r => rbind r (fun buf => Ok (le_val buf)))). apply src_read_full_loc. Qed.
Lemma ReadBool_loc : Loc ReadBool.
Proof. unfold ReadBool. apply Loc_bind; [apply ReadUint64_loc|]. intros r. apply Loc_ret. Qed.
Lemma readPadding_loc n : Loc (fun s => readPadding s n).
Proof.
  unfold readPadding. cbv zeta. destruct (N.eqb _ 0); [apply Loc_ret|]. apply Loc_bind; [apply src_read_full_loc|]. intros r. apply Loc_ret.
Qed.

(** * Limited reads *)
Definition out3 {R} (p : R * (N * src)) : (R * N) * src := let '(r, (y, s)) := p in ((r, y), s).
Lemma lim_out n rem s : lim rem n s = out3 (lim_read n (rem, s)).
Proof. reflexivity. Qed.
Lemma lim_full_mono f : forall need acc rem s, src_size (snd (out3 (read_full lim_read f need acc (rem, s)))) <= src_size s.
Proof.
  induction f as [|f IH]; intros need acc rem s; cbn [read_full]; destruct (N.eqb_spec need 0) as [|Hn]; cbn [out3 snd]; try lia.
  pose proof (proj1 (lim_loc rem need ltac:(lia)) s) as M. rewrite lim_out in M. destruct (lim_read need (rem, s)) as [[b [er|]] [rem' s']]; cbn [out3 snd] in M.
  - destruct (N.eqb _ 0); [exact M|]. destruct er; exact M.
  - pose proof (IH (need - lenN b)%N (acc ++ b) rem' s'). lia.
Qed.
Lemma lim_full_loc f : forall f' need acc rem cs, src_size (A cs) < f -> src_size (B cs) < f' ->
  past (snd (out3 (read_full lim_read f need acc (rem, A cs)))) \/
  exists r cs', out3 (read_full lim_read f need acc (rem, A cs)) = (r, A cs') /\ out3 (read_full lim_read f' need acc (rem, B cs)) = (r, B cs').
Proof.
  induction f as [|f IH]; intros [|f'] need acc rem cs HA HB; try lia. cbn [read_full].
  destruct (N.eqb_spec need 0) as [->|Hn]; [right; exists (Ok acc, rem), cs; auto|].
  destruct (N.eq_dec rem 0) as [->|Hr].
  { unfold lim_read. rewrite N.eqb_refl. right. rewrite app_nil_r. destruct (N.eqb _ 0); cbn [out3]; eexists (_, 0%N), cs; split; reflexivity. }
  pose proof (lim_less rem need (A cs) Hr ltac:(lia) (A_size cs)) as LA. rewrite lim_out in LA.
  destruct (proj2 (lim_loc rem need ltac:(lia)) cs) as [P|([[b er] rem'] & cs' & EA & EB)].
  - left. rewrite lim_out in P. destruct (lim_read need (rem, A cs)) as [[b er] [rem' s']]. cbn [out3 snd] in *. unfold past in *. destruct er as [er|].
    + destruct (N.eqb _ 0); [exact P|]. destruct er; exact P.
    + pose proof (lim_full_mono f (need - lenN b)%N (acc ++ b) rem' s'). lia.
  - assert (LB : src_size (B cs') < src_size (B cs) \/ (cs' = cs /\ er <> None)).
    { pose proof (lim_less rem need (B cs) Hr ltac:(lia)) as L. rewrite EB in L. cbn [snd] in L.
      destruct (chunks (B cs)) eqn:Ec; [|left; apply L; discriminate]. right. unfold B in Ec. cbn [chunks] in Ec.
      apply app_eq_nil in Ec. destruct Ec as [-> Ey]. unfold lim, lim_read, src_read, B in EB. rewrite Ey in EB. rewrite (proj2 (N.eqb_neq rem 0) Hr) in EB. cbn [chunks app fin] in EB.
      injection EB as _ Ee _ E0. rewrite app_nil_r in E0. split; [auto|rewrite <- Ee; discriminate]. }
    rewrite (lim_out need rem) in EA; rewrite (lim_out need rem) in EB. destruct (lim_read need (rem, A cs)) as [[b0 er0] [rem0 sA]], (lim_read need (rem, B cs)) as [[b1 er1] [rem1 sB]].
    cbn [out3 snd] in *. injection EA as -> -> -> ->. injection EB as -> -> -> ->. destruct er as [er|].
    + right. destruct (N.eqb _ 0); [|destruct er]; cbn [out3]; eexists (_, rem'); exists cs'; split; reflexivity.
    + destruct LB as [LB|[_ LB]]; [|congruence]. apply IH; lia.
Qed.
Lemma lim_read_full_loc n rem : Loc (fun s => let '(r, (y, s')) := lim_read_full n (rem, s) in ((r, y), s')).
Proof.
  split; [intros s; apply (lim_full_mono (S (src_size s)))|]. intros cs. unfold lim_read_full. cbn [snd]. apply lim_full_loc; lia.
Qed.
Lemma drain_mono f : forall rem s, src_size (snd (out3 (drain f (rem, s)))) <= src_size s.
Proof.
  induction f as [|f IH]; intros rem s; cbn [drain out3 snd]; [lia|].
  pose proof (proj1 (lim_loc rem 1024%N ltac:(lia)) s) as M. rewrite lim_out in M. destruct (lim_read 1024%N (rem, s)) as [[b [er|]] [rem' s']]; cbn [out3 snd] in M.
  - destruct er; exact M.
  - pose proof (IH rem' s'). lia.
Qed.
Lemma drain_loc f : forall f' rem cs, src_size (A cs) + 1 < f -> src_size (B cs) + 1 < f' ->
  past (snd (out3 (drain f (rem, A cs)))) \/
  exists r cs', out3 (drain f (rem, A cs)) = (r, A cs') /\ out3 (drain f' (rem, B cs)) = (r, B cs').
Proof.
  induction f as [|f IH]; intros [|f'] rem cs HA HB; try lia. cbn [drain].
  destruct (N.eq_dec rem 0) as [->|Hr].
  { unfold lim_read. rewrite N.eqb_refl. right. cbn [out3]. eexists (_, 0%N), cs; split; reflexivity. }
  pose proof (lim_less rem 1024%N (A cs) Hr ltac:(lia) (A_size cs)) as LA. rewrite lim_out in LA.
  destruct (proj2 (lim_loc rem 1024%N ltac:(lia)) cs) as [P|([[b er] rem'] & cs' & EA & EB)].
  - left. rewrite lim_out in P. destruct (lim_read 1024%N (rem, A cs)) as [[b er] [rem' s']]. cbn [out3 snd] in *. unfold past in *. destruct er as [er|].
    + destruct er; exact P.
    + pose proof (drain_mono f rem' s'). lia.
  - assert (LB : src_size (B cs') < src_size (B cs) \/ (cs' = cs /\ er <> None)).
    { pose proof (lim_less rem 1024%N (B cs) Hr ltac:(lia)) as L. rewrite EB in L. cbn [snd] in L.
      destruct (chunks (B cs)) eqn:Ec; [|left; apply L; discriminate]. right. unfold B in Ec. cbn [chunks] in Ec.
      apply app_eq_nil in Ec. destruct Ec as [-> Ey]. unfold lim, lim_read, src_read, B in EB. rewrite Ey in EB. rewrite (proj2 (N.eqb_neq rem 0) Hr) in EB. cbn [chunks app fin] in EB.
      injection EB as _ Ee _ E0. rewrite app_nil_r in E0. split; [auto|rewrite <- Ee; discriminate]. }
    rewrite (lim_out 1024%N rem) in EA; rewrite (lim_out 1024%N rem) in EB. destruct (lim_read 1024%N (rem, A cs)) as [[b0 er0] [rem0 sA]], (lim_read 1024%N (rem, B cs)) as [[b1 er1] [rem1 sB]].
    cbn [out3 snd] in *. injection EA as -> -> -> ->. injection EB as -> -> -> ->. destruct er as [er|].
    + right. destruct er; cbn [out3]; eexists (_, rem'); exists cs'; split; reflexivity.
    + destruct LB as [LB|[_ LB]]; [|congruence]. apply IH; lia.
Qed.
Lemma drained_loc rem : Loc (fun s => out3 (drain (S (S (src_size s))) (rem, s))).
Proof. split; [intros s; apply drain_mono|]. intros cs. apply drain_loc; lia. Qed.
Lemma br_close_loc br : Loc (fun s => let '(r, (y, s')) := br_close br s in ((r, y), s')).
Proof.
  eapply Loc_ext; [|exact (Loc_bind _ (fun ey s => match fst ey with
     | Some er => ((Some er, BR (br_len br) (snd ey)), s)
     | None => let '(e', s'') := readPadding s (br_len br) in ((e', BR (br_len br) (snd ey)), s'') end)
     (drained_loc (br_rem br)) ltac:(intros [[er|] y]; cbn [fst snd]; [apply Loc_ret|exact (Loc_map (fun e' => (e', BR (br_len br) y)) _ (readPadding_loc (br_len br)))]))].
  intros s. cbv beta. unfold br_close. destruct (drain _ _) as [[er|] [y s']]; cbn [out3 fst snd]; [reflexivity|].
  destruct (readPadding s' (br_len br)). reflexivity.
Qed.
Lemma br_read_loc n br : (0 < n)%N -> Loc (fun s => let '(be, (y, s')) := br_read n br s in ((be, y), s')).
Proof.
  intros Hn. eapply Loc_ext; [|exact (Loc_map (fun by' => (fst by', BR (br_len br) (snd by'))) _ (lim_loc (br_rem br) n Hn))].
  intros s. cbv beta. unfold br_read, lim. destruct (lim_read n (br_rem br, s)) as [[b er] [y s']]. reflexivity.
Qed.
Lemma ReadBytes_loc : Loc ReadBytes.
Proof. unfold ReadBytes. apply Loc_bind; [apply ReadUint64_loc|]. intros r. apply Loc_ret. Qed.
Lemma ReadBytesFull_loc max : Loc (fun s => ReadBytesFull s max).
Proof.
  unfold ReadBytesFull. apply Loc_bind; [apply ReadBytes_loc|]. intros [[n rd]|er|m]; try apply Loc_ret.
  destruct (N.ltb _ _); [apply Loc_ret|]. destruct (N.leb _ _); [apply Loc_ret|].
  apply Loc_bind2; [apply lim_read_full_loc|]. intros r y.
  apply (Loc_bind2 (fun s => br_close (BR (br_len rd) y) s) (fun _ _ s => (r, s))); [apply br_close_loc|]. intros. apply Loc_ret.
Qed.
Lemma expect_loc c : Loc (fun s => expectString s c).
Proof. unfold expectString, ReadString. apply Loc_bind; [apply ReadBytesFull_loc|]. intros r. apply Loc_ret. Qed.
Lemma tok_loc max : Loc (fun s => tok s max).
Proof. unfold tok, ReadString. apply Loc_bind; [apply ReadBytesFull_loc|]. intros r. apply Loc_ret. Qed.

(** * The parser *)
Inductive pobs := OGo (c : pc) (st : list frame) | OYield (h : header) (w : wait) (st : list frame) (ct : option bytes_reader) | OStop (e : error).
Definition unp (p : pstep) : pobs * src :=
  match p with PGo c st s => (OGo c st, s) | PYield h w st ct s => (OYield h w st ct, s) | PStop e s => (OStop e, s) end.
Definition LocP (f : src -> pstep) : Prop := Loc (fun s => unp (f s)).
Lemma LocP_bind {R} (f : src -> R * src) (g : R -> src -> pstep) : Loc f -> (forall r, LocP (g r)) ->
  LocP (fun s => let '(r, s') := f s in g r s').
Proof.
  intros F G. unfold LocP. eapply Loc_ext; [|exact (Loc_bind f (fun r s => unp (g r s)) F G)].
  intros s. cbv beta. destruct (f s). reflexivity.
Qed.
Lemma LocP_go c st : LocP (fun s => PGo c st s).
Proof. apply (Loc_ret (OGo c st)). Qed.
Lemma LocP_yield h w st ct : LocP (fun s => PYield h w st ct s).
Proof. apply (Loc_ret (OYield h w st ct)). Qed.
Lemma LocP_stop e : LocP (fun s => PStop e s).
Proof. apply (Loc_ret (OStop e)). Qed.
Lemma close_paren_loc t st : LocP (close_paren t st).
Proof. unfold close_paren. destruct (beq t _); [apply LocP_go|apply LocP_stop]. Qed.
Ltac ex := apply (LocP_bind (fun s => expectString s _) (fun e s => match e with Some er => PStop er s | None => _ s end)); [apply expect_loc|]; intros [?|]; [apply LocP_stop|].
Lemma parse_head_loc p st : LocP (parse_head p st).
Proof.
  unfold parse_head. apply LocP_bind; [apply expect_loc|]. intros [?|]; [apply LocP_stop|].
  apply LocP_bind; [apply expect_loc|]. intros [?|]; [apply LocP_stop|].
  apply LocP_bind; [apply tok_loc|]. intros [t|?]; [|apply LocP_stop].
  destruct (beq t (bs "regular")).
  - apply LocP_bind; [apply tok_loc|]. intros [t2|?]; [|apply LocP_stop].
    set (k := fun (te : (bytes + error) * bool) (s : src) =>
       match fst te with
        | inr er => PStop er s
        | inl t =>
          if negb (beq t (bs "contents")) then PStop (EMsg "expected contents") s
          else
            let '(r, s) := ReadBytes s in
            match r with
            | Err er => PStop er s
            | Panic w => PStop (EMsg w) s
            | Ok (n, br) =>
                if (2 ^ 63 - 1 <? n)%N then PStop (EMsg "content length too large") s
                else PYield (Header p TypeRegular [] (Z.of_N n) (snd te)) WReg st (Some br) s
            end
        end).
    assert (Hk : forall te, LocP (k te)).
    { intros [[t0|?] b]; unfold k; cbn [fst snd]; [|apply LocP_stop].
      destruct (negb _); [apply LocP_stop|]. apply LocP_bind; [apply ReadBytes_loc|].
      intros [[n br]|?|?]; try apply LocP_stop. destruct (N.ltb _ _); [apply LocP_stop|apply LocP_yield]. }
    destruct (beq t2 (bs "executable")).
    + eapply Loc_ext; [|refine (LocP_bind (fun s => ReadBytesFull s 0) (fun r s => match r with
            | Ok _ => let '(t, s) := tok s tokenLenMax in k (t, true) s
            | Err e => k (inr (match e with EEOF => EMsg "error reading placeholder" | _ => e end), true) s
            | Panic w => k (inr (EMsg w), true) s
            end) (ReadBytesFull_loc 0) _)].
      * intros s. cbv beta. destruct (ReadBytesFull s 0) as [[?|?|?] s']; [|reflexivity|reflexivity].
        destruct (tok s' tokenLenMax). reflexivity.
      * intros [?|?|?]; [|apply Hk|apply Hk]. apply (LocP_bind (fun s => tok s tokenLenMax) (fun t => k (t, true))); [apply tok_loc|]. intros. apply Hk.
    + exact (Hk (inl t2, false)).
  - destruct (beq t (bs "symlink")).
    + apply LocP_bind; [apply expect_loc|]. intros [?|]; [apply LocP_stop|].
      apply LocP_bind; [apply tok_loc|]. intros [?|?]; [apply LocP_yield|apply LocP_stop].
    + destruct (beq t (bs "directory")); [apply LocP_yield|apply close_paren_loc].
Qed.
Lemma pstep1_loc c st : LocP (pstep1 c st).
Proof.
  destruct c as [p|p|]; cbn [pstep1].
  - apply parse_head_loc.
  - apply LocP_bind; [apply tok_loc|]. intros [t|?]; [|apply LocP_stop].
    destruct (beq t (bs "entry")).
    + apply LocP_bind; [apply expect_loc|]. intros [?|]; [apply LocP_stop|].
      apply LocP_bind; [apply expect_loc|]. intros [?|]; [apply LocP_stop|].
      apply LocP_bind; [apply tok_loc|]. intros [n|?]; [|apply LocP_stop].
      destruct (negb _); [apply LocP_stop|].
      apply LocP_bind; [apply expect_loc|]. intros [?|]; [apply LocP_stop|apply LocP_go].
    + destruct (beq t (bs ")")); apply LocP_go.
  - destruct st as [|[p n] st]; [apply LocP_stop|].
    apply LocP_bind; [apply expect_loc|]. intros [?|]; [apply LocP_stop|]. destruct (beq n _); apply LocP_go.
Qed.
Lemma run_all_loc c st : LocP (run_all c st).
Proof.
  assert (M : forall m c st s, dlen s + length st = m -> src_size (snd (unp (run_all c st s))) <= src_size s).
  { induction m as [m IH] using lt_wf_ind. intros c0 st0 s Hm. rewrite run_all_step.
    pose proof (proj1 (pstep1_loc c0 st0) s) as Ms. cbv beta in Ms. destruct (pstep1 c0 st0 s) as [c' st' s'|h w st' ct s'|e s'] eqn:E; cbn [unp snd] in *; try exact Ms.
    apply pstep1_go in E. destruct E as [_ E]. pose proof (IH (dlen s' + length st') ltac:(lia) c' st' s' eq_refl). lia. }
  split; [intros s; eapply M; reflexivity|]. intros cs.
  remember (dlen (A cs) + length st) as m eqn:Hm. revert c st cs Hm.
  induction m as [m IH] using lt_wf_ind. intros c st cs Hm. rewrite !run_all_step.
  destruct (proj2 (pstep1_loc c st) cs) as [P|(r & cs' & EA & EB)].
  - left. cbv beta in P. destruct (pstep1 c st (A cs)) as [c' st' s'|h w st' ct s'|e s'] eqn:E; cbn [unp snd] in *; try exact P.
    unfold past in *. pose proof (M _ c' st' s' eq_refl). lia.
  - destruct (pstep1 c st (A cs)) as [c' st' s'|h w st' ct s'|e s'] eqn:E1, (pstep1 c st (B cs)) as [c2 st2 s2|h2 w2 st2 ct2 s2|e0 s2] eqn:E2;
      cbn [unp] in EA, EB; try congruence.
    + assert (s' = A cs') as -> by congruence. assert (s2 = B cs') as -> by congruence.
      assert (c2 = c' /\ st2 = st') as [-> ->] by (split; congruence).
      apply pstep1_go in E1. destruct E1 as [_ E1]. eapply IH; [|reflexivity]. lia.
    + right. exists r, cs'. cbn [unp]. split; congruence.
    + right. exists r, cs'. cbn [unp]. split; congruence.
Qed.
Definition res3 (p : pstep * option bytes_reader) : (pobs * option bytes_reader) * src :=
  let '(o, s) := unp (fst p) in ((o, snd p), s).
Lemma LocP_res f ct : LocP f -> Loc (fun s => res3 (f s, ct)).
Proof.
  intros F. eapply Loc_ext; [|exact (Loc_map (fun o => (o, ct)) _ F)]. intros s. unfold res3. cbn [fst snd].
  destruct (unp (f s)). reflexivity.
Qed.
Lemma after_loc st : LocP (fun s => let '(t, s) := tok s tokenLenMax in
               match t with
               | inr er => PStop er s
               | inl t => match close_paren t st s with
                          | PGo c st s => run_all c st s
                          | r => r
                          end
               end).
Proof.
  apply LocP_bind; [apply tok_loc|]. intros [t|?]; [|apply LocP_stop]. unfold close_paren.
  destruct (beq t _); [apply run_all_loc|apply LocP_stop].
Qed.
Lemma resume_loc g ct : Loc (fun s => res3 (resume g ct s)).
Proof.
  destruct g as [|[| |p] st| |]; cbn [resume].
  - apply LocP_res, run_all_loc.
  - destruct ct as [br|]; [|apply LocP_res, LocP_stop].
    eapply Loc_ext; [|refine (Loc_bind2 (br_close br) (fun e y s => res3 (match e with Some er => PStop er s | None => _ s end, Some y)) (br_close_loc br) _)].
    + intros s. cbv beta. destruct (br_close br s) as [e [y s']].
      instantiate (1 := fun s => let '(t, s) := tok s tokenLenMax in
               match t with
               | inr er => PStop er s
               | inl t => match close_paren t st s with
                          | PGo c st s => run_all c st s
                          | r => r
                          end
               end). reflexivity.
    + intros [er|] y; [apply (LocP_res (fun s => PStop er s)), LocP_stop|apply LocP_res, after_loc].
  - apply LocP_res, after_loc.
  - apply LocP_res, run_all_loc.
  - apply LocP_res, LocP_stop.
  - apply LocP_res, LocP_stop.
Qed.

(** * The Reader *)
(** A Reader without its source. *)
Definition core : Type := (gor * option error * bytes * option bytes_reader * bool)%type.
Definition core_of (r : rd) : core := (rd_gor r, rd_err r, rd_prev r, rd_content r, rd_closed r).
Definition with_src (k : core) (s : src) : rd :=
  let '(g, e, p, ct, cl) := k in RD s g e p ct cl.
Definition out_rd {R} (p : R * rd) : (R * core) * src := let '(r, d) := p in ((r, core_of d), rd_src d).
Lemma Next_loc k : Loc (fun s => out_rd (Next (with_src k s))).
Proof.
  destruct k as [[[[g e] p] ct] cl]. unfold Next, with_src. cbn [rd_err rd_closed rd_gor rd_content rd_src rd_prev].
  destruct e as [e|]; [apply (Loc_ret (Err e, (g, Some e, p, ct, cl)))|].
  destruct cl; [apply (Loc_ret (Panic "send on closed channel", (g, None, p, ct, true)))|].
  eapply Loc_ext; [|refine (Loc_bind _ (fun (ob : pobs * option bytes_reader) s => match fst ob with
      | OYield h w st content =>
            if PathIsLexicographicallyOrdered p (hd_path h)
            then ((Ok h, (GWait w st, None, hd_path h, content, false)), s)
            else ((Err (EMsg "received header in the wrong order"),
                  (GWait w st, Some (EMsg "received header in the wrong order"), p, content, false)), s)
      | OStop e => ((Err e, (GExit, Some e, p, snd ob, false)), s)
      | OGo _ _ => ((Panic "unreachable", (GExit, None, p, snd ob, false)), s) end) (resume_loc g ct) _)].
  - intros s. cbv beta. destruct (resume g ct s) as [[c' st' s'|h w st' ct' s'|e s'] b]; unfold res3; cbn [fst snd unp]; try reflexivity.
    destruct (PathIsLexicographicallyOrdered _ _); reflexivity.
  - intros [[c' st'|h w st' ct'|e] b]; cbn [fst snd]; try apply Loc_ret.
    destruct (PathIsLexicographicallyOrdered _ _); apply Loc_ret.
Qed.
Lemma Read_loc n k : (0 < n)%N -> Loc (fun s => out_rd (rd_Read n (with_src k s))).
Proof.
  intros Hn. destruct k as [[[[g e] p] ct] cl]. unfold rd_Read, with_src. cbn [rd_err rd_closed rd_gor rd_content rd_src rd_prev].
  destruct ct as [br|]; [|apply (Loc_ret (([], Some EEOF), (g, e, p, None, cl)))].
  eapply Loc_ext; [|exact (Loc_map (fun by' => (fst by', (g, e, p, Some (snd by'), cl))) _ (br_read_loc n br Hn))].
  intros s. cbv beta. destruct (br_read n br s) as [[b e'] [y s']]. reflexivity.
Qed.
Lemma Close_loc k : Loc (fun s => out_rd (rd_Close (with_src k s))).
Proof.
  destruct k as [[[[g e] p] ct] cl]. unfold rd_Close, with_src. cbn [rd_err rd_closed rd_gor rd_content rd_src rd_prev]. cbv zeta.
  assert (H : Loc (fun s => out_rd (if cl then (Panic "close of closed channel", RD s g e p ct cl) else
     (Ok tt,
         match g with
         | GFirst => RD s GExit e p ct true
         | GWait _ st =>
             match run_all CRet st s with
             | PYield _ _ _ c s' => RD s' GBlocked e p c true
             | PGo _ _ s' | PStop _ s' => RD s' GBlocked e p ct true
             end
         | g => RD s g e p ct true
         end)))).
  { destruct cl; [apply (Loc_ret (Panic "close of closed channel", (g, e, p, ct, true)))|].
    destruct g as [|w st| |].
    - apply (Loc_ret (Ok tt, (GExit, e, p, ct, true))).
    - eapply Loc_ext; [|exact (Loc_map (fun o => (Ok tt, (GBlocked, e, p, match o with OYield _ _ _ c => c | _ => ct end, true))) _ (run_all_loc CRet st))].
      intros s. cbv beta. destruct (run_all CRet st s); reflexivity.
    - apply (Loc_ret (Ok tt, (GExit, e, p, ct, true))).
    - apply (Loc_ret (Ok tt, (GBlocked, e, p, ct, true))). }
  destruct e as [[| | |]|]; [exact (Loc_ret (Ok tt, (g, Some EEOF, p, ct, cl)))| | | |];
    (eapply Loc_ext; [|exact H]; intros s; cbv beta; destruct cl; [reflexivity|destruct g as [|w st| |]; try reflexivity; destruct (run_all CRet st s); reflexivity]).
Qed.
Definition big (op : rd_op) : Prop := match op with ORead n => (0 < n)%N | _ => True end.
Lemma step_loc op k : big op -> Loc (fun s => out_rd (rd_step op (with_src k s))).
Proof.
  destruct op as [|n|]; intros Hb; cbn [rd_step].
  - eapply Loc_ext; [|exact (Loc_map (fun xk => (SNext (fst xk), snd xk)) _ (Next_loc k))].
    intros s. cbv beta. destruct (Next _). reflexivity.
  - eapply Loc_ext; [|exact (Loc_map (fun xk => (SRead (fst (fst xk)) (snd (fst xk)), snd xk)) _ (Read_loc n k Hb))].
    intros s. cbv beta. destruct (rd_Read n _) as [[b e] r]. reflexivity.
  - eapply Loc_ext; [|exact (Loc_map (fun xk => (SClosed (fst xk), snd xk)) _ (Close_loc k))].
    intros s. cbv beta. destruct (rd_Close _). reflexivity.
Qed.
Lemma core_eta r : with_src (core_of r) (rd_src r) = r.
Proof. destruct r. reflexivity. Qed.
Lemma rd_run_loc ops : Forall big ops -> forall k, Loc (fun s => out_rd (rd_run ops (with_src k s))).
Proof.
  induction 1 as [|op ops Hb _ IH]; intros k; cbn [rd_run].
  - eapply Loc_ext; [|exact (Loc_ret ([] : list rd_seen, k))]. intros s. destruct k as [[[[g e] p] ct] cl]. reflexivity.
  - eapply Loc_ext; [|refine (Loc_bind _ (fun xk s => let '((l, k2), s2) := out_rd (rd_run ops (with_src (snd xk) s)) in ((fst xk :: l, k2), s2)) (step_loc op k Hb) _)].
    + intros s. cbv beta. destruct (rd_step op _) as [x1 r1]. unfold out_rd at 2. cbn [fst snd]. rewrite core_eta.
      destruct (rd_run ops r1) as [l r2]. reflexivity.
    + intros [x1 k1]. cbn [fst snd]. eapply Loc_ext; [|exact (Loc_map (fun lk => (x1 :: fst lk, snd lk)) _ (IH k1))].
      intros s. cbv beta. destruct (out_rd _) as [[l k2] s2]. reflexivity.
Qed.
Lemma new_loc : Loc (fun s => let '(r, s') := NewReader s in (match r with Ok d => Ok (core_of d) | Err e => Err e | Panic m => Panic m end, s')).
Proof.
  eapply Loc_ext; [|exact (Loc_map (fun e => match e with Some EEOF => Err (EMsg "invalid nar version magic") | Some er => Err er | None => Ok (GFirst, None, [], None, false) end) _ (expect_loc narVersionMagic1))].
  intros s. cbv beta. unfold NewReader. destruct (expectString s _) as [[[| | |]|] s']; reflexivity.
Qed.
End Ahead.

Lemma big_all ops : (forall n, In (ORead n) ops -> (0 < n)%N) -> Forall big ops.
Proof. intros H. apply Forall_forall. intros [|n|] Hi; cbn [big]; auto. Qed.

Lemma ahead x xs e1 g1 ys e2 g2 gl (Hy : ys = [] -> g2 = false) (Hg : gl = true -> x <> []) cs r1 s1 ops l r1' :
  NewReader (A x xs e1 g1 gl cs) = (Ok r1, s1) -> Forall big ops -> rd_run ops r1 = (l, r1') ->
  src_size (A x xs e1 g1 gl []) <= src_size (rd_src r1') ->
  exists r2 s2 r2' cs', NewReader (B ys e2 g2 cs) = (Ok r2, s2) /\ rd_run ops r2 = (l, r2') /\
    rd_src r1' = A x xs e1 g1 gl cs' /\ rd_src r2' = B ys e2 g2 cs'.
Proof.
  intros HN Hb HR Hsz.
  pose proof (new_loc x xs e1 g1 ys e2 g2 Hy gl Hg) as [_ L]. specialize (L cs). cbv beta in L. rewrite HN in L.
  assert (Es : s1 = rd_src r1).
  { unfold NewReader in HN. destruct (expectString _ _) as [[[| | |]|] s']; try discriminate HN. injection HN as <- <-. reflexivity. }
  pose proof (rd_run_loc x xs e1 g1 ys e2 g2 Hy gl Hg ops Hb (core_of r1)) as [M' L']. cbv beta in M', L'.
  destruct L as [P|(r & cs1 & EA & EB)].
  { exfalso. unfold past in P. cbn [snd] in P. specialize (M' s1). rewrite Es, core_eta, HR in M'. cbn [out_rd snd] in M'. rewrite <- Es in M'. lia. }
  destruct (NewReader (B ys e2 g2 cs)) as [[r2|?|?] s2] eqn:E2; try congruence.
  assert (s2 = rd_src r2) as Es2.
  { unfold NewReader in E2. destruct (expectString _ _) as [[[| | |]|] s']; try discriminate E2. injection E2 as <- <-. reflexivity. }
  assert (core_of r1 = core_of r2) as Ec by congruence.
  assert (rd_src r1 = A x xs e1 g1 gl cs1) as F1 by congruence.
  assert (rd_src r2 = B ys e2 g2 cs1) as F2 by congruence.
  specialize (L' cs1). rewrite <- F1, core_eta, HR in L'. rewrite Ec, <- F2, core_eta in L'.
  destruct L' as [P|(k & cs2 & EA2 & EB2)]; [exfalso; unfold past in P; cbn [out_rd snd] in P; lia|].
  destruct (rd_run ops r2) as [l2 r2'] eqn:ER. cbn [out_rd] in EA2, EB2.
  exists r2, s2, r2', cs2. repeat split; try congruence.
Qed.

Lemma glue_false x xs cs : glue x xs false cs = cs ++ x :: xs.
Proof. induction cs as [|c [|d cs] IH]; [reflexivity|reflexivity|]. cbn [glue app] in *. rewrite IH. reflexivity. Qed.
Lemma glue_true x xs cs a : glue x xs true (cs ++ [a]) = cs ++ (a ++ x) :: xs.
Proof.
  induction cs as [|c cs IH]; [reflexivity|]. cbn [app]. rewrite glue_cons by (destruct cs; discriminate). rewrite IH. reflexivity.
Qed.
Lemma glue_length x xs cs : length (concat (glue x xs true cs)) = length (concat cs) + length (concat (x :: xs)).
Proof.
  induction cs as [|c [|d cs] IH]; [reflexivity| |].
  - cbn [glue concat]. rewrite !app_length. cbn [length]. lia.
  - rewrite glue_cons by discriminate. change (concat (c :: glue x xs true (d :: cs))) with (c ++ concat (glue x xs true (d :: cs))).
    change (concat (c :: d :: cs)) with (c ++ concat (d :: cs)). rewrite !app_length, IH. lia.
Qed.
