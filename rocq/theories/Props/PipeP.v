(** Property C117: an archive can be read while it is being written. *)
From Verif Require Import Base.Bytes Base.BytesFacts Model.GoIO Model.GoStd Model.Wire Model.Nar
  Model.NarReader Model.NarWriter Spec.WireSpec Spec.NarSpec Spec.NarHist Spec.NarWHist Spec.NarBackSpec
  Proof.NarPipe.
Ltac Zify.zify_post_hook ::= idtac.

(** After any calls of WriteHeader and Write, all WriteHeaders successful and no Close: [c] are the bytes accepted
    since the last header [h], and [its] the headers before with their contents.  On a stream that begins with the
    bytes written so far, whatever comes behind them and however they arrive, the Reader reports [its] and [h] and
    gives out [c], and takes none of the bytes that come behind: not written yet, they are not missed. *)
Theorem C117_read_while_written : forall w0 r0 w hist res r1 its h c s more e plans,
  NewWriter w0 = (Ok r0, w) -> wsession hist r0 = (res, r1) -> Forall (fun x => fst x = WOk) res ->
  Forall (fun x => careful (fst x) /\ Forall (fun p => lenN p < 2 ^ 63)%N (snd x)) hist ->
  no_repeat (map (fun x => hd_path (fst x)) hist) ->
  Forall (fun x => within_limits (fst x)) hist ->
  log_of hist res = its ++ [(h, c)] ->
  out w0 ++ fst (flat s) = out (wr_sink r1) ++ more -> snd (flat s) = e -> length plans = length its ->
  exists rd0 s1 o rd1 rd2, NewReader s = (Ok rd0, s1) /\
    session plans rd0 = (o, rd1) /\ session_of its plans o /\
    Next rd1 = (Ok h, rd2) /\ flat (rd_src rd2) = (c ++ more, e) /\
    forall ns, Forall (fun n => 0 < n)%N ns -> (fold_right N.add 0 ns <= lenN c)%N -> more <> [] ->
      exists l rd3 c', rd_reads ns rd2 = (l, rd3) /\
        c = concat (map fst l) ++ c' /\ Forall (fun x => snd x = None) l /\ flat (rd_src rd3) = (c' ++ more, e).
Proof. exact pipe. Qed.
Print Assumptions C117_read_while_written.

(** In the middle of a file: root, a directory, a link and two of five bytes. *)
Definition unfinished : list (header * list bytes) :=
  [(hdr_of [] (Dir []), []); (hdr_of [bs "a"] (Dir []), []); (hdr_of [bs "a"; bs "l"] (Sym (bs "/etc")), []);
   (hdr_of [bs "b"] (Reg true (bs "hello")), [bs "h"; bs "e"])].
Example C117_nonvacuous : exists r0 w res r1 its, NewWriter (Sink [] []) = (Ok r0, w) /\ wsession unfinished r0 = (res, r1) /\
  Forall (fun x => fst x = WOk) res /\
  Forall (fun x => careful (fst x) /\ Forall (fun p => lenN p < 2 ^ 63)%N (snd x)) unfinished /\
  no_repeat (map (fun x => hd_path (fst x)) unfinished) /\
  Forall (fun x => within_limits (fst x)) unfinished /\
  log_of unfinished res = its ++ [(hdr_of [bs "b"] (Reg true (bs "hello")), bs "he")] /\ length its = 3.
Proof.
  eexists _, _, _, _, [(hdr_of [] (Dir []), []); (hdr_of [bs "a"] (Dir []), []); (hdr_of [bs "a"; bs "l"] (Sym (bs "/etc")), [])].
  split; [vm_compute; reflexivity|]. split; [vm_compute; reflexivity|]. split; [repeat constructor|].
  assert (A : forall n, forallb (fun b => negb (byte_eqb b "/"%byte) && negb (byte_eqb b x00)) n = true -> n <> [] -> n <> bs "." -> n <> bs ".." -> NarSpec.entry_name n).
  { intros n H H1 H2 H3. rewrite forallb_forall in H. repeat split; auto; intros I; specialize (H _ I); discriminate H. }
  assert (C : forall cs t, Forall NarSpec.entry_name cs -> ((0 <=? hd_size (hdr_of cs t)) && (hd_size (hdr_of cs t) <? 2 ^ 63))%Z = true -> careful (hdr_of cs t)).
  { intros cs t E S. apply andb_true_iff in S. destruct S as [S1 S2]. split; [exists cs; split; [exact E|destruct t; reflexivity]|].
    split; [|split; [apply Z.leb_le; exact S1|apply Z.ltb_lt; exact S2]]. unfold known_type. destruct t; cbn [hdr_of hd_type]; tauto. }
  assert (L : forall h, forallb (fun c => (length c <=? 255) && negb (beq c (bs ")"))) (split_byte (hd_path h) "/"%byte) = true -> (lenN (hd_target h) <=? 4095)%N = true -> within_limits h).
  { intros h H1 H2. split; [|apply N.leb_le; exact H2]. apply Forall_forall. intros c I. rewrite forallb_forall in H1. specialize (H1 c I).
    apply andb_true_iff in H1. destruct H1 as [H1 H3]. split; [apply Nat.leb_le; exact H1|]. intros ->. discriminate H3. }
  assert (Ea : NarSpec.entry_name (bs "a")) by (apply A; [reflexivity|discriminate..]).
  assert (El : NarSpec.entry_name (bs "l")) by (apply A; [reflexivity|discriminate..]).
  assert (Eb : NarSpec.entry_name (bs "b")) by (apply A; [reflexivity|discriminate..]).
  unfold unfinished. split.
  { repeat (apply Forall_cons || apply Forall_nil); cbn [fst snd]; (split; [apply C; [|vm_compute; reflexivity]|repeat constructor]).
    - exact (Forall_nil _).
    - exact (Forall_cons _ Ea (Forall_nil _)).
    - exact (Forall_cons _ Ea (Forall_cons _ El (Forall_nil _))).
    - exact (Forall_cons _ Eb (Forall_nil _)). }
  split; [cbn; repeat split; discriminate|]. split.
  { repeat (apply Forall_cons || apply Forall_nil); cbn [fst]; apply L; vm_compute; reflexivity. }
  split; reflexivity.
Qed.
