(** nar.DumpPath as a program that writes (C102). *)
From Verif Require Import Base.Bytes Base.BytesFacts Model.GoIO Model.GoStd Model.Wire Model.Nar Model.NarWriter Model.NarDump Model.Bufio.
Ltac Zify.zify_post_hook ::= idtac.

Definition reify {A} (F : sink -> A * sink) : Type := {c : client A | forall w, run c w = F w}.
Fixpoint cbind {A B} (c : client A) (f : A -> client B) : client B :=
  match c with CRet a => f a | CWrite p k => CWrite p (fun n e => cbind (k n e) f) end.
Lemma run_cbind {A B} (c : client A) (f : A -> client B) : forall w, run (cbind c f) w = let '(a, w') := run c w in run (f a) w'.
Proof. induction c as [a|p k IH]; intros w; cbn [cbind run]; [reflexivity|]. destruct (wwrite p w) as [[n e] w']. apply IH. Qed.
Definition r_ext {A} (F G : sink -> A * sink) : reify F -> (forall w, F w = G w) -> reify G.
Proof. intros [c H] E. exists c. intros w. rewrite H. apply E. Defined.
Definition r_ret {A} (a : A) : reify (fun w => (a, w)).
Proof. exists (CRet a). reflexivity. Defined.
Definition r_bind {A B} (F : sink -> A * sink) (G : A -> sink -> B * sink) :
  reify F -> (forall a, reify (G a)) -> reify (fun w => let '(a, w') := F w in G a w').
Proof.
  intros [c H] g. exists (cbind c (fun a => proj1_sig (g a))). intros w. rewrite run_cbind, H. destruct (F w) as [a w']. exact (proj2_sig (g a) w').
Defined.
Definition r_wwrite p : reify (fun w => let '(n, e, w') := wwrite p w in ((n, e), w')).
Proof. exists (CWrite p (fun n e => CRet (n, e))). intros w. cbn. destruct (wwrite p w) as [[n e] w']. reflexivity. Defined.
Definition r_wwrite_ p : reify (wwrite_ p).
Proof.
  eapply r_ext; [exact (r_bind _ (fun x w => (snd x, w)) (r_wwrite p) (fun x => r_ret (snd x)))|]. intros w. cbv beta. unfold wwrite_. destruct (wwrite p w) as [[n e] w']. reflexivity.
Defined.
Definition r_WriteUint64 n : reify (fun w => WriteUint64 w n) := r_wwrite_ (le64 n).
Definition r_padding n : reify (fun w => writePadding w n).
Proof. unfold writePadding. destruct (N.eqb (n mod 8) 0); [apply r_ret|apply r_wwrite_]. Defined.
(** Sequencing steps that may fail. *)
Definition seq2 (F G : sink -> option error * sink) (w : sink) : option error * sink :=
  let '(e, w) := F w in match e with Some er => (Some er, w) | None => G w end.
Definition r_seq2 F G : reify F -> reify G -> reify (seq2 F G).
Proof.
  intros f g. eapply r_ext; [exact (r_bind F (fun e w => match e with Some er => (Some er, w) | None => G w end) f (fun e => match e with Some er => r_ret (Some er) | None => g end))|].
  intros w. reflexivity.
Defined.
Definition r_WriteString s : reify (fun w => WriteString w s).
Proof.
  apply (r_ext (seq2 (fun w => WriteUint64 w (lenN s)) (seq2 (wwrite_ s) (fun w => writePadding w (lenN s))))); [|reflexivity].
  apply r_seq2; [apply r_WriteUint64|]. apply r_seq2; [apply r_wwrite_|apply r_padding].
Defined.
Definition r_WriteBytes s : reify (fun w => WriteBytes w s) := r_WriteString s.
Definition r_wstrs l : reify (wstrs l).
Proof.
  induction l as [|x l IH]; [apply r_ret|]. apply (r_ext (seq2 (fun w => WriteString w x) (wstrs l))); [|reflexivity]. apply r_seq2; [apply r_WriteString|exact IH].
Defined.
Definition r_NewBytesWriter n : reify (fun w => NewBytesWriter w n).
Proof.
  eapply r_ext; [exact (r_bind _ (fun e w => match e with Some er => (Err er, w) | None => (Ok (BW 0 n false), w) end) (r_WriteUint64 n)
    (fun e => match e with Some er => r_ret (Err er) | None => r_ret (Ok (BW 0 n false)) end))|]. intros w. reflexivity.
Defined.
(** Pulling the writer out of a result. *)
Definition swap2 {A B} (x : A * (B * sink)) : (A * B) * sink := let '(a, (b, w)) := x in ((a, b), w).
Definition orc {A} (F : sink -> option error * sink) (a : A) (G : sink -> (option error * A) * sink) (w : sink) : (option error * A) * sink :=
  let '(e, w) := F w in match e with Some er => ((Some er, a), w) | None => G w end.
Definition r_orc {A} F (a : A) G : reify F -> reify G -> reify (orc F a G).
Proof.
  intros f g. eapply r_ext; [exact (r_bind F (fun e w => match e with Some er => ((Some er, a), w) | None => G w end) f (fun e => match e with Some er => r_ret (Some er, a) | None => g end))|].
  intros w. reflexivity.
Defined.
Definition r_emit_head h cw : reify (fun w => swap2 (emit_head h cw w)).
Proof.
  unfold emit_head. destruct (beq (hd_type h) TypeRegular) eqn:ER.
  - eapply (r_ext (orc (wstrs [bs "("; bs "type"; hd_type h]) cw (orc (fun w => if hd_exec h then seq2 (fun w => WriteString w (bs "executable")) (fun w => WriteBytes w []) w else (None, w)) cw
      (orc (fun w => WriteString w (bs "contents")) cw (fun w => let '(r, w) := NewBytesWriter w (u64_of_Z (hd_size h)) in
         match r with Ok bw => ((None, CWMain bw), w) | Err er => ((Some er, CWNil), w) | Panic m => ((Some (EMsg m), CWNil), w) end))))).
    + apply r_orc; [apply r_wstrs|]. apply r_orc; [destruct (hd_exec h); [apply r_seq2; [apply r_WriteString|apply r_WriteBytes]|apply r_ret]|].
      apply r_orc; [apply r_WriteString|].
      refine (r_bind _ (fun r w => match r with Ok bw => ((None, CWMain bw), w) | Err er => ((Some er, CWNil), w) | Panic m => ((Some (EMsg m), CWNil), w) end) (r_NewBytesWriter _) _).
      intros [bw|er|m]; apply r_ret.
    + intros w. unfold orc. destruct (wstrs _ w) as [[e|] w1]; [reflexivity|].
      destruct (hd_exec h).
      * unfold seq2. destruct (WriteString w1 (bs "executable")) as [[e|] w2]; [reflexivity|]. destruct (WriteBytes w2 []) as [[e|] w3]; [reflexivity|].
        destruct (WriteString w3 (bs "contents")) as [[e|] w4]; [reflexivity|]. destruct (NewBytesWriter w4 _) as [[bw|er|m] w5]; reflexivity.
      * destruct (WriteString w1 (bs "contents")) as [[e|] w4]; [reflexivity|]. destruct (NewBytesWriter w4 _) as [[bw|er|m] w5]; reflexivity.
  - eapply (r_ext (orc (wstrs [bs "("; bs "type"; hd_type h]) cw (orc (fun w => if beq (hd_type h) TypeSymlink then wstrs [bs "target"; hd_target h] w else (None, w)) cw
      (fun w => (if beq (hd_type h) TypeSymlink || beq (hd_type h) TypeDirectory then match NewBytesWriter (Sink [] []) 0 with
      | (Ok bw, b) => (None, CWDummy bw b) | (_, _) => (Some (EMsg "unreachable"), cw) end else (None, cw), w))))).
    + apply r_orc; [apply r_wstrs|]. apply r_orc; [destruct (beq (hd_type h) TypeSymlink); [apply r_wstrs|apply r_ret]|apply r_ret].
    + intros w. unfold orc. destruct (wstrs [bs "("; bs "type"; hd_type h] w) as [[e|] w1]; [reflexivity|].
      destruct (beq (hd_type h) TypeSymlink); cbn [orb].
      * destruct (wstrs [bs "target"; hd_target h] w1) as [[e|] w2]; [reflexivity|]. destruct (NewBytesWriter (Sink [] []) 0) as [[bw|er|m] w5]; reflexivity.
      * destruct (beq (hd_type h) TypeDirectory); [|reflexivity]. destruct (NewBytesWriter (Sink [] []) 0) as [[bw|er|m] w5]; reflexivity.
Defined.
Definition r_cw_close cw : reify (fun w => swap2 (cw_close cw w)).
Proof.
  destruct cw as [|bw|bw b]; cbn [cw_close].
  - apply r_ret.
  - unfold bw_close. destruct (bw_padded bw); [apply r_ret|]. destruct (negb (N.eqb (bw_written bw) (bw_total bw))); [apply r_ret|].
    eapply r_ext; [exact (r_bind _ (fun e w => match e with Some er => ((Some (Some er), CWMain bw), w) | None => ((Some None, CWMain (BW (bw_written bw) (bw_total bw) true)), w) end) (r_padding (bw_total bw))
      (fun e => match e with Some er => r_ret (Some (Some er), CWMain bw) | None => r_ret (Some None, CWMain (BW (bw_written bw) (bw_total bw) true)) end))|].
    intros w. cbv beta. destruct (writePadding w (bw_total bw)) as [[e|] w']; reflexivity.
  - destruct (bw_close bw b) as [e [bw' b']]. apply r_ret.
Defined.
Definition handled_parts (x : handled) : (option error * wgor * cwriter) * sink :=
  match x with HErr e cw w => ((Some e, WGone, cw), w) | HWait cur up cw w => ((None, WWait cur up, cw), w) end.
Definition r_enter h cw name up : reify (fun w => handled_parts (let '(e, w) := wstrs [bs "entry"; bs "("; bs "name"; name; bs "node"] w in
      match e with Some er => HErr er cw w | None =>
      let '(e, (cw, w)) := emit_head h cw w in
      match e with Some er => HErr er cw w | None => HWait h up cw w end
      end)).
Proof.
  eapply r_ext; [refine (r_bind _ (fun e w => match e with Some er => ((Some er, WGone, cw), w) | None =>
        let '(x, w) := swap2 (emit_head h cw w) in ((fst x, match fst x with Some _ => WGone | None => WWait h up end, snd x), w) end) (r_wstrs [bs "entry"; bs "("; bs "name"; name; bs "node"]) _)|].
  - intros [er|]; [apply r_ret|].
    refine (r_bind _ (fun x w => ((fst x, match fst x with Some _ => WGone | None => WWait h up end, snd x), w)) (r_emit_head h cw) (fun x => r_ret _)).
  - intros w; cbv beta; destruct (wstrs _ w) as [[e|] w']; [reflexivity|]; destruct (emit_head h cw w') as [[e|] [cw' w'']]; reflexivity.
Defined.
Definition r_handle h : forall up cur cw, reify (fun w => handled_parts (handle cur up h cw w)).
Proof.
  induction up as [|p up IH]; intros cur cw; cbn [handle]; destruct (PathIsLexicographicallyOrdered (hd_path cur) (hd_path h)); cbn [negb]; try apply r_ret;
    destruct (goes_up (Rel_abs (hd_path cur) (hd_path h))) eqn:EG.
  1: { eapply r_ext; [exact (r_bind _ (fun e w => match e with Some er => ((Some er, WGone, cw), w) | None => ((Some (EMsg "additional header detected"), WGone, cw), w) end) (r_WriteString (bs ")"))
        (fun e => match e with Some er => r_ret (Some er, WGone, cw) | None => r_ret (Some (EMsg "additional header detected"), WGone, cw) end))|].
       intros w. cbv beta. destruct (WriteString w (bs ")")) as [[e|] w']; reflexivity. }
  2: { eapply r_ext; [exact (r_bind _ (fun e w => match e with Some er => ((Some er, WGone, cw), w) | None => handled_parts (handle p up h cw w) end) (r_seq2 _ _ (r_WriteString (bs ")")) (r_WriteString (bs ")")))
        (fun e => match e with Some er => r_ret (Some er, WGone, cw) | None => IH p cw end))|].
       intros w. cbv beta. unfold seq2. destruct (WriteString w (bs ")")) as [[e|] w']; [reflexivity|]. destruct (WriteString w' (bs ")")) as [[e|] w'']; reflexivity. }
  all: destruct (beq (hd_type cur) TypeDirectory); cbn [negb]; [|apply r_ret]; destruct (IsValidNodeName _); cbn [negb]; [apply r_enter|apply r_ret].
Defined.
Definition r_finish : forall up, reify (finish up).
Proof.
  induction up as [|p up IH]; cbn [finish].
  - eapply r_ext; [apply (r_WriteString (bs ")"))|]. intros w. cbv beta. destruct (WriteString w (bs ")")) as [[e|] w']; reflexivity.
  - apply (r_ext (seq2 (fun w => WriteString w (bs ")")) (seq2 (fun w => WriteString w (bs ")")) (finish up)))); [|reflexivity].
    apply r_seq2; [apply r_WriteString|]. apply r_seq2; [apply r_WriteString|exact IH].
Defined.
(** The writer without its output. *)
Definition wst : Type := wgor * cwriter * bool.
Definition mk (s : wst) (w : sink) : wr := WR w (fst (fst s)) (snd (fst s)) (snd s).
Definition unmk (r : wr) : wst * sink := ((wr_gor r, wr_cw r, wr_closed r), wr_sink r).
Definition part {A} (x : A * wr) : (A * wst) * sink := ((fst x, fst (unmk (snd x))), snd (unmk (snd x))).
Lemma mk_unmk r : mk (fst (unmk r)) (snd (unmk r)) = r.
Proof. destruct r; reflexivity. Qed.
Definition r_raw {A} (a : A) g cw cl : reify (fun w => part (a, WR w g cw cl)) := r_ret (a, (g, cw, cl)).
Ltac r_done := first [apply r_raw | apply r_ret].
Definition r_WriteHeader h s : reify (fun w => part (WriteHeader h (mk s w))).
Proof.
  destruct s as [[g cw] cl]. unfold WriteHeader, mk. cbn [fst snd wr_closed wr_gor wr_cw wr_sink].
  destruct (hd_Validate h) as [?|e|m]; [|r_done|r_done]. destruct cl; [r_done|]. destruct g as [|cur up|].
  - destruct (beq (hd_path h) (bs "/")); cbn [negb]; [|r_done].
    eapply r_ext; [exact (r_bind _ (fun x w => ((match fst x with Some er => WErr er | None => WOk end, (match fst x with Some _ => WGone | None => WWait h [] end, snd x, false)), w)) (r_emit_head h cw) (fun x => r_ret _))|].
    intros w. cbv beta. destruct (emit_head h cw w) as [[e|] [cw' w']]; reflexivity.
  - eapply r_ext; [apply (r_bind _ (fun x w => match fst x with
        | None => ((WPanic "nil contentWriter", (WWait cur up, cw, false)), w)
        | Some (Some er) => ((WErr er, (WGone, snd x, false)), w)
        | Some None => let '(y, w) := handled_parts (handle cur up h (snd x) w) in ((match fst (fst y) with Some er => WErr er | None => WOk end, (snd (fst y), snd y, false)), w)
        end) (r_cw_close cw)); intros [[[er|]|] cw']; cbn [fst snd];
      [r_done|refine (r_bind _ (fun y w => ((match fst (fst y) with Some er => WErr er | None => WOk end, (snd (fst y), snd y, false)), w)) (r_handle h up cur cw') (fun y => r_ret _))|r_done]|].
    intros w. cbv beta. destruct cw as [|bw|bw b]; cbn [cw_close].
    + reflexivity.
    + destruct (bw_close bw w) as [[e|] [bw' w']]; [reflexivity|]. cbn [swap2 fst snd]. destruct (handle cur up h (CWMain bw') w'); reflexivity.
    + destruct (bw_close bw b) as [[e|] [bw' w']]; [reflexivity|]. cbn [swap2 fst snd]. destruct (handle cur up h (CWDummy bw' w') w); reflexivity.
  - r_done.
Defined.
Definition r_Write b s : reify (fun w => part (wr_Write b (mk s w))).
Proof.
  destruct s as [[g cw] cl]. unfold wr_Write, mk. cbn [fst snd wr_closed wr_gor wr_cw wr_sink]. destruct cw as [|bw|bw buf].
  - r_done.
  - unfold bw_write. destruct (N.ltb _ _); [r_done|].
    eapply r_ext; [exact (r_bind _ (fun x w => (((fst x, match snd x with Some er => WErr er | None => WOk end), (g, CWMain (BW ((bw_written bw + N.of_nat (fst x)) mod 2 ^ 64) (bw_total bw) (bw_padded bw)), cl)), w)) (r_wwrite b) (fun x => r_ret _))|].
    intros w. cbv beta. destruct (wwrite b w) as [[n e] w']. reflexivity.
  - destruct (bw_write bw b buf) as [[n e] [bw' buf']]. r_done.
Defined.
Definition r_Close s : reify (fun w => part (wr_Close (mk s w))).
Proof.
  destruct s as [[g cw] cl]. unfold wr_Close, mk. cbn [fst snd wr_closed wr_gor wr_cw wr_sink]. destruct cl; [r_done|]. destruct g as [|cur up|]; [r_done| |r_done].
  eapply r_ext; [apply (r_bind _ (fun x w => match fst x with
        | None => ((WPanic "nil contentWriter", (WGone, cw, true)), w)
        | Some (Some er) => ((WErr er, (WGone, snd x, true)), w)
        | Some None => let '(e, w) := finish up w in ((match e with Some er => WErr er | None => WOk end, (WGone, snd x, true)), w)
        end) (r_cw_close cw)); intros [[[er|]|] cw']; cbn [fst snd];
      [r_done|refine (r_bind _ (fun e w => ((match e with Some er => WErr er | None => WOk end, (WGone, cw', true)), w)) (r_finish up) (fun y => r_ret _))|r_done]|].
  intros w. cbv beta. destruct cw as [|bw|bw b]; cbn [cw_close].
  - reflexivity.
  - destruct (bw_close bw w) as [[e|] [bw' w']]; [reflexivity|]. cbn [swap2 fst snd]. destruct (finish up w') as [e w'']. reflexivity.
  - destruct (bw_close bw b) as [[e|] [bw' w']]; [reflexivity|]. cbn [swap2 fst snd]. destruct (finish up w) as [e w'']. reflexivity.
Defined.
(** Sequencing on the writer. *)
Definition r_bindw {A B} (F : wst -> sink -> (A * wst) * sink) (G : A -> wr -> B * wr) s :
  reify (F s) -> (forall a s', reify (fun w => part (G a (mk s' w)))) ->
  reify (fun w => let '(x, w') := F s w in part (G (fst x) (mk (snd x) w'))).
Proof. intros f g. exact (r_bind (F s) (fun x w' => part (G (fst x) (mk (snd x) w'))) f (fun x => g (fst x) (snd x))). Defined.
Lemma part_bind {A B} (x : A * wr) (G : A -> wr -> B * wr) : (let '(y, w') := part x in part (G (fst y) (mk (snd y) w'))) = part (let '(a, r) := x in G a r).
Proof. destruct x as [a r]. unfold part. cbn [fst snd]. rewrite mk_unmk. reflexivity. Qed.
Definition r_then {A B} (F : wr -> A * wr) (G : A -> wr -> B * wr) s :
  reify (fun w => part (F (mk s w))) -> (forall a s', reify (fun w => part (G a (mk s' w)))) ->
  reify (fun w => part (let '(a, r) := F (mk s w) in G a r)).
Proof.
  intros f g. eapply r_ext; [exact (r_bindw (fun s w => part (F (mk s w))) G s f g)|]. intros w. cbv beta. apply part_bind.
Defined.
Definition r_part {A} (a : A) s : reify (fun w => part (a, mk s w)).
Proof. eapply r_ext; [exact (r_ret (a, s))|]. intros w. destruct s as [[g cw] cl]. reflexivity. Defined.
Definition r_io_copy : forall fuel data written s, reify (fun w => part (io_copy fuel data written (mk s w))).
Proof.
  induction fuel as [|fuel IH]; intros data written s; cbn [io_copy]; [apply r_part|].
  destruct (src_read 32768%N data) as [[b e] s'].
  set (K := fun (x : wres * Z) r => match fst x with
      | WOk => match e with None => io_copy fuel s' (snd x) r | Some EEOF => ((snd x, WOk), r) | Some er => ((snd x, WErr er), r) end
      | _ => ((snd x, fst x), r) end).
  assert (RK : forall x s', reify (fun w => part (K x (mk s' w)))).
  { intros [x z] s2. unfold K. cbn [fst snd]. destruct x; try apply r_part. destruct e as [[| | |]|]; try apply r_part. apply IH. }
  destruct b as [|b0 b]; [exact (RK (WOk, written) s)|].
  eapply r_ext; [refine (r_then (wr_Write (b0 :: b)) (fun nx r => K (match snd nx with WOk => if Nat.eqb (fst nx) (length (b0 :: b)) then WOk else WErr (EMsg "short write") | _ => snd nx end, (written + Z.of_nat (fst nx))%Z) r) s (r_Write _ s) _)|].
  - intros nx s2. apply RK.
  - intros w. cbv beta. destruct (wr_Write (b0 :: b) (mk s w)) as [[n x] r]. reflexivity.
Defined.
Section Dump.
Variable filter : option (bytes -> bytes -> bool).
Variable path : bytes.
Fixpoint r_dumpPath (f : fs) {struct f} : forall sub s, reify (fun w => part (dumpPath filter path f sub (mk s w))).
Proof.
  intros sub s. destruct f as [mode size data|mode size e|target|e|es|e| |e]; cbn [dumpPath]; destruct (rejected filter path sub _); try apply r_part.
  - eapply r_ext; [refine (r_then (WriteHeader (Header sub TypeRegular [] size (negb (N.eqb (N.land mode S_IXUSR) 0)))) (fun x r => match x with
        | WOk => let '((n, x), r) := io_copy (S (src_size data)) data 0 r in
            (match x with WOk => if Z.eqb n size then WOk else WErr (EMsg "unexpected number of bytes") | _ => x end, r)
        | _ => (x, r) end) s (r_WriteHeader _ s) _)|intros w; reflexivity].
    intros x s'. destruct x; try apply r_part.
    eapply r_ext; [exact (r_then (fun r => io_copy (S (src_size data)) data 0 r) (fun nx r => (match snd nx with WOk => if Z.eqb (fst nx) size then WOk else WErr (EMsg "unexpected number of bytes") | _ => snd nx end, r)) s' (r_io_copy _ _ _ s') (fun nx s2 => r_part _ s2))|].
    intros w. cbv beta. destruct (io_copy (S (src_size data)) data 0 (mk s' w)) as [[n x] r]. reflexivity.
  - eapply r_ext; [exact (r_then (WriteHeader (Header sub TypeRegular [] size (negb (N.eqb (N.land mode S_IXUSR) 0)))) (fun x r => (match x with WOk => WErr e | _ => x end, r)) s (r_WriteHeader _ s) (fun x s2 => r_part _ s2))|intros w; reflexivity].
  - apply r_WriteHeader.
  - eapply r_ext; [refine (r_then (WriteHeader (Header sub TypeDirectory [] 0 false)) (fun x r => match x with
        | WOk => (fix loop (es : list (bytes * fs)) (r : wr) : wres * wr :=
               match es with
               | [] => (WOk, r)
               | (name, c) :: es' =>
                   let '(x, r) := dumpPath filter path c (Join2 sub name) r in
                   match x with WOk => loop es' r | _ => (x, r) end
               end) es r
        | _ => (x, r) end) s (r_WriteHeader _ s) _)|intros w; reflexivity].
    intros x s'. destruct x; try apply r_part. clear s. revert s'.
    induction es as [|[name c] es IH]; intros s; [apply r_part|].
    refine (r_then (dumpPath filter path c (Join2 sub name)) (fun x r => match x with WOk => _ r | _ => (x, r) end) s (r_dumpPath c (Join2 sub name) s) _).
    intros x s2. destruct x; try apply r_part. apply IH.
  - eapply r_ext; [exact (r_then (WriteHeader (Header sub TypeDirectory [] 0 false)) (fun x r => (match x with WOk => WErr e | _ => x end, r)) s (r_WriteHeader _ s) (fun x s2 => r_part _ s2))|intros w; reflexivity].
Defined.
Definition dump_end (x : wres) (r : wr) : wres * wr :=
  match x with
  | WOk => let '(x, r) := wr_Close r in (x, r)
  | WPanic _ | WBlocked => (x, r)
  | WErr _ => let '(_, r) := wr_Close r in (x, r)
  end.
Definition dump_all (f : fs) (w : sink) : (wres * wst) * sink :=
  part (let '(x, r) := dumpPath filter path f (bs "/") (mk (WFirst, CWNil, false) w) in dump_end x r).
Definition r_dump_all f : reify (dump_all f).
Proof.
  refine (r_then (dumpPath filter path f (bs "/")) dump_end _ (r_dumpPath f _ _) _).
  intros x s. destruct x; try apply r_part.
  - eapply r_ext; [apply (r_Close s)|]. intros w. cbv beta. unfold dump_end. destruct (wr_Close (mk s w)); reflexivity.
  - exact (r_then wr_Close (fun _ r => (WErr e, r)) s (r_Close s) (fun _ s2 => r_part _ s2)).
Defined.
Definition r_dump (f : fs) : reify (fun w => DumpPathFilter filter path w f).
Proof.
  apply (r_ext (fun w => let '(e, w) := WriteString w narVersionMagic1 in
    match e with Some er => (WErr er, w) | None => let '(y, w') := dump_all f w in (fst y, w') end)).
  - refine (r_bind _ (fun e w => match e with Some er => (WErr er, w) | None => let '(y, w') := dump_all f w in (fst y, w') end) (r_WriteString narVersionMagic1) _).
    intros [er|]; [apply r_ret|]. exact (r_bind _ (fun y w => (fst y, w)) (r_dump_all f) (fun y => r_ret _)).
  - intros w. unfold DumpPathFilter, NewWriter, dump_all. destruct (WriteString w narVersionMagic1) as [[e|] w']; [reflexivity|].
    change (WR w' WFirst CWNil false) with (mk (WFirst, CWNil, false) w'). destruct (dumpPath filter path f (bs "/") (mk (WFirst, CWNil, false) w')) as [[|e|m|] r]; try reflexivity.
    + unfold dump_end. destruct (wr_Close r) as [x r']. reflexivity.
    + unfold dump_end. destruct (wr_Close r) as [x r']. reflexivity.
Defined.
End Dump.
