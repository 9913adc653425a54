(** Proofs for C82-C85. *)
From Verif Require Import Base.Bytes Base.BytesFacts Model.GoIO Model.GoStd Model.Wire Model.Nar Model.NarReader Model.NarWriter
  Model.Nixhash Model.Signature Model.NarInfo Model.NarDump
  Spec.WireSpec Spec.WireHist Spec.NarHist Spec.NarWHist Spec.HashSpec Spec.SignatureSpec Spec.NarInfoSpec Spec.NarDumpSpec Spec.NarSpec Spec.PipelineSpec
  Proof.WireFacts Proof.WireProps Proof.NarUtilProps Proof.NarPath Proof.NarReaderFacts Proof.NarSession Proof.NarWriterComplete.
Ltac Zify.zify_post_hook ::= idtac.

(** * The serialisation is a prefix code *)
Lemma app_len_inj {A} (a b r1 r2 : list A) : length a = length b -> a ++ r1 = b ++ r2 -> a = b /\ r1 = r2.
Proof.
  revert b. induction a as [|x a IH]; intros [|y b] L E; try discriminate L; [auto|]. cbn [app] in E. injection E as E1 E2.
  destruct (IH b) as (-> & ->); [cbn in L; lia|exact E2|]. subst. auto.
Qed.
Lemma field_inj a b r1 r2 : (lenN a < 2 ^ 64)%N -> (lenN b < 2 ^ 64)%N -> field a ++ r1 = field b ++ r2 -> a = b /\ r1 = r2.
Proof.
  intros La Lb E. unfold field in E. rewrite <- !app_assoc in E.
  apply app_len_inj in E; [|rewrite !le8_length; reflexivity]. destruct E as (E1 & E2).
  assert (L : lenN a = lenN b) by (rewrite <- (le_val_le8 (lenN a) La), <- (le_val_le8 (lenN b) Lb), E1; reflexivity).
  assert (L' : length a = length b) by (unfold lenN in L; lia).
  apply app_len_inj in E2; [|exact L']. destruct E2 as (-> & E2). apply app_len_inj in E2; [|reflexivity]. destruct E2 as (_ & ->). auto.
Qed.
Lemma str_inj (a b : string) r1 r2 : (lenN (bs a) < 2 ^ 64)%N -> (lenN (bs b) < 2 ^ 64)%N -> str a ++ r1 = str b ++ r2 -> bs a = bs b /\ r1 = r2.
Proof. exact (field_inj (bs a) (bs b) r1 r2). Qed.
Ltac tok H := first [apply app_inv_head in H | (apply str_inj in H; [|reflexivity|reflexivity]; exfalso; destruct H as (H & _); vm_compute in H; discriminate H)].
Lemma ser_inj t1 : forall t2 r1 r2, go_sized t1 -> go_sized t2 -> ser t1 ++ r1 = ser t2 ++ r2 -> t1 = t2 /\ r1 = r2.
Proof.
  induction t1 as [x1 c1|tg1|es1 IH] using node_ind2; intros t2 r1 r2 G1 G2 E.
  all: destruct t2 as [x2 c2|tg2|es2]; cbn [ser] in E; rewrite <- !app_assoc in E; do 2 apply app_inv_head in E; try tok E.
  - inversion G1; inversion G2; subst. destruct x1, x2; rewrite <- ?app_assoc in E; cbn [app] in E; try tok E.
    + tok E. tok E. apply field_inj in E; [|lia|lia]. destruct E as (-> & E). apply app_inv_head in E. auto.
    + apply field_inj in E; [|lia|lia]. destruct E as (-> & E). apply app_inv_head in E. auto.
  - inversion G1; inversion G2; subst. tok E. apply field_inj in E; [|lia|lia]. destruct E as (-> & E). apply app_inv_head in E. auto.
  - inversion G1 as [| |? N1 F1]; inversion G2 as [| |? N2 F2]; subst. clear G1 G2.
    enough (X : es1 = es2 /\ r1 = r2) by (destruct X as (-> & ->); auto).
    revert es2 N2 F2 E. induction IH as [|e1 es1 I1 _ IHe]; intros [|e2 es2] N2 F2 E; cbn [map concat app] in E.
    + apply app_inv_head in E. auto.
    + unfold entry_open in E. rewrite <- !app_assoc in E. tok E.
    + unfold entry_open in E. rewrite <- !app_assoc in E. tok E.
    + unfold entry_open in E. rewrite <- !app_assoc in E. do 3 apply app_inv_head in E.
      inversion N1; inversion F1; inversion N2; inversion F2; subst.
      apply field_inj in E; [|lia|lia]. destruct E as (En & E). apply app_inv_head in E.
      apply I1 in E; [|assumption|assumption]. destruct E as (Et & E). apply app_inv_head in E.
      destruct (IHe H2 H6 es2 H10 H14 E) as (-> & ->). destruct e1, e2. cbn [fst snd] in *. subst. auto.
Qed.
Lemma nar_inj t1 t2 : go_sized t1 -> go_sized t2 -> nar t1 = nar t2 -> t1 = t2.
Proof.
  intros G1 G2 E. unfold nar in E. apply app_inv_head in E.
  destruct (ser_inj t1 t2 [] [] G1 G2) as (H & _); [rewrite !app_nil_r; exact E|exact H].
Qed.

(** * Copying an archive *)
Lemma reads_of_all c ns l : reads_of c ns l -> In (Some EEOF) (map snd l) ->
  concat (map fst l) = c /\ Forall (fun p => (lenN (fst p) <= lenN c)%N) l.
Proof.
  induction 1 as [c|b c n ns l H1 H2 H IH|n ns l H IH]; cbn [map snd fst concat]; intros I.
  - destruct I.
  - destruct I as [I|I]; [discriminate|]. destruct (IH I) as (-> & F). split; [reflexivity|]. constructor; [cbn [fst]|].
    + unfold lenN. rewrite app_length. lia.
    + eapply Forall_impl; [|exact F]. intros p P. unfold lenN in *. rewrite app_length. lia.
  - assert (X : forall l, reads_of [] ns l -> concat (map fst l) = [] /\ Forall (fun p => (lenN (fst p) <= lenN (@nil byte))%N) l).
    { clear. induction ns as [|n ns IH]; intros l H; inversion H as [|b c n' ns' l' H1 H2 H3 E1 E2 E3|n' ns' l' H3]; subst; cbn [map concat fst].
      - auto.
      - apply app_eq_nil in E1. destruct E1 as (-> & ->). elim H2. reflexivity.
      - destruct (IH _ H3) as (-> & F). split; [reflexivity|]. constructor; [cbn; lia|exact F]. }
    destruct (X _ H) as (-> & F). split; [reflexivity|]. constructor; [cbn; lia|exact F].
Qed.
Lemma session_copy its plans o : session_of its plans o -> length its < length plans -> read_to_end o ->
  Forall (fun it => (lenN (snd it) < 2 ^ 63)%N) its -> history_of its (rewritten o).
Proof.
  induction 1 as [its|h c its ns plans l o R S IH|ns plans l o R S IH]; cbn [length]; intros L E F; unfold rewritten, read_to_end in *; cbn [map concat fst snd].
  - lia.
  - inversion E as [|? ? E1 E2]; inversion F as [|? ? F1 F2]; subst. cbn [app fst snd] in *. constructor; [|apply IH; auto; lia].
    destruct (reads_of_all _ _ _ R E1) as (A & B). cbn [fst snd]. split; [reflexivity|]. split; [exact A|].
    rewrite Forall_map. eapply Forall_impl; [|exact B]. intros p P. exact (N.le_lt_trans _ _ _ P F1).
  - inversion E; subst. cbn [app]. clear -S. assert (X : forall its plans o, session_of its plans o -> its = [] -> concat (map (fun p : res header * list (bytes * option error) => match fst p with Ok h => [(h, map fst (snd p))] | _ => [] end) o) = []).
    { induction 1 as [| |? ? ? ? R S' IH]; intros Q; try discriminate Q; [reflexivity|]. cbn [map concat fst app]. apply IH. reflexivity. }
    rewrite (X _ _ _ S eq_refl). constructor.
Qed.
Lemma items_sized X t : wf_tree X t -> forall cs, Forall (fun it => (lenN (snd it) < 2 ^ 63)%N) (items cs t).
Proof.
  induction t as [x c|tg|es IH] using node_ind2; intros W cs; inversion W as [| |? W1 W2 W3]; subst; cbn [items content_of]; constructor; cbn [snd]; try reflexivity; auto.
  clear W1 W2 W. induction IH as [|e es I _ IHe]; cbn [map concat]; [constructor|]. inversion W3; subst. apply Forall_app. split; auto.
Qed.
