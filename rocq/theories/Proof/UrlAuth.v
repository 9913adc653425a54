(** What net/url prints for the authority of a URL it has parsed is parsed again, with the same result (C101). *)
From Verif Require Import Base.Bytes Base.BytesFacts Model.GoStd Model.GoUrl Model.GoUrlAuth Spec.UrlSpec Proof.UrlProps Proof.UrlRequest.
Ltac Zify.zify_post_hook ::= idtac.

(** * One character *)
Definition esc1 (should : byte -> bool) (c : byte) : bytes :=
  if should c then [percent; upper_hex (b2n c / 16); upper_hex (b2n c mod 16)] else [c].
(** What decoding can give. *)
Definition okb (zone : bool) (c : byte) : bool :=
  negb (host_escape c) || byte_eqb c percent || (if zone then byte_eqb c " "%byte else (128 <=? b2n c)%N).
Lemma escape_cons f c s : escape_with f (c :: s) = esc1 f c ++ escape_with f s.
Proof. reflexivity. Qed.
Lemma escape_app f a b : escape_with f (a ++ b) = escape_with f a ++ escape_with f b.
Proof. unfold escape_with. rewrite map_app, concat_app. reflexivity. Qed.
Lemma unescape_step z c s : okb z c = true -> unescape_host z (esc1 host_escape c ++ s) = let* r := unescape_host z s in Ok (c :: r).
Proof. destruct z, c; intros H; first [discriminate H|reflexivity]. Qed.
Lemma unescape_escaped z r s : forallb (okb z) r = true -> unescape_host z (escape_with host_escape r ++ s) = let* x := unescape_host z s in Ok (r ++ x).
Proof.
  induction r as [|c r IH]; intros H; [cbn; destruct (unescape_host z s); reflexivity|]. cbn [forallb] in H. apply andb_true_iff in H. destruct H as [H1 H2].
  rewrite escape_cons, <- app_assoc, unescape_step, IH by assumption. destruct (unescape_host z s); reflexivity.
Qed.
Lemma unescape_escaped_all z r : forallb (okb z) r = true -> unescape_host z (escape_with host_escape r) = Ok r.
Proof. intros H. rewrite <- (app_nil_r (escape_with host_escape r)), unescape_escaped by exact H. cbn [unescape_host rbind]. rewrite app_nil_r. reflexivity. Qed.

(** * Characters that stay *)
Definition stays (c : byte) : bool := negb (host_escape c).
Lemma escape_stays s : forallb stays s = true -> escape_with host_escape s = s.
Proof.
  induction s as [|c s IH]; [reflexivity|]. cbn [forallb]. intros H. apply andb_true_iff in H. destruct H as [H1 H2]. rewrite escape_cons, IH by exact H2.
  unfold esc1. unfold stays in H1. destruct (host_escape c); [discriminate|reflexivity].
Qed.
Lemma stays_okb z c : stays c = true -> okb z c = true.
Proof. unfold stays, okb. intros ->. reflexivity. Qed.
Lemma stays_all_okb z s : forallb stays s = true -> forallb (okb z) s = true.
Proof. rewrite !forallb_forall. intros H x X. apply stays_okb. auto. Qed.
Lemma unescape_stays z s : forallb stays s = true -> unescape_host z s = Ok s.
Proof. intros H. rewrite <- (escape_stays s H) at 1. apply unescape_escaped_all. apply stays_all_okb. exact H. Qed.
Lemma digits_stay s : all_digits s = true -> forallb stays s = true /\ ~ In ":"%byte s /\ ~ In "]"%byte s.
Proof.
  unfold all_digits. rewrite !forallb_forall. intros H. split; [|split].
  - intros c X. specialize (H c X). destruct c; first [discriminate H|reflexivity].
  - intros X. specialize (H _ X). discriminate H.
  - intros X. specialize (H _ X). discriminate H.
Qed.

(** * What decoding gives *)
Lemma unescape_cons z c s : c <> percent -> unescape_host z (c :: s) = if (b2n c <? 128)%N && host_escape c then Err (EMsg "invalid character in host name") else let* r := unescape_host z s in Ok (c :: r).
Proof. intros H. cbn [unescape_host]. apply byte_eqb_neq in H. rewrite H. reflexivity. Qed.
Lemma hex_v_high h1 h2 a b : hex_val h1 = Some a -> hex_val h2 = Some b -> (8 <= a)%N -> (128 <= b2n (n2b (16 * a + b)))%N.
Proof.
  intros H1 H2 Ha. assert (a <= 15 /\ b <= 15)%N as [A B].
  { split; [clear - H1; destruct h1; first [discriminate H1|injection H1 as <-; vm_compute; discriminate]|clear - H2; destruct h2; first [discriminate H2|injection H2 as <-; vm_compute; discriminate]]. }
  rewrite b2n_n2b; lia.
Qed.
Lemma unescape_gives_aux n : forall z s r, length s <= n -> unescape_host z s = Ok r -> (z = true -> Forall (fun c => (b2n c < 128)%N) s) -> forallb (okb z) r = true.
Proof.
  induction n as [|n IH]; intros z s r L H A; (destruct s as [|c s]; [injection H as <-; reflexivity|]); cbn [length] in L; [lia|].
  destruct (byte_eqb_spec c percent) as [->|NC].
  - cbn [unescape_host] in H. change (byte_eqb percent percent) with true in H. cbv iota in H.
    destruct s as [|h1 [|h2 s]]; try discriminate. cbn [length] in L. destruct (hex_val h1) as [a|] eqn:E1; [|discriminate]. destruct (hex_val h2) as [b|] eqn:E2; [|discriminate].
    cbv zeta in H. destruct (if z then _ else _) eqn:EV in H; [discriminate|]. destruct (unescape_host z s) as [r'|e|w] eqn:EU; try discriminate. cbn [rbind] in H. injection H as <-.
    cbn [forallb]. apply andb_true_iff. split.
    2:{ apply (IH z s r'); [lia|exact EU|]. intros Z. specialize (A Z). do 3 (apply Forall_inv_tail in A). exact A. }
    destruct (beq_spec [h1; h2] (bs "25")) as [E25|_].
    { injection E25 as -> ->. vm_compute in E1, E2. injection E1 as <-. injection E2 as <-. destruct z; reflexivity. }
    cbn [negb andb] in EV. unfold okb. destruct z.
    + destruct (byte_eqb (n2b (16 * a + b)) " "%byte); [rewrite orb_true_r; reflexivity|]. cbn [negb andb] in EV. rewrite EV. reflexivity.
    + rewrite andb_true_r in EV. apply N.ltb_ge in EV. pose proof (hex_v_high _ _ _ _ E1 E2 EV) as V. apply N.leb_le in V. rewrite V, !orb_true_r. reflexivity.
  - rewrite unescape_cons in H by exact NC. destruct (_ && _) eqn:EC in H; [discriminate|]. destruct (unescape_host z s) as [r'|e|w] eqn:EU; try discriminate. cbn [rbind] in H. injection H as <-.
    cbn [forallb]. apply andb_true_iff. split; [|apply (IH z s r'); [lia|exact EU|intros Z; specialize (A Z); inversion A; assumption]].
    unfold okb. destruct (host_escape c) eqn:EH; [|reflexivity]. cbn [negb orb]. rewrite andb_true_r in EC. apply N.ltb_ge in EC. destruct z.
    + specialize (A eq_refl). apply Forall_inv in A. lia.
    + apply N.leb_le in EC. rewrite EC. apply orb_true_r.
Qed.
Lemma unescape_gives z s r : unescape_host z s = Ok r -> (z = true -> Forall (fun c => (b2n c < 128)%N) s) -> forallb (okb z) r = true.
Proof. apply (unescape_gives_aux (length s)). lia. Qed.
Lemma index_sub_tail x s : index_sub (x :: s) (bs "%25") = None -> index_sub s (bs "%25") = None.
Proof. cbn [index_sub]. destruct (has_prefix _ _); [discriminate|]. destruct (index_sub s (bs "%25")); [discriminate|auto]. Qed.
Lemma no_percent_aux n : forall s r, length s <= n -> unescape_host false s = Ok r -> index_sub s (bs "%25") = None -> ~ In percent r.
Proof.
  induction n as [|n IH]; intros s r L H A; (destruct s as [|c s]; [injection H as <-; intros []|]); cbn [length] in L; [lia|].
  destruct (byte_eqb_spec c percent) as [->|NC].
  - cbn [unescape_host] in H. change (byte_eqb percent percent) with true in H. cbv iota in H.
    destruct s as [|h1 [|h2 s]]; try discriminate. cbn [length] in L. destruct (hex_val h1) as [a|] eqn:E1; [|discriminate]. destruct (hex_val h2) as [b|] eqn:E2; [|discriminate].
    cbv zeta in H. destruct (_ && _) eqn:EV in H; [discriminate|]. destruct (unescape_host false s) as [r'|e|w] eqn:EU; try discriminate. cbn [rbind] in H. injection H as <-.
    intros [X|X].
    2:{ revert X. apply (IH s r'); [lia|exact EU|]. do 3 (apply index_sub_tail in A). exact A. }
    destruct (beq_spec [h1; h2] (bs "25")) as [E25|_].
    { injection E25 as -> ->. cbn [index_sub] in A. change (percent :: "2"%byte :: "5"%byte :: s) with (bs "%25" ++ s) in A. rewrite has_prefix_app in A. discriminate A. }
    cbn [negb] in EV. rewrite andb_true_r in EV. apply N.ltb_ge in EV. pose proof (hex_v_high _ _ _ _ E1 E2 EV) as V. rewrite X in V. vm_compute in V. congruence.
  - rewrite unescape_cons in H by exact NC. destruct (_ && _) eqn:EC in H; [discriminate|]. destruct (unescape_host false s) as [r'|e|w] eqn:EU; try discriminate. cbn [rbind] in H. injection H as <-.
    intros [X|X]; [congruence|]. revert X. apply (IH s r'); [lia|exact EU|]. apply index_sub_tail in A. exact A.
Qed.
Lemma no_percent s r : unescape_host false s = Ok r -> index_sub s (bs "%25") = None -> ~ In percent r.
Proof. apply (no_percent_aux (length s)). lia. Qed.

(** Decoding treats the parts around a character that is not a hexadecimal digit separately. *)
Lemma unescape_split_aux n : forall z p c q r, length p <= n -> unescape_host z (p ++ c :: q) = Ok r -> c <> percent -> hex_val c = None ->
  exists r1 r2, unescape_host z p = Ok r1 /\ unescape_host z q = Ok r2 /\ r = r1 ++ c :: r2.
Proof.
  induction n as [|n IH]; intros z p c q r L H NC HX; (destruct p as [|x p]; cbn [length] in L; [clear L|]); try lia.
  1,2: cbn [app] in H; rewrite unescape_cons in H by exact NC; destruct (_ && _) in H; [discriminate|]; destruct (unescape_host z q) as [r'|e|w] eqn:EU; try discriminate; cbn [rbind] in H; injection H as <-;
    exists [], r'; auto.
  cbn [app] in H. destruct (byte_eqb_spec x percent) as [->|NX].
  - cbn [unescape_host] in H |- *. change (byte_eqb percent percent) with true in H |- *. cbv iota in H |- *.
    destruct p as [|h1 p]; cbn [app] in H.
    { destruct q as [|h2 q]; [discriminate|]. rewrite HX in H. discriminate. }
    destruct p as [|h2 p]; cbn [app] in H.
    { rewrite HX in H. destruct (hex_val h1); discriminate. }
    destruct (hex_val h1) as [a|]; [|discriminate]. destruct (hex_val h2) as [b|]; [|discriminate]. cbv zeta in H |- *. destruct (if z then _ else _); [discriminate|].
    cbn [length] in L. destruct (unescape_host z (p ++ c :: q)) as [r'|e|w] eqn:EU; try discriminate. cbn [rbind] in H. injection H as <-.
    destruct (IH z p c q r' ltac:(lia) EU NC HX) as (r1 & r2 & -> & E2 & ->). cbn [rbind]. eexists. eexists. split; [reflexivity|]. split; [exact E2|reflexivity].
  - rewrite unescape_cons in H by exact NX. rewrite unescape_cons by exact NX. destruct (_ && _); [discriminate|].
    destruct (unescape_host z (p ++ c :: q)) as [r'|e|w] eqn:EU; try discriminate. cbn [rbind] in H. injection H as <-.
    destruct (IH z p c q r' ltac:(lia) EU NC HX) as (r1 & r2 & -> & E2 & ->). cbn [rbind]. eexists. eexists. split; [reflexivity|]. split; [exact E2|reflexivity].
Qed.
Lemma unescape_split z p c q r : unescape_host z (p ++ c :: q) = Ok r -> c <> percent -> hex_val c = None ->
  exists r1 r2, unescape_host z p = Ok r1 /\ unescape_host z q = Ok r2 /\ r = r1 ++ c :: r2.
Proof. apply (unescape_split_aux (length p)). lia. Qed.

(** * The first %25 *)
Lemma index_skip x s : has_prefix (x :: s) (bs "%25") = false -> index_sub (x :: s) (bs "%25") = match index_sub s (bs "%25") with Some i => Some (S i) | None => None end.
Proof. intros H. cbn [index_sub]. rewrite H. reflexivity. Qed.
Lemma esc1_shape c : okb false c = true -> c <> percent -> esc1 host_escape c = [c] \/ exists h l, esc1 host_escape c = [percent; h; l] /\ h <> "2"%byte /\ h <> percent /\ l <> percent.
Proof.
  unfold esc1, okb. intros H N. apply byte_eqb_neq in N. rewrite N, orb_false_r in H. destruct (host_escape c); [|auto]. cbn [negb orb] in H. right.
  exists (upper_hex (b2n c / 16)), (upper_hex (b2n c mod 16)). split; [reflexivity|]. clear N. destruct c; try discriminate H; (split; [|split]); vm_compute; discriminate.
Qed.
Lemma index_step c s : okb false c = true -> c <> percent -> index_sub (esc1 host_escape c ++ s) (bs "%25") = match index_sub s (bs "%25") with Some i => Some (length (esc1 host_escape c) + i) | None => None end.
Proof.
  intros H N. assert (NP : forall x t, x <> percent -> has_prefix (x :: t) (bs "%25") = false).
  { intros x t X. destruct (has_prefix (x :: t) (bs "%25")) eqn:E; [|reflexivity]. apply has_prefix_iff in E. destruct E as (r & E). injection E as E _. contradiction. }
  destruct (esc1_shape c H N) as [->|(h & l & -> & H1 & H2 & H3)]; cbn [app length].
  - rewrite index_skip by (apply NP; exact N). reflexivity.
  - rewrite index_skip.
    + rewrite !index_skip by (apply NP; assumption). destruct (index_sub s (bs "%25")); reflexivity.
    + destruct (has_prefix (percent :: h :: l :: s) (bs "%25")) eqn:E; [|reflexivity]. apply has_prefix_iff in E. destruct E as (r & E). injection E as E _. contradiction.
Qed.
Lemma index_escaped h s : forallb (okb false) h = true -> ~ In percent h -> index_sub (escape_with host_escape h ++ s) (bs "%25") = match index_sub s (bs "%25") with Some i => Some (length (escape_with host_escape h) + i) | None => None end.
Proof.
  induction h as [|c h IH]; intros H N; [change (escape_with host_escape []) with (@nil byte); cbn [app length Nat.add]; destruct (index_sub s (bs "%25")); reflexivity|]. cbn [forallb] in H. apply andb_true_iff in H. destruct H as [H1 H2].
  rewrite escape_cons, <- app_assoc, index_step, IH; [|exact H2|intros X; apply N; right; exact X|exact H1|intros ->; apply N; left; reflexivity].
  rewrite app_length. destruct (index_sub s (bs "%25")); [f_equal; lia|reflexivity].
Qed.
Lemma first_index s z : index_sub s (bs "%25") = Some z -> index_sub (firstn z s) (bs "%25") = None /\ exists r, skipn z s = bs "%25" ++ r.
Proof.
  revert z. induction s as [|x s IH]; intros z H; [discriminate H|]. cbn [index_sub] in H. destruct (has_prefix (x :: s) (bs "%25")) eqn:E.
  - injection H as <-. split; [reflexivity|]. apply has_prefix_iff in E. exact E.
  - destruct (index_sub s (bs "%25")) as [k|] eqn:EK; [|discriminate]. injection H as <-. destruct (IH k eq_refl) as [I1 I2]. split; [|exact I2].
    cbn [firstn]. cbn [index_sub]. rewrite I1. destruct (has_prefix (x :: firstn k s) (bs "%25")) eqn:EP; [|reflexivity].
    apply has_prefix_iff in EP. destruct EP as (r & EP). assert (W : x :: s = bs "%25" ++ r ++ skipn k s).
    { rewrite app_assoc, <- EP. cbn [app]. rewrite firstn_skipn. reflexivity. }
    rewrite W, has_prefix_app in E. discriminate.
Qed.

(** * The last of a kind *)
Lemma last_split_none s c : ~ In c s -> last_split s c = None.
Proof.
  induction s as [|x s IH]; intros H; [reflexivity|]. cbn [last_split]. rewrite IH by (intros X; apply H; right; exact X).
  destruct (byte_eqb_spec x c) as [->|_]; [elim H; left; reflexivity|reflexivity].
Qed.
Lemma last_split_app p c q : ~ In c q -> last_split (p ++ c :: q) c = Some (p, q).
Proof.
  intros H. induction p as [|x p IH]; cbn [app last_split]; [rewrite last_split_none by exact H; rewrite byte_eqb_refl; reflexivity|]. rewrite IH. reflexivity.
Qed.
Lemma last_split_inv s c : match last_split s c with Some (p, q) => s = p ++ c :: q /\ ~ In c q | None => ~ In c s end.
Proof.
  induction s as [|x s IH]; [intros []|]. cbn [last_split]. destruct (last_split s c) as [[p q]|].
  - destruct IH as [-> IH]. auto.
  - destruct (byte_eqb_spec x c) as [->|N]; [auto|]. intros [X|X]; auto.
Qed.

(** * Hosts *)
Definition bracketed (h : bytes) : Prop := exists x port, h = "["%byte :: x ++ "]"%byte :: port /\ validOptionalPort port = true /\
  forallb (okb false) x = true /\ ~ In percent x.
Definition zoned (h : bytes) : Prop := exists h1 h2 port, h = "["%byte :: h1 ++ percent :: h2 ++ "]"%byte :: port /\ validOptionalPort port = true /\
  forallb (okb false) h1 = true /\ ~ In percent h1 /\ forallb (okb true) h2 = true.
Definition named (h : bytes) : Prop := has_prefix h (bs "[") = false /\ forallb (okb false) h = true /\
  (~ In ":"%byte h \/ exists n port, h = n ++ ":"%byte :: port /\ all_digits port = true).
Lemma port_stays port : validOptionalPort port = true -> forallb stays port = true /\ ~ In "]"%byte port.
Proof.
  destruct port as [|c s]; [split; [reflexivity|intros []]|]. cbn [validOptionalPort]. intros H. apply andb_true_iff in H. destruct H as [H1 H2]. apply byte_eqb_eq in H1. subst c.
  destruct (digits_stay s H2) as (D1 & D2 & D3). split; [cbn [forallb]; rewrite D1; reflexivity|]. intros [X|X]; [discriminate X|auto].
Qed.
Lemma port_unescape z port : validOptionalPort port = true -> unescape_host z ("]"%byte :: port) = Ok ("]"%byte :: port).
Proof. intros H. apply unescape_stays. cbn [forallb]. destruct (port_stays _ H) as [-> _]. reflexivity. Qed.
Lemma port_escape port : validOptionalPort port = true -> escape_with host_escape ("]"%byte :: port) = "]"%byte :: port.
Proof. intros H. apply escape_stays. cbn [forallb]. destruct (port_stays _ H) as [-> _]. reflexivity. Qed.
Lemma parseHost_gives a h : parseHost a = Ok h -> has_prefix a (bs "[") = false \/ Forall (fun c => (b2n c < 128)%N) a ->
  (has_prefix a (bs "[") = true /\ (bracketed h \/ zoned h)) \/ (has_prefix a (bs "[") = false /\ named h).
Proof.
  unfold parseHost. intros H A. destruct (has_prefix a (bs "[")) eqn:EB.
  - left. split; [reflexivity|]. destruct A as [A|A]; [discriminate|].
    pose proof (last_split_inv a "]"%byte) as L. destruct (last_split a "]"%byte) as [[x port]|]; [|discriminate]. destruct L as [-> L].
    destruct (validOptionalPort port) eqn:EP; [|discriminate]. cbn [negb] in H.
    assert (X : exists x', x = "["%byte :: x').
    { destruct x as [|y x]; [apply has_prefix_iff in EB; destruct EB as (? & EB); discriminate EB|]. apply has_prefix_iff in EB. destruct EB as (? & EB). injection EB as -> _. eauto. }
    destruct X as (x' & ->). destruct (index_sub ("["%byte :: x') (bs "%25")) as [z|] eqn:EI.
    + right. destruct (first_index _ _ EI) as [F1 (w & F2)]. destruct z as [|z]; [apply (f_equal (hd x00)) in F2; discriminate F2|].
      change (firstn (S z) ("["%byte :: x')) with ("["%byte :: firstn z x') in *. change (skipn (S z) ("["%byte :: x')) with (skipn z x') in *.
      rewrite unescape_cons in H by discriminate. change ((b2n "[" <? 128)%N && host_escape "[") with false in H. cbv iota in H.
      destruct (unescape_host false (firstn z x')) as [h1|e|s] eqn:E1; try discriminate. cbn [rbind] in H.
      destruct (unescape_host true (skipn z x')) as [h2|e|s] eqn:E2; try discriminate. cbn [rbind] in H.
      rewrite port_unescape in H by exact EP. cbn [rbind] in H. injection H as <-.
      apply index_sub_tail in F1. apply Forall_app in A. destruct A as [A _]. apply Forall_inv_tail in A.
      assert (A2 : Forall (fun c => (b2n c < 128)%N) (skipn z x')).
      { rewrite <- (firstn_skipn z x') in A. apply Forall_app in A. tauto. }
      pose proof (unescape_gives _ _ _ E1 ltac:(discriminate)) as G1. pose proof (unescape_gives _ _ _ E2 (fun _ => A2)) as G2. pose proof (no_percent _ _ E1 F1) as N1.
      rewrite F2 in E2. change (unescape_host true (bs "%25" ++ w)) with (let* r := unescape_host true w in Ok (percent :: r)) in E2.
      destruct (unescape_host true w) as [h2'|e|s]; try discriminate. cbn [rbind] in E2. injection E2 as <-. cbn [forallb] in G2. apply andb_true_iff in G2. destruct G2 as [_ G2].
      exists h1, h2', port. auto 10.
    + left. destruct (unescape_split _ _ _ _ _ H) as (r1 & r2 & E1 & E2 & ->); [discriminate|reflexivity|].
      destruct (port_stays _ EP) as [PS _]. rewrite unescape_stays in E2 by exact PS. injection E2 as <-.
      pose proof (no_percent _ _ E1 EI) as N. pose proof (unescape_gives _ _ _ E1 ltac:(discriminate)) as G.
      rewrite unescape_cons in E1 by discriminate. change ((b2n "[" <? 128)%N && host_escape "[") with false in E1. cbv iota in E1.
      destruct (unescape_host false x') as [x|e|s]; try discriminate. cbn [rbind] in E1. injection E1 as <-. exists x, port. split; [reflexivity|]. split; [exact EP|].
      cbn [forallb] in G. apply andb_true_iff in G. split; [tauto|]. intros X. apply N. right. exact X.
  - right. split; [reflexivity|].
    assert (B : unescape_host false a = Ok h -> has_prefix h (bs "[") = false).
    { clear - EB. intros H. destruct a as [|c a]; [injection H as <-; reflexivity|]. destruct (byte_eqb_spec c percent) as [->|NC].
      - cbn [unescape_host] in H. change (byte_eqb percent percent) with true in H. cbv iota in H. destruct a as [|h1 [|h2 s]]; try discriminate.
        destruct (hex_val h1) as [a|] eqn:E1; [|discriminate]. destruct (hex_val h2) as [b|] eqn:E2; [|discriminate].
        cbv zeta in H. destruct (_ && _) eqn:EV in H; [discriminate|]. destruct (unescape_host false s) as [r'|e|w] eqn:EU; try discriminate. cbn [rbind] in H. injection H as <-.
        destruct (beq_spec [h1; h2] (bs "25")) as [E25|_].
        { injection E25 as -> ->. vm_compute in E1, E2. injection E1 as <-. injection E2 as <-. reflexivity. }
        cbn [negb] in EV. rewrite andb_true_r in EV. apply N.ltb_ge in EV. pose proof (hex_v_high _ _ _ _ E1 E2 EV) as V.
        destruct (has_prefix (n2b (16 * a + b) :: r') (bs "[")) eqn:E; [|reflexivity]. apply has_prefix_iff in E. destruct E as (? & E). injection E as E _. rewrite E in V. vm_compute in V. congruence.
      - rewrite unescape_cons in H by exact NC. destruct (_ && _) in H; [discriminate|]. destruct (unescape_host false a) as [r'|e|w]; try discriminate. cbn [rbind] in H. injection H as <-.
        cbn [has_prefix] in *. exact EB. }
    pose proof (last_split_inv a ":"%byte) as L. destruct (last_split a ":"%byte) as [[n port]|].
    + destruct (all_digits port) eqn:ED; [|discriminate]. split; [auto|]. split; [apply (unescape_gives _ _ _ H); discriminate|]. right.
      destruct L as [-> L]. destruct (unescape_split _ _ _ _ _ H) as (r1 & r2 & E1 & E2 & ->); [discriminate|reflexivity|].
      destruct (digits_stay _ ED) as (D1 & _). rewrite unescape_stays in E2 by exact D1. injection E2 as <-. eauto.
    + split; [auto|]. split; [apply (unescape_gives _ _ _ H); discriminate|]. left.
      clear - H L. assert (K : forall n s r, length s <= n -> unescape_host false s = Ok r -> ~ In ":"%byte s -> ~ In ":"%byte r).
      { clear. induction n as [|n IH]; intros s r Len H A; (destruct s as [|c s]; [injection H as <-; intros []|]); cbn [length] in Len; [lia|].
        destruct (byte_eqb_spec c percent) as [->|NC].
        - cbn [unescape_host] in H. change (byte_eqb percent percent) with true in H. cbv iota in H. destruct s as [|h1 [|h2 s]]; try discriminate. cbn [length] in Len.
          destruct (hex_val h1) as [a|] eqn:E1; [|discriminate]. destruct (hex_val h2) as [b|] eqn:E2; [|discriminate].
          cbv zeta in H. destruct (_ && _) eqn:EV in H; [discriminate|]. destruct (unescape_host false s) as [r'|e|w] eqn:EU; try discriminate. cbn [rbind] in H. injection H as <-.
          intros [X|X]; [|revert X; apply (IH s r'); [lia|exact EU|intros Y; apply A; right; right; right; exact Y]].
          destruct (beq_spec [h1; h2] (bs "25")) as [E25|_].
          { injection E25 as -> ->. vm_compute in E1, E2. injection E1 as <-. injection E2 as <-. discriminate X. }
          cbn [negb] in EV. rewrite andb_true_r in EV. apply N.ltb_ge in EV. pose proof (hex_v_high _ _ _ _ E1 E2 EV) as V. rewrite X in V. vm_compute in V. congruence.
        - rewrite unescape_cons in H by exact NC. destruct (_ && _) in H; [discriminate|]. destruct (unescape_host false s) as [r'|e|w] eqn:EU; try discriminate. cbn [rbind] in H. injection H as <-.
          intros [X|X]; [apply A; left; congruence|]. revert X. apply (IH s r'); [lia|exact EU|intros Y; apply A; right; exact Y]. }
      exact (K _ _ _ (le_n _) H L).
Qed.
Lemma escape_in c s : host_escape c = false -> is_alnum c = false -> In c (escape_with host_escape s) -> In c s.
Proof.
  intros HC HA. induction s as [|x s IH]; [intros []|]. rewrite escape_cons. intros X. apply in_app_or in X. destruct X as [X|X]; [left|right; auto].
  clear IH. unfold esc1 in X. destruct (host_escape x); [|destruct X as [X|[]]; exact X].
  assert (W : is_alnum (upper_hex (b2n x / 16)) = true /\ is_alnum (upper_hex (b2n x mod 16)) = true) by (clear; destruct x; split; reflexivity). destruct W as [W1 W2].
  destruct X as [X|[X|[X|[]]]]; subst c; [discriminate HC|congruence|congruence].
Qed.
Lemma named_again h : named h -> parseHost (escape_with host_escape h) = Ok h.
Proof.
  intros (B & G & P). assert (EB : has_prefix (escape_with host_escape h) (bs "[") = false).
  { destruct h as [|c h]; [reflexivity|]. rewrite escape_cons. revert B. clear. destruct c; intros B; first [discriminate B|reflexivity]. }
  unfold parseHost. rewrite EB. destruct P as [P|(n & port & -> & D)].
  - rewrite last_split_none; [apply unescape_escaped_all; exact G|]. intros X. apply escape_in in X; [auto|reflexivity|reflexivity].
  - destruct (digits_stay _ D) as (D1 & D2 & _). rewrite escape_app. change (escape_with host_escape (":"%byte :: port)) with (":"%byte :: escape_with host_escape port).
    rewrite (escape_stays port D1). rewrite last_split_app by exact D2. rewrite D. rewrite forallb_app in G. apply andb_true_iff in G. destruct G as [G _].
    rewrite unescape_escaped by exact G. rewrite unescape_stays; [reflexivity|]. cbn [forallb]. rewrite D1. reflexivity.
Qed.
Lemma bracketed_again h : bracketed h -> parseHost (escape_with host_escape h) = Ok h.
Proof.
  intros (x & port & -> & V & G & N). assert (E : escape_with host_escape ("["%byte :: x ++ "]"%byte :: port) = escape_with host_escape ("["%byte :: x) ++ "]"%byte :: port).
  { rewrite <- (port_escape port V) at 2. rewrite <- escape_app. reflexivity. }
  rewrite E. unfold parseHost. replace (has_prefix (escape_with host_escape ("["%byte :: x) ++ "]"%byte :: port) (bs "[")) with true by reflexivity.
  destruct (port_stays _ V) as [_ NP]. rewrite last_split_app by exact NP. rewrite V. cbn [negb].
  assert (G' : forallb (okb false) ("["%byte :: x) = true) by (cbn [forallb]; rewrite G; reflexivity).
  assert (N' : ~ In percent ("["%byte :: x)) by (intros [X|X]; [discriminate X|auto]).
  pose proof (index_escaped _ [] G' N') as I. rewrite app_nil_r in I. rewrite I. change (index_sub [] (bs "%25")) with (@None nat). cbv iota.
  rewrite unescape_escaped by exact G'. rewrite port_unescape by exact V. reflexivity.
Qed.
Lemma zoned_again h : zoned h -> parseHost (escape_with host_escape h) = Ok h.
Proof.
  intros (h1 & h2 & port & -> & V & G & N & G2).
  assert (E : escape_with host_escape ("["%byte :: h1 ++ percent :: h2 ++ "]"%byte :: port) =
              (escape_with host_escape ("["%byte :: h1) ++ escape_with host_escape (percent :: h2)) ++ "]"%byte :: port).
  { rewrite <- (port_escape port V) at 2. rewrite <- !escape_app. f_equal. cbn [app]. rewrite <- app_assoc. reflexivity. }
  rewrite E. unfold parseHost.
  replace (has_prefix ((escape_with host_escape ("["%byte :: h1) ++ escape_with host_escape (percent :: h2)) ++ "]"%byte :: port) (bs "[")) with true by reflexivity.
  destruct (port_stays _ V) as [_ NP]. rewrite last_split_app by exact NP. rewrite V. cbn [negb].
  assert (G' : forallb (okb false) ("["%byte :: h1) = true) by (cbn [forallb]; rewrite G; reflexivity).
  assert (N' : ~ In percent ("["%byte :: h1)) by (intros [X|X]; [discriminate X|auto]).
  rewrite (index_escaped _ _ G' N'). replace (index_sub (escape_with host_escape (percent :: h2)) (bs "%25")) with (Some 0).
  2:{ change (escape_with host_escape (percent :: h2)) with (bs "%25" ++ escape_with host_escape h2). cbn [app index_sub]. reflexivity. }
  rewrite Nat.add_0_r, firstn_length_app. replace (skipn (length (escape_with host_escape ("["%byte :: h1))) (escape_with host_escape ("["%byte :: h1) ++ escape_with host_escape (percent :: h2)))
    with (escape_with host_escape (percent :: h2)) by (rewrite skipn_app, skipn_all, Nat.sub_diag; reflexivity).
  rewrite (unescape_escaped_all false _ G'). cbn [rbind].
  assert (G2' : forallb (okb true) (percent :: h2) = true) by (cbn [forallb]; rewrite G2; reflexivity).
  rewrite (unescape_escaped_all true _ G2'). cbn [rbind]. rewrite port_unescape by exact V. cbn [rbind]. reflexivity.
Qed.

(** * User and password *)
Lemma user_roundtrip s : url_unescape (escape_with user_escape s) = Ok s.
Proof.
  induction s as [|c s IH]; [reflexivity|]. rewrite escape_cons. unfold esc1. destruct (user_escape c) eqn:E.
  - destruct (hex_pair c) as (H1 & H2 & H3). cbn [app url_unescape]. rewrite byte_eqb_refl, H1, H2, IH. cbn [rbind]. rewrite H3. reflexivity.
  - cbn [app url_unescape]. destruct (byte_eqb_spec c percent) as [->|_]; [discriminate E|]. rewrite IH. reflexivity.
Qed.
Definition user_char (c : byte) : bool := is_alnum c || contains_byte (bs "-._~$&+,;=%") c.
Lemma user_chars s : forallb user_char (escape_with user_escape s) = true.
Proof.
  induction s as [|c s IH]; [reflexivity|]. rewrite escape_cons, forallb_app, IH, andb_true_r. destruct c; reflexivity.
Qed.
Definition host_char (c : byte) : bool := stays c || byte_eqb c percent.
Lemma host_chars s : forallb host_char (escape_with host_escape s) = true.
Proof.
  induction s as [|c s IH]; [reflexivity|]. rewrite escape_cons, forallb_app, IH, andb_true_r. destruct c; reflexivity.
Qed.
Lemma char_not (P : byte -> bool) (c : byte) s : forallb P s = true -> P c = false -> ~ In c s.
Proof. intros H N X. rewrite forallb_forall in H. rewrite (H c X) in N. discriminate. Qed.
Definition clean_char (c : byte) : bool := quiet_char c && negb (byte_eqb c "/"%byte).
Lemma host_clean s : forallb host_char s = true -> forallb clean_char s = true.
Proof. rewrite !forallb_forall. intros H c X. specialize (H c X). destruct c; first [discriminate H|reflexivity]. Qed.
Lemma user_clean s : forallb user_char s = true -> forallb clean_char s = true.
Proof. rewrite !forallb_forall. intros H c X. specialize (H c X). destruct c; first [discriminate H|reflexivity]. Qed.
Lemma user_valid s : forallb user_char s = true -> validUserinfo s = true.
Proof. unfold validUserinfo. rewrite !forallb_forall. intros H c X. specialize (H c X). destruct c; first [discriminate H|reflexivity]. Qed.
Lemma clean_parts s : forallb clean_char s = true -> Forall (fun c => (32 <= b2n c)%N /\ b2n c <> 127%N /\ c <> "#"%byte /\ c <> "?"%byte) s /\ ~ In "/"%byte s.
Proof.
  intros H. split; [|apply (char_not clean_char _ _ H); reflexivity]. apply Forall_forall. intros c X. rewrite forallb_forall in H. specialize (H c X).
  unfold clean_char, quiet_char, is_ctl in H. rewrite !andb_true_iff, !negb_true_iff, orb_false_iff in H. destruct H as ((((H1 & H2) & H3) & H4) & H5).
  apply N.ltb_ge in H1. apply N.eqb_neq in H2. apply byte_eqb_neq in H3. apply byte_eqb_neq in H4. auto.
Qed.

(** * The authority *)
Lemma host_again a h : parseHost a = Ok h -> has_prefix (escape_with host_escape h) (bs "[") = false \/ Forall (fun c => (b2n c < 128)%N) a ->
  parseHost (escape_with host_escape h) = Ok h.
Proof.
  intros H A. assert (A' : has_prefix a (bs "[") = false \/ Forall (fun c => (b2n c < 128)%N) a).
  { destruct A as [A|A]; [|auto]. left. destruct (has_prefix a (bs "[")) eqn:E; [|reflexivity]. exfalso.
    apply has_prefix_iff in E. destruct E as (r & ->). change (bs "[" ++ r) with ("["%byte :: r) in H.
    assert (K : exists h', h = "["%byte :: h'); [|destruct K as (h' & ->); discriminate A].
    unfold parseHost in H. change (has_prefix ("["%byte :: r) (bs "[")) with true in H. cbv iota in H.
    pose proof (last_split_inv ("["%byte :: r) "]"%byte) as L. destruct (last_split ("["%byte :: r) "]"%byte) as [[x port]|]; [|discriminate]. destruct L as [L _].
    destruct (negb (validOptionalPort port)); [discriminate|]. destruct x as [|y x]; [discriminate L|]. injection L as <- L.
    destruct (index_sub ("["%byte :: x) (bs "%25")) as [z|] eqn:EI.
    - destruct (first_index _ _ EI) as [_ (w & F2)]. destruct z as [|z]; [apply (f_equal (hd x00)) in F2; discriminate F2|].
      change (firstn (S z) ("["%byte :: x)) with ("["%byte :: firstn z x) in H. rewrite unescape_cons in H by discriminate. change ((b2n "[" <? 128)%N && host_escape "[") with false in H. cbv iota in H.
      destruct (unescape_host false (firstn z x)); try discriminate. cbn [rbind] in H. destruct (unescape_host true _); try discriminate. cbn [rbind] in H.
      destruct (unescape_host false _); try discriminate. cbn [rbind] in H. injection H as <-. eexists. reflexivity.
    - rewrite unescape_cons in H by discriminate. change ((b2n "[" <? 128)%N && host_escape "[") with false in H. cbv iota in H.
      destruct (unescape_host false r); try discriminate. cbn [rbind] in H. injection H as <-. eexists. reflexivity. }
  destruct (parseHost_gives a h H A') as [[_ [G|G]]|[_ G]]; [apply bracketed_again|apply zoned_again|apply named_again]; exact G.
Qed.
Theorem authority_again a u : parseAuthority a = Ok u -> has_prefix (snd u) (bs "[") = false \/ Forall (fun c => (b2n c < 128)%N) a -> reprintable parseAuthority u.
Proof.
  intros H A. unfold parseAuthority in H. pose proof (last_split_inv a "@"%byte) as L. destruct (last_split a "@"%byte) as [[ui h]|].
  2:{ destruct (parseHost a) as [h|e|w] eqn:EH; try discriminate. cbn [rbind] in H. injection H as <-. cbn [snd] in A.
      pose proof (host_again _ _ EH A) as HA. pose proof (host_chars h) as HC. unfold reprintable, auth_text. cbn [fst snd app]. split; [|apply clean_parts, host_clean; exact HC].
      unfold parseAuthority. rewrite last_split_none by (apply (char_not host_char _ _ HC); reflexivity). rewrite HA. reflexivity. }
  destruct L as [-> L]. destruct (parseHost h) as [h'|e|w] eqn:EH; try discriminate. cbn [rbind] in H. destruct (negb (validUserinfo ui)); [discriminate|].
  assert (K : forall us, (exists n p, us = escape_with user_escape n ++ match p with Some p => bs ":" ++ escape_with user_escape p | None => [] end) ->
    u = (Some us, escape_with host_escape h') -> reprintable parseAuthority u).
  { clear H. intros us (n & p & ->) ->. cbn [snd] in A.
    assert (A' : has_prefix (escape_with host_escape h') (bs "[") = false \/ Forall (fun c => (b2n c < 128)%N) h).
    { destruct A as [A|A]; [auto|]. right. apply Forall_app in A. destruct A as [_ A]. inversion A. assumption. }
    pose proof (host_again _ _ EH A') as HA. pose proof (host_chars h') as HC. pose proof (user_chars n) as UN.
    set (us := escape_with user_escape n ++ match p with Some p => bs ":" ++ escape_with user_escape p | None => [] end).
    assert (UC : forallb clean_char us = true /\ validUserinfo us = true).
    { unfold us, validUserinfo. rewrite !forallb_app. pose proof (user_clean _ UN) as ->. pose proof (user_valid _ UN) as UV. unfold validUserinfo in UV. rewrite UV. cbn [andb].
      destruct p as [p|]; [|auto]. pose proof (user_chars p) as UP. rewrite !forallb_app. pose proof (user_clean _ UP) as ->. pose proof (user_valid _ UP) as UV'. unfold validUserinfo in UV'. rewrite UV'. auto. }
    destruct UC as [UC UV]. unfold reprintable, auth_text. cbn [fst snd]. split.
    2:{ apply clean_parts. rewrite !forallb_app, UC, (host_clean _ HC). reflexivity. }
    rewrite <- app_assoc. change (bs "@" ++ escape_with host_escape h') with ("@"%byte :: escape_with host_escape h'). unfold parseAuthority.
    rewrite last_split_app by (apply (char_not host_char _ _ HC); reflexivity). rewrite HA. cbn [rbind]. rewrite UV. cbn [negb].
    assert (NC : ~ In ":"%byte (escape_with user_escape n)) by (apply (char_not user_char _ _ UN); reflexivity).
    unfold us. destruct p as [p|].
    - change (bs ":" ++ escape_with user_escape p) with (":"%byte :: escape_with user_escape p). rewrite split2_first by exact NC. rewrite !user_roundtrip. reflexivity.
    - rewrite app_nil_r. rewrite split2_none by exact NC. rewrite user_roundtrip. reflexivity. }
  destruct (split2 ui ":"%byte) as [n [p|]].
  - destruct (url_unescape n) as [n'|e|w]; try discriminate. cbn [rbind] in H. destruct (url_unescape p) as [p'|e|w]; try discriminate. cbn [rbind] in H. injection H as <-.
    eapply K; [|reflexivity]. exists n', (Some p'). reflexivity.
  - destruct (url_unescape n) as [n'|e|w]; try discriminate. cbn [rbind] in H. injection H as <-.
    eapply K; [|reflexivity]. exists n', None. rewrite app_nil_r. reflexivity.
Qed.

Lemma unescape_host_no_panic n : forall z s, length s <= n -> is_panic (unescape_host z s) = false.
Proof.
  induction n as [|n IH]; intros z s L; (destruct s as [|c s]; [reflexivity|]); cbn [length] in L; [lia|]. cbn [unescape_host]. destruct (byte_eqb c percent).
  - destruct s as [|h1 [|h2 s]]; try reflexivity. destruct (hex_val h1); [|reflexivity]. destruct (hex_val h2); [|reflexivity]. cbv zeta. destruct (if z then _ else _); [reflexivity|].
    cbn [length] in L. specialize (IH z s ltac:(lia)). destruct (unescape_host z s); [reflexivity|reflexivity|discriminate].
  - destruct (_ && _); [reflexivity|]. specialize (IH z s ltac:(lia)). destruct (unescape_host z s); [reflexivity|reflexivity|discriminate].
Qed.
Lemma parseHost_no_panic h : is_panic (parseHost h) = false.
Proof.
  assert (U : forall z s, is_panic (unescape_host z s) = false) by (intros z s; apply (unescape_host_no_panic (length s)); lia).
  unfold parseHost. destruct (has_prefix h (bs "[")).
  - destruct (last_split h "]"%byte) as [[x port]|]; [|reflexivity]. destruct (negb (validOptionalPort port)); [reflexivity|]. destruct (index_sub x (bs "%25")) as [z|]; [|apply U].
    pose proof (U false (firstn z x)) as U1. destruct (unescape_host false (firstn z x)); [|reflexivity|discriminate]. cbn [rbind].
    pose proof (U true (skipn z x)) as U2. destruct (unescape_host true (skipn z x)); [|reflexivity|discriminate]. cbn [rbind].
    pose proof (U false ("]"%byte :: port)) as U3. destruct (unescape_host false ("]"%byte :: port)); [reflexivity|reflexivity|discriminate].
  - destruct (last_split h ":"%byte) as [[x port]|]; [|apply U]. destruct (all_digits port); [apply U|reflexivity].
Qed.
Lemma authority_no_panic a : is_panic (parseAuthority a) = false.
Proof.
  unfold parseAuthority. destruct (last_split a "@"%byte) as [[ui h]|].
  - pose proof (parseHost_no_panic h) as H. destruct (parseHost h); [|reflexivity|discriminate]. cbn [rbind]. destruct (negb (validUserinfo ui)); [reflexivity|].
    destruct (split2 ui ":"%byte) as [n [p|]].
    + pose proof (unescape_no_panic n) as U. destruct (url_unescape n); [|reflexivity|discriminate]. cbn [rbind].
      pose proof (unescape_no_panic p) as U'. destruct (url_unescape p); [reflexivity|reflexivity|discriminate].
    + pose proof (unescape_no_panic n) as U. destruct (url_unescape n); [reflexivity|reflexivity|discriminate].
  - pose proof (parseHost_no_panic a) as H. destruct (parseHost a); [reflexivity|reflexivity|discriminate].
Qed.
Lemma parsed_again t b : url_Parse parseAuthority t = Ok b -> http_base b -> plain_host t b -> reprintable parseAuthority (g_user b, g_host b).
Proof.
  intros HP HB H. destruct (parsed parseAuthority t b HP HB) as (_ & _ & _ & _ & _ & _ & a & A1 & A2). apply (authority_again a); [exact A1|]. cbn [snd].
  destruct H as [H|H]; [left|right].
  - destruct (has_prefix (g_host b) (bs "[")) eqn:E; [|reflexivity]. apply has_prefix_iff in E. destruct E as (r & E). elim (H r). exact E.
  - rewrite Forall_forall in *. auto.
Qed.
