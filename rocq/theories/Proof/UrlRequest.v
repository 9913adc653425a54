(** What the HTTP store asks for (C101). *)
From Verif Require Import Base.Bytes Base.BytesFacts Model.GoStd Model.Storepath Model.StoreBackends Model.GoUrl Spec.StorePathSpec Spec.BackendSpec Spec.UrlSpec
  Proof.PathFacts Proof.StorePathProps Proof.BackendProps Proof.UrlProps.
Ltac Zify.zify_post_hook ::= idtac.

(** * Encoding *)
Definition quiet_char (c : byte) : bool := negb (is_ctl c) && negb (byte_eqb c "#"%byte) && negb (byte_eqb c "?"%byte).
Lemma escape_quiet c : forallb quiet_char (escape_byte UPath c) = true.
Proof. destruct c; reflexivity. Qed.
Lemma valid_quiet c : (contains_byte (bs "!$&'()*+,;=:@[]%") c || negb (shouldEscape UPath c)) = true -> quiet_char c = true.
Proof. destruct c; intros H; first [reflexivity|discriminate H]. Qed.
Lemma hex_pair c : hex_val (upper_hex (b2n c / 16)) = Some (b2n c / 16)%N /\ hex_val (upper_hex (b2n c mod 16)) = Some (b2n c mod 16)%N /\
  n2b (16 * (b2n c / 16) + b2n c mod 16) = c.
Proof. destruct c; vm_compute; auto. Qed.
Lemma percent_escaped m : shouldEscape m percent = true.
Proof. destruct m; reflexivity. Qed.
Lemma unescape_escape m s : url_unescape (url_escape m s) = Ok s.
Proof.
  induction s as [|c s IH]; [reflexivity|]. change (url_escape m (c :: s)) with (escape_byte m c ++ url_escape m s). unfold escape_byte.
  destruct (shouldEscape m c) eqn:E.
  - destruct (hex_pair c) as (H1 & H2 & H3). cbn [app url_unescape]. rewrite byte_eqb_refl, H1, H2, IH. cbn [rbind]. rewrite H3. reflexivity.
  - cbn [app url_unescape]. destruct (byte_eqb_spec c percent) as [->|_]; [rewrite percent_escaped in E; discriminate|]. rewrite IH. reflexivity.
Qed.
Lemma escape_all_quiet s : forallb quiet_char (url_escape UPath s) = true.
Proof.
  induction s as [|c s IH]; [reflexivity|]. change (url_escape UPath (c :: s)) with (escape_byte UPath c ++ url_escape UPath s).
  rewrite forallb_app, escape_quiet, IH. reflexivity.
Qed.
Lemma valid_all_quiet s : validEncoded UPath s = true -> forallb quiet_char s = true.
Proof.
  unfold validEncoded. rewrite !forallb_forall. intros H c X. apply valid_quiet. apply H. exact X.
Qed.
Lemma escape_slash s : has_prefix (url_escape UPath s) (bs "/") = has_prefix s (bs "/").
Proof. destruct s as [|c s]; [reflexivity|]. destruct c; reflexivity. Qed.
Lemma escape_nonempty s : s <> [] -> url_escape UPath s <> [].
Proof.
  destruct s as [|c s]; [congruence|]. intros _. change (url_escape UPath (c :: s)) with (escape_byte UPath c ++ url_escape UPath s).
  unfold escape_byte. destruct (shouldEscape UPath c); discriminate.
Qed.

(** * The encoded path *)
Definition raw_ok (u : gourl) : Prop := g_rawpath u = [] \/ has_prefix (g_rawpath u) (bs "/") = true.
Lemma EscapedPath_unescape u : url_unescape (EscapedPath u) = Ok (g_path u).
Proof.
  unfold EscapedPath, keeps_raw. destruct (negb (beq (g_rawpath u) []) && validEncoded UPath (g_rawpath u)) eqn:E; cbn [andb].
  - destruct (url_unescape (g_rawpath u)) as [v|e|w] eqn:EU.
    + destruct (beq_spec v (g_path u)) as [->|_]; [exact EU|].
      destruct (beq_spec (g_path u) (bs "*")) as [->|_]; [reflexivity|apply unescape_escape].
    + destruct (beq_spec (g_path u) (bs "*")) as [->|_]; [reflexivity|apply unescape_escape].
    + destruct (beq_spec (g_path u) (bs "*")) as [->|_]; [reflexivity|apply unescape_escape].
  - destruct (beq_spec (g_path u) (bs "*")) as [->|_]; [reflexivity|apply unescape_escape].
Qed.
Lemma EscapedPath_quiet u : forallb quiet_char (EscapedPath u) = true.
Proof.
  unfold EscapedPath, keeps_raw. destruct (validEncoded UPath (g_rawpath u)) eqn:E; [|rewrite andb_false_r; cbn [andb]].
  - destruct (_ && _); [apply valid_all_quiet; exact E|]. destruct (beq _ _); [reflexivity|apply escape_all_quiet].
  - destruct (beq _ _); [reflexivity|apply escape_all_quiet].
Qed.
Lemma unescape_slash_first s p : has_prefix s (bs "/") = true -> url_unescape s = Ok p -> has_prefix p (bs "/") = true.
Proof.
  intros H E. apply has_prefix_iff in H. destruct H as (r & ->). change (url_unescape (bs "/" ++ r)) with (let* x := url_unescape r in Ok ("/"%byte :: x)) in E.
  destruct (url_unescape r) as [x|e|w]; try discriminate. cbn [rbind] in E. injection E as <-. apply (has_prefix_app (bs "/") x).
Qed.
Lemma EscapedPath_slash u : raw_ok u -> has_prefix (EscapedPath u) (bs "/") = has_prefix (g_path u) (bs "/").
Proof.
  intros R. unfold EscapedPath. destruct (keeps_raw UPath (g_rawpath u) (g_path u)) eqn:K.
  - unfold keeps_raw in K. apply andb_true_iff in K. destruct K as [K1 K2]. apply andb_true_iff in K1. destruct K1 as [K1 _].
    destruct R as [R|R]; [rewrite R in K1; discriminate|]. rewrite R. symmetry. destruct (url_unescape (g_rawpath u)) as [v|e|w] eqn:E; try discriminate.
    apply beq_eq in K2. subst v. eapply unescape_slash_first; eassumption.
  - destruct (beq_spec (g_path u) (bs "*")) as [->|_]; [reflexivity|apply escape_slash].
Qed.

(** * What parsing an http text gives *)
Section Authority.
Variable authority : bytes -> res (option bytes * bytes).
Definition parsed_base (t : bytes) (b : gourl) : Prop :=
  g_opaque b = [] /\ g_omithost b = false /\ raw_ok b /\ (g_path b = [] \/ has_prefix (g_path b) (bs "/") = true) /\
  (g_force b = true -> g_query b = []) /\ forallb (fun c => negb (is_ctl c) && negb (byte_eqb c "#"%byte)) (g_query b) = true /\
  (exists a, authority a = Ok (g_user b, g_host b) /\ incl a t).
Lemma query_from rest r f q P : query_split rest = (r, f, q) -> forallb P rest = true -> (f = true -> q = []) /\ forallb P r = true /\ forallb P q = true.
Proof.
  intros H HP.
  assert (CUT : forall f' , (fst (split2 rest "?"%byte), f', match snd (split2 rest "?"%byte) with Some q => q | None => [] end) = (r, f, q) -> f' = false ->
    (f = true -> q = []) /\ forallb P r = true /\ forallb P q = true).
  { intros f' E ->. destruct (split2 rest "?"%byte) as [x y] eqn:ES. apply split2_inv in ES. destruct ES as [_ ES]. cbn [fst snd] in E. injection E as <- <- <-.
    split; [discriminate|]. destruct y as [y|]; rewrite ES in HP; [|auto]. rewrite forallb_app in HP. apply andb_true_iff in HP. destruct HP as [HP1 HP2].
    split; [exact HP1|]. cbn [forallb] in HP2. apply andb_true_iff in HP2. tauto. }
  unfold query_split in H. destruct (_ && _); [|eapply CUT; [exact H|reflexivity]]. injection H as <- <- <-. split; [auto|]. split; [|reflexivity].
  rewrite !forallb_forall in *. intros x X. apply HP. clear - X. revert X. destruct rest as [|z rest _] using rev_ind; [intros []|]. rewrite removelast_last. intros X. apply in_or_app. auto.
Qed.
Lemma parsed t b : url_Parse authority t = Ok b -> http_base b -> parsed_base t b.
Proof.
  intros HP [HS HH]. unfold url_Parse in HP. destruct (split2 t "#"%byte) as [u fr] eqn:ES. apply split2_inv in ES. destruct ES as [NH UT].
  assert (IU : incl u t) by (destruct fr; rewrite UT; [apply incl_appl, incl_refl|apply incl_refl]).
  destruct (url_parse authority u) as [g|e|w] eqn:EP; try discriminate. cbn [rbind] in HP.
  assert (G : parsed_base t g /\ g_scheme g = g_scheme b /\ g_host g = g_host b -> parsed_base t b).
  { intros (G & _). destruct fr as [[|x f]|]; [congruence| |congruence]. destruct (url_unescape (x :: f)); try discriminate. cbn [rbind] in HP. injection HP as <-. exact G. }
  assert (E : g_scheme g = g_scheme b /\ g_host g = g_host b).
  { destruct fr as [[|x f]|]; [injection HP as <-; auto| |injection HP as <-; auto]. destruct (url_unescape (x :: f)); try discriminate. cbn [rbind] in HP. injection HP as <-. auto. }
  apply G. split; [|exact E]. destruct E as [E1 E2]. rewrite <- E1 in HS. rewrite <- E2 in HH. clear G HP E1 E2 b.
  rewrite url_parse_eq in EP. destruct (existsb is_ctl u) eqn:EC; [discriminate|].
  destruct (beq u (bs "*")); [injection EP as <-; cbn in HH; congruence|].
  destruct (getScheme u) as [[sc rest]|e|w] eqn:EG; try discriminate. cbn [rbind fst snd] in EP.
  assert (QR : forallb (fun c => negb (is_ctl c) && negb (byte_eqb c "#"%byte)) rest = true).
  { apply forallb_forall. intros x X. assert (XU : In x u).
    { unfold getScheme in EG. destruct (scheme_end u true 0) as [[j|]|e|w]; try discriminate; cbn [rbind] in EG.
      - assert (H1 : skipn (S j) u = rest) by congruence. rewrite <- (firstn_skipn (S j) u). apply in_or_app. right. rewrite H1. exact X.
      - assert (u = rest) by congruence. subst. exact X. }
    apply ctl_iff in EC. rewrite Forall_forall in EC. destruct (EC x XU) as [C1 C2]. apply andb_true_iff. split.
    - unfold is_ctl. apply negb_true_iff, orb_false_iff. split; [apply N.ltb_ge|apply N.eqb_neq]; assumption.
    - apply negb_true_iff. apply byte_eqb_neq. intros ->. auto. }
  assert (QT : forallb (contains_byte t) rest = true).
  { apply forallb_forall. intros x X. apply contains_byte_iff. apply IU.
    unfold getScheme in EG. destruct (scheme_end u true 0) as [[j|]|e|w]; try discriminate; cbn [rbind] in EG.
    - assert (H1 : skipn (S j) u = rest) by congruence. rewrite <- (firstn_skipn (S j) u). apply in_or_app. right. rewrite H1. exact X.
    - assert (u = rest) by congruence. subst. exact X. }
  destruct (query_split rest) as [[r f] q] eqn:EQ. destruct (query_from _ _ _ _ _ EQ QT) as (_ & RT & _). destruct (query_from _ _ _ _ _ EQ QR) as (Q1 & Q2 & Q3).
  remember (map lower_byte sc) as scheme. unfold hier in EP. cbv zeta in EP.
  destruct (negb (has_prefix r (bs "/")) && negb (beq scheme [])); [injection EP as <-; cbn in HH; congruence|].
  destruct (negb (has_prefix r (bs "/")) && contains_byte (fst (split2 r "/"%byte)) ":"%byte); [discriminate|].
  destruct ((negb (beq scheme []) || negb (has_prefix r (bs "///"))) && has_prefix r (bs "//")).
  2:{ destruct (url_unescape r); try discriminate. cbn [rbind] in EP. injection EP as <-. cbn in HH. congruence. }
  assert (P0 : exists a p0, (match index_byte (skipn 2 r) "/"%byte with Some i => (firstn i (skipn 2 r), skipn i (skipn 2 r)) | None => (skipn 2 r, []) end) = (a, p0) /\
    (p0 = [] \/ has_prefix p0 (bs "/") = true) /\ incl a (skipn 2 r)).
  { destruct (index_byte (skipn 2 r) "/"%byte) as [i|] eqn:EI; [|eexists; eexists; split; [reflexivity|]; split; [auto|apply incl_refl]]. apply index_byte_some in EI. destruct EI as (p & z & EI & L & _).
    eexists. eexists. split; [reflexivity|]. split; [|intros y Y; rewrite <- (firstn_skipn i (skipn 2 r)); apply in_or_app; auto].
    right. rewrite EI. rewrite <- L. rewrite skipn_app, skipn_all, Nat.sub_diag. apply (has_prefix_app (bs "/") z). }
  destruct P0 as (a & p0 & P1 & P2 & P3). rewrite P1 in EP. destruct (authority a) as [au|e|w] eqn:EA; try discriminate. cbn [rbind] in EP.
  destruct (url_unescape p0) as [p|e|w] eqn:EU; try discriminate. cbn [rbind] in EP. injection EP as <-. cbn in HS, HH |- *.
  unfold parsed_base, raw_ok. cbn [g_opaque g_omithost g_rawpath g_path g_force g_query g_user g_host].
  split; [reflexivity|]. split; [reflexivity|]. split.
  { unfold raw_of. destruct (beq p0 (url_escape UPath p)); [auto|exact P2]. }
  split. { destruct P2 as [->|P2]; [injection EU as <-; auto|right; eapply unescape_slash_first; eassumption]. }
  split; [exact Q1|]. split; [exact Q3|]. exists a. split; [destruct au; exact EA|].
  intros y Y. apply P3 in Y. assert (Y' : In y r) by (rewrite <- (firstn_skipn 2 r); apply in_or_app; auto).
  rewrite forallb_forall in RT. apply contains_byte_iff. auto.
Qed.

(** * Printing and reading again *)
Lemma quiet_parts s : forallb quiet_char s = true -> existsb is_ctl s = false /\ ~ In "#"%byte s /\ ~ In "?"%byte s.
Proof.
  intros H. rewrite forallb_forall in H. split; [|split].
  - destruct (existsb is_ctl s) eqn:E; [|reflexivity]. apply existsb_exists in E. destruct E as (x & X & Y). specialize (H x X). unfold quiet_char in H. rewrite Y in H. discriminate.
  - intros X. specialize (H _ X). discriminate H.
  - intros X. specialize (H _ X). discriminate H.
Qed.
Lemma query_again P q force : ~ In "?"%byte P -> (force = true -> q = []) ->
  query_split (P ++ (if force || negb (beq q []) then bs "?" ++ q else [])) = (P, force, q).
Proof.
  intros NP HF. destruct force.
  - rewrite (HF eq_refl). cbn [orb]. change (bs "?" ++ []) with [("?"%byte)]. unfold query_split. rewrite last_last. rewrite byte_eqb_refl. cbn [andb].
    replace (Nat.eqb (count_byte "?"%byte (P ++ ["?"%byte])) 1) with true; [rewrite removelast_last; reflexivity|].
    symmetry. apply Nat.eqb_eq. unfold count_byte. rewrite filter_app, app_length. cbn [filter length].
    replace (filter (byte_eqb "?"%byte) P) with (@nil byte); [reflexivity|]. symmetry. clear HF. induction P as [|x P IH]; [reflexivity|]. cbn [filter].
    destruct (byte_eqb_spec "?"%byte x) as [<-|_]; [elim NP; left; reflexivity|]. apply IH. intros X. apply NP. right. exact X.
  - cbn [orb]. destruct (beq_spec q []) as [->|NQ]; cbn [negb]; [rewrite app_nil_r; apply query_none; exact NP|].
    unfold query_split. change (bs "?" ++ q) with ("?"%byte :: q). rewrite split2_first by exact NP. cbn [fst snd].
    replace (byte_eqb (last (P ++ "?"%byte :: q) x00) "?"%byte && Nat.eqb (count_byte "?"%byte (P ++ "?"%byte :: q)) 1) with false; [reflexivity|].
    symmetry. destruct (byte_eqb_spec (last (P ++ "?"%byte :: q) x00) "?"%byte) as [E|_]; [|reflexivity]. cbn [andb]. apply Nat.eqb_neq.
    destruct q as [|z q _] using rev_ind; [congruence|]. change (P ++ "?"%byte :: q ++ [z]) with (P ++ ("?"%byte :: q) ++ [z]) in E |- *. rewrite app_assoc in E |- *. rewrite last_last in E. subst z.
    unfold count_byte. rewrite !filter_app, !app_length. cbn [filter length]. rewrite byte_eqb_refl. cbn [length]. lia.
Qed.
Lemma getScheme_http sc rest : sc = bs "http" \/ sc = bs "https" -> getScheme (sc ++ bs ":" ++ rest) = Ok (sc, rest) /\ map lower_byte sc = sc.
Proof. intros [->| ->]; split; reflexivity. Qed.
Lemma no_index a c r : ~ In c a -> index_byte (a ++ c :: r) c = Some (length a).
Proof. intros H. rewrite index_byte_first by exact H. reflexivity. Qed.

Lemma print_parse u : http_base u -> g_opaque u = [] -> g_omithost u = false -> raw_ok u -> g_path u <> [] ->
  (g_force u = true -> g_query u = []) -> forallb (fun c => negb (is_ctl c) && negb (byte_eqb c "#"%byte)) (g_query u) = true ->
  reprintable authority (g_user u, g_host u) ->
  exists v, url_Parse authority (url_String u) = Ok v /\ same_request u v (rooted (g_path u)).
Proof.
  intros [HS HH] HO HM HR HP HF HQ (A1 & A2 & A3).
  set (auth := auth_text (g_user u, g_host u)) in *.
  set (ep := (if negb (has_prefix (EscapedPath u) (bs "/")) then bs "/" else []) ++ EscapedPath u).
  set (P := bs "//" ++ auth ++ ep).
  set (Q := if g_force u || negb (beq (g_query u) []) then bs "?" ++ g_query u else []).
  set (F := if beq (g_fragment u) [] then [] else bs "#" ++ EscapedFragment u).
  assert (NE : EscapedPath u <> []).
  { pose proof (EscapedPath_unescape u) as X. intros E. rewrite E in X. injection X as X. congruence. }
  assert (TXT : url_String u = (g_scheme u ++ bs ":" ++ P ++ Q) ++ F).
  { unfold url_String. rewrite HO, HM. fold Q F. destruct (beq_spec (g_host u) []) as [X|_]; [contradiction|].
    destruct (beq_spec (EscapedPath u) []) as [X|_]; [contradiction|]. cbn [negb andb orb].
    assert (S1 : match g_scheme u with [] => [] | s => s ++ bs ":" end = g_scheme u ++ bs ":") by (destruct HS as [-> | ->]; reflexivity). rewrite S1. clear S1.
    assert (S2 : beq (g_scheme u) [] = false) by (destruct HS as [-> | ->]; reflexivity). rewrite S2. cbn [negb orb andb].
    unfold P, ep, auth, auth_text. cbn [fst snd]. rewrite andb_true_r. rewrite <- !app_assoc. reflexivity. }
  assert (EPQ : forallb quiet_char ep = true).
  { unfold ep. rewrite forallb_app, EscapedPath_quiet, andb_true_r. destruct (negb _); reflexivity. }
  assert (AQ : forallb quiet_char auth = true).
  { apply forallb_forall. intros c X. rewrite Forall_forall in A2. destruct (A2 c X) as (X1 & X2 & X3 & X4). unfold quiet_char, is_ctl.
    apply N.ltb_ge in X1. apply N.eqb_neq in X2. apply byte_eqb_neq in X3. apply byte_eqb_neq in X4. rewrite X1, X2, X3, X4. reflexivity. }
  assert (PQ : forallb quiet_char P = true) by (unfold P; rewrite !forallb_app, AQ, EPQ; reflexivity).
  destruct (quiet_parts P PQ) as (P1 & P2 & P3).
  assert (QC : existsb is_ctl Q = false /\ ~ In "#"%byte Q).
  { unfold Q. destruct (_ || _); [|split; [reflexivity|intros []]]. rewrite forallb_forall in HQ. split.
    - destruct (existsb is_ctl (bs "?" ++ g_query u)) eqn:E; [|reflexivity]. apply existsb_exists in E. destruct E as (x & [<-|X] & Y); [discriminate Y|].
      specialize (HQ x X). cbv beta in HQ. rewrite Y in HQ. discriminate.
    - intros [X|X]; [discriminate X|]. specialize (HQ _ X). discriminate HQ. }
  destruct QC as [QC1 QC2].
  assert (MAIN : url_parse authority (g_scheme u ++ bs ":" ++ P ++ Q) =
    Ok (GoUrl (g_scheme u) [] (g_user u) (g_host u) (rooted (g_path u)) (raw_of UPath ep (rooted (g_path u))) false (g_force u) (g_query u) [] [])).
  { rewrite url_parse_eq. replace (existsb is_ctl (g_scheme u ++ bs ":" ++ P ++ Q)) with false.
    2:{ symmetry. rewrite !existsb_app, P1, QC1. destruct HS as [-> | ->]; reflexivity. }
    replace (beq (g_scheme u ++ bs ":" ++ P ++ Q) (bs "*")) with false by (symmetry; apply beq_neq; destruct HS as [-> | ->]; discriminate).
    destruct (getScheme_http _ (P ++ Q) HS) as [G1 G2]. rewrite G1. cbn [rbind fst snd]. rewrite G2.
    unfold Q. rewrite query_again by (assumption). unfold hier. cbv zeta.
    change (has_prefix P (bs "/")) with true. change (has_prefix P (bs "//")) with true. cbn [negb andb].
    replace (beq (g_scheme u) []) with false by (destruct HS as [-> | ->]; reflexivity). cbn [negb andb orb].
    change (skipn 2 P) with (auth ++ ep).
    assert (EP : exists z, ep = "/"%byte :: z).
    { unfold ep. destruct (has_prefix (EscapedPath u) (bs "/")) eqn:E; cbn [negb]; [|eexists; reflexivity]. apply has_prefix_iff in E. destruct E as (z & ->). exists z. reflexivity. }
    destruct EP as (z & EP). rewrite EP. rewrite no_index by exact A3. rewrite firstn_length_app.
    replace (skipn (length auth) (auth ++ "/"%byte :: z)) with ("/"%byte :: z) by (rewrite skipn_app, skipn_all, Nat.sub_diag; reflexivity).
    rewrite A1. cbn [rbind fst snd]. rewrite <- EP.
    assert (UE : url_unescape ep = Ok (rooted (g_path u))).
    { unfold ep. rewrite EscapedPath_slash by exact HR. pose proof (EscapedPath_unescape u) as X. destruct (g_path u) as [|c p] eqn:GP; [congruence|].
      unfold rooted. change (has_prefix (c :: p) (bs "/")) with (byte_eqb c "/"%byte && true). rewrite andb_true_r.
      destruct (byte_eqb c "/"%byte); cbn [negb app]; [exact X|]. change (bs "/" ++ EscapedPath u) with ("/"%byte :: EscapedPath u). cbn [url_unescape].
      change (byte_eqb "/"%byte percent) with false. cbv iota. rewrite X. reflexivity. }
    rewrite UE. reflexivity. }
  rewrite TXT. unfold url_Parse.
  assert (NH : ~ In "#"%byte (g_scheme u ++ bs ":" ++ P ++ Q)).
  { intros X. rewrite !in_app_iff in X. destruct X as [X|[X|[X|X]]]; try contradiction.
    - revert X. apply contains_byte_false. destruct HS as [-> | ->]; reflexivity.
    - destruct X as [X|[]]. discriminate X. }
  unfold F. destruct (beq_spec (g_fragment u) []) as [FE|FE].
  - rewrite app_nil_r. rewrite split2_none by exact NH. rewrite MAIN. cbn [rbind]. eexists. split; [reflexivity|]. unfold same_request. cbn. rewrite FE. auto 10.
  - change (bs "#" ++ EscapedFragment u) with ("#"%byte :: EscapedFragment u). rewrite split2_first by exact NH. rewrite MAIN. cbn [rbind].
    assert (FU : url_unescape (EscapedFragment u) = Ok (g_fragment u)).
    { unfold EscapedFragment. destruct (keeps_raw UFragment (g_rawfragment u) (g_fragment u)) eqn:K; [|apply unescape_escape].
      unfold keeps_raw in K. apply andb_true_iff in K. destruct K as [_ K]. destruct (url_unescape (g_rawfragment u)); try discriminate. apply beq_eq in K. subst. reflexivity. }
    destruct (EscapedFragment u) as [|x f] eqn:EF; [injection FU as FU; congruence|]. rewrite FU. cbn [rbind]. eexists. split; [reflexivity|]. unfold same_request. cbn. auto 10.
Qed.
Lemma Base_nonempty p : Base p <> [].
Proof. unfold Base. destruct p; [discriminate|]. destruct (rev _); discriminate. Qed.
Lemma Clean_nonempty p : Clean p <> [].
Proof.
  unfold Clean. destruct (is_rooted p); [discriminate|]. unfold clean_comps.
  pose proof (clean_go_solid (is_rooted p) (split_byte p slash) (split_no_sep p slash) [] (Forall_nil _)) as S.
  destruct (clean_go _ _ _) as [|c cs]; [discriminate|]. destruct (join_solid (c :: cs) _ S ltac:(discriminate) eq_refl) as (J1 & _). exact J1.
Qed.
Lemma Join2_nonempty a b : b <> [] -> Join2 a b <> [].
Proof. intros H. unfold Join2. destruct a; [|apply Clean_nonempty]. destruct b; [congruence|apply Clean_nonempty]. Qed.
Theorem request t b : url_Parse authority t = Ok b -> http_base b -> reprintable authority (g_user b, g_host b) -> forall p,
  exists v, constructRequest authority b p = Ok v /\ same_request b v (rooted (Join2 (g_path b) (Base p))).
Proof.
  intros HP HB A p. destruct (parsed t b HP HB) as (O & M & R & _ & F & Q & _).
  destruct (print_parse (getURL b p)) as (v & V1 & V2); try assumption; [apply Join2_nonempty, Base_nonempty|].
  exists v. split; [exact V1|exact V2].
Qed.
Lemma child_rooted d b : has_prefix d (bs "/") = true -> rooted (child d b) = child d b.
Proof.
  intros H. apply has_prefix_iff in H. destruct H as (r & ->). unfold child. destruct (beq_spec (bs "/" ++ r) (bs "/")) as [_|_]; [reflexivity|].
  destruct (beq_spec (bs "/" ++ r) (bs ".")) as [X|_]; [discriminate X|]. reflexivity.
Qed.
Theorem request_store_path t b p : url_Parse authority t = Ok b -> http_base b -> reprintable authority (g_user b, g_host b) -> wf_store_path p ->
  exists name v, p = bs "/nix/store/" ++ name /\ constructRequest authority b p = Ok v /\ same_request b v (child (Clean (rooted (g_path b))) name).
Proof.
  intros HP HB A W. destruct (store_path_last p W) as (n & E & EN & L). destruct (request t b HP HB A p) as (v & V1 & V2).
  exists n, v. split; [exact E|]. split; [exact V1|]. replace (child (Clean (rooted (g_path b))) n) with (rooted (Join2 (g_path b) (Base p))); [exact V2|].
  rewrite (Base_last p n L). destruct (parsed t b HP HB) as (_ & _ & _ & PB & _). destruct PB as [PB|PB].
  - rewrite PB. change (Clean (rooted [])) with (bs "/"). unfold Join2. pose proof EN as (N1 & N2 & N3 & N4). destruct n as [|x n'] eqn:EQ; [congruence|]. rewrite <- EQ in *.
    replace (Clean n) with n; [|].
    2:{ symmetry. unfold Clean, clean_comps. replace (is_rooted n) with false by (rewrite EQ; cbn; symmetry; apply byte_eqb_neq; intros ->; apply N4; rewrite EQ; left; reflexivity).
        rewrite split_nosep by exact N4. cbn [clean_go]. apply beq_neq in N1, N2, N3. change (bs ".") with dot in N2. change (bs "..") with dotdot in N3. rewrite N1, N2, N3. reflexivity. }
    unfold rooted, child. rewrite EQ. replace (byte_eqb x "/"%byte) with false by (symmetry; apply byte_eqb_neq; intros ->; apply N4; rewrite EQ; left; reflexivity). reflexivity.
  - assert (NE : g_path b <> []) by (intros X; rewrite X in PB; discriminate). rewrite (Join_child _ n NE EN).
    assert (RT : rooted (g_path b) = g_path b) by (apply has_prefix_iff in PB; destruct PB as (r & ->); reflexivity). rewrite RT. apply child_rooted.
    apply has_prefix_iff in PB. destruct PB as (r & ->). unfold Clean. change (is_rooted (bs "/" ++ r)) with true. cbv iota. apply (has_prefix_app (bs "/")).
Qed.
End Authority.
