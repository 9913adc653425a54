(** net/url as the stores use it (C100, C101). *)
From Verif Require Import Base.Bytes Base.BytesFacts Model.GoStd Model.Storepath Model.StoreBackends Model.GoUrl Spec.UrlSpec.
Ltac Zify.zify_post_hook ::= idtac.

(** * Splitting *)
Lemma split2_none s c : ~ In c s -> split2 s c = (s, None).
Proof. intros H. unfold split2. apply index_byte_none in H. rewrite H. reflexivity. Qed.
Lemma firstn_length_app (a b : bytes) : firstn (length a) (a ++ b) = a.
Proof. induction a as [|x a IH]; cbn; [destruct b; reflexivity|congruence]. Qed.
Lemma skipn_S_app (a : bytes) c b : skipn (S (length a)) (a ++ c :: b) = b.
Proof. induction a as [|x a IH]; [reflexivity|exact IH]. Qed.
Lemma split2_first a c b : ~ In c a -> split2 (a ++ c :: b) c = (a, Some b).
Proof.
  intros H. unfold split2. rewrite index_byte_first by exact H. rewrite skipn_S_app. f_equal. apply firstn_length_app.
Qed.
Lemma split2_inv s c a r : split2 s c = (a, r) -> ~ In c a /\
  match r with None => s = a | Some b => s = a ++ c :: b end.
Proof.
  unfold split2. destruct (index_byte s c) as [i|] eqn:E.
  - apply index_byte_some in E. intros H. injection H as <- <-. destruct E as (p & q & -> & <- & Hp).
    split; [rewrite firstn_length_app; exact Hp|]. rewrite firstn_length_app. f_equal. f_equal. symmetry. apply (skipn_S_app p c q).
  - apply index_byte_none in E. intros H. injection H as <- <-. auto.
Qed.

(** * Decoding *)
Lemma unescape_plain s : ~ In percent s -> url_unescape s = Ok s.
Proof.
  induction s as [|c s IH]; intros H; [reflexivity|]. cbn [url_unescape].
  destruct (byte_eqb_spec c percent) as [->|_]; [elim H; left; reflexivity|].
  rewrite IH by (intros X; apply H; right; exact X). reflexivity.
Qed.
Lemma unescape_len_aux n : forall s p, length s <= n -> url_unescape s = Ok p ->
  length p <= length s /\ (length p = length s -> p = s /\ ~ In percent s).
Proof.
  induction n as [|n IH]; intros s p Hn H.
  - destruct s; [|cbn in Hn; lia]. injection H as <-. split; [lia|]. intros _. split; [reflexivity|intros []].
  - destruct s as [|c s]; [injection H as <-; split; [lia|]; intros _; split; [reflexivity|intros []]|].
    cbn [url_unescape] in H. cbn [length] in Hn. destruct (byte_eqb_spec c percent) as [->|Hc].
    + destruct s as [|h1 [|h2 s]]; try discriminate. destruct (hex_val h1); [|discriminate]. destruct (hex_val h2); [|discriminate].
      destruct (url_unescape s) as [r|e|w] eqn:E; try discriminate. cbn [rbind] in H. injection H as <-.
      cbn [length] in *. destruct (IH s r ltac:(lia) E). split; lia.
    + destruct (url_unescape s) as [r|e|w] eqn:E; try discriminate. cbn [rbind] in H. injection H as <-.
      destruct (IH s r ltac:(lia) E) as [H1 H2]. cbn [length]. split; [lia|]. intros HL.
      destruct (H2 ltac:(lia)) as [-> H3]. split; [reflexivity|]. intros [X|X]; [congruence|auto].
Qed.
Lemma unescape_len s p : url_unescape s = Ok p ->
  length p <= length s /\ (length p = length s -> p = s /\ ~ In percent s).
Proof. apply (unescape_len_aux (length s)). lia. Qed.

(** * Which texts are their own path *)
Lemma scheme_end_bound s : forall first i j, scheme_end s first i = Ok (Some j) -> i <= j < i + length s /\ (first = true -> i < j).
Proof.
  induction s as [|c s IH]; intros first i j; cbn [scheme_end]; [discriminate|]. cbn [length].
  destruct (_ || _); [intros H; apply IH in H; lia|].
  destruct (_ || _); [destruct first; [discriminate|]; intros H; apply IH in H; split; [lia|discriminate]|].
  destruct (byte_eqb c ":"%byte); [|discriminate]. destruct first; [discriminate|]. intros H. injection H as <-. split; [lia|discriminate].
Qed.
Lemma getScheme_inv s sc rest : getScheme s = Ok (sc, rest) -> (sc = [] /\ rest = s /\ scheme_end s true 0 = Ok None) \/ (sc <> [] /\ length rest < length s).
Proof.
  unfold getScheme. destruct (scheme_end s true 0) as [[j|]|e|w] eqn:E; try discriminate; cbn [rbind]; intros H; [|injection H as <- <-; auto].
  right. apply scheme_end_bound in E. destruct E as [E1 E2]. specialize (E2 eq_refl).
  assert (H1 : (firstn j s, skipn (S j) s) = (sc, rest)) by congruence. clear H.
  assert (H2 : firstn j s = sc) by exact (f_equal fst H1). assert (H3 : skipn (S j) s = rest) by exact (f_equal snd H1). clear H1. split.
  - rewrite <- H2. destruct s; [cbn in E1; lia|]. destruct j; [lia|discriminate].
  - rewrite <- H3, skipn_length. lia.
Qed.
Definition query_split (rest : bytes) : bytes * bool * bytes :=
  if byte_eqb (last rest x00) "?"%byte && Nat.eqb (count_byte "?"%byte rest) 1
  then (removelast rest, true, [])
  else (fst (split2 rest "?"%byte), false, match snd (split2 rest "?"%byte) with Some q => q | None => [] end).
Lemma query_none rest : ~ In "?"%byte rest -> query_split rest = (rest, false, []).
Proof.
  intros H. unfold query_split. rewrite split2_none by exact H.
  replace (byte_eqb (last rest x00) "?"%byte) with false; [reflexivity|].
  symmetry. destruct (byte_eqb_spec (last rest x00) "?"%byte) as [E|]; [|reflexivity].
  destruct rest as [|c rest] using rev_ind; [discriminate|]. rewrite last_last in E. subst. elim H. apply in_or_app. right. left. reflexivity.
Qed.
Lemma query_len rest r f q : query_split rest = (r, f, q) -> length r <= length rest /\ (length r = length rest -> ~ In "?"%byte rest).
Proof.
  unfold query_split. destruct (byte_eqb_spec (last rest x00) "?"%byte) as [E|E]; cbn [andb].
  - destruct rest as [|c rest _] using rev_ind; [discriminate|]. destruct (Nat.eqb _ 1).
    + intros H. injection H as <- <- <-. rewrite removelast_last, app_length. cbn [length]. lia.
    + intros H. injection H as <- <- <-. destruct (split2 (rest ++ [c]) "?"%byte) as [a b] eqn:E2. cbn [fst]. apply split2_inv in E2.
      destruct E2 as [H1 H2]. destruct b as [b|]; rewrite H2.
      * rewrite app_length. cbn [length]. lia.
      * split; [lia|]. intros _. exact H1.
  - intros H. injection H as <- <- <-. destruct (split2 rest "?"%byte) as [a b] eqn:E2. cbn [fst]. apply split2_inv in E2.
    destruct E2 as [H1 H2]. destruct b as [b|]; rewrite H2; [rewrite app_length; cbn [length]; lia|]. split; [lia|]. intros _. exact H1.
Qed.
Section Authority.
Variable authority : bytes -> res (option bytes * bytes).
(** [url_parse] behind the scheme and the query. *)
Definition hier (scheme rest : bytes) (force : bool) (query : bytes) : res gourl :=
    let path_part auth omit rest :=
      let* p := url_unescape rest in
      Ok (GoUrl scheme [] (fst auth) (snd auth) p (raw_of UPath rest p) omit force query [] []) in
    if negb (has_prefix rest (bs "/")) && negb (beq scheme []) then
      Ok (GoUrl scheme rest None [] [] [] false force query [] [])
    else if negb (has_prefix rest (bs "/")) && contains_byte (fst (split2 rest "/"%byte)) ":"%byte then
      Err (EMsg "first path segment in URL cannot contain colon")
    else if (negb (beq scheme []) || negb (has_prefix rest (bs "///"))) && has_prefix rest (bs "//") then
      let a := skipn 2 rest in
      let '(a, rest) := match index_byte a "/"%byte with Some i => (firstn i a, skipn i a) | None => (a, []) end in
      let* auth := authority a in
      path_part auth false rest
    else path_part (None, []) (negb (beq scheme []) && has_prefix rest (bs "/")) rest.
Lemma url_parse_eq raw : url_parse authority raw =
  if existsb is_ctl raw then Err (EMsg "invalid control character in URL")
  else if beq raw (bs "*") then Ok (GoUrl [] [] None [] (bs "*") [] false false [] [] [])
  else
    let* sr := getScheme raw in
    let '(r, f, q) := query_split (snd sr) in hier (map lower_byte (fst sr)) r f q.
Proof. reflexivity. Qed.
Lemma hier_len scheme rest f q g : hier scheme rest f q = Ok g -> g_scheme g = scheme /\
  length (g_path g) <= length rest /\ (length (g_path g) = length rest -> g_path g = rest /\ ~ In percent rest /\
    (scheme = [] -> (forall r, rest = bs "//" ++ r -> exists r', r = "/"%byte :: r') /\
       (has_prefix rest (bs "/") = false -> ~ In ":"%byte (fst (split2 rest "/"%byte))))).
Proof.
  unfold hier. cbv zeta.
  destruct (has_prefix rest (bs "/")) eqn:HP; cbn [negb andb].
  - destruct ((negb (beq scheme []) || negb (has_prefix rest (bs "///"))) && has_prefix rest (bs "//")) eqn:HA.
    + apply andb_true_iff in HA. destruct HA as [HA1 HA2]. apply has_prefix_iff in HA2. destruct HA2 as (r & ->).
      change (skipn 2 (bs "//" ++ r)) with r.
      destruct (match index_byte r "/"%byte with Some i => (firstn i r, skipn i r) | None => (r, []) end) as [a p0] eqn:EA.
      assert (HL : length p0 <= length r).
      { destruct (index_byte r "/"%byte); injection EA as _ <-; [rewrite skipn_length|cbn]; lia. }
      destruct (authority a) as [au|e|w]; try discriminate. cbn [rbind].
      destruct (url_unescape p0) as [p|e|w] eqn:EU; try discriminate. cbn [rbind]. intros H. injection H as <-. cbn [g_scheme g_path].
      apply unescape_len in EU. rewrite app_length. cbn [length bs]. split; [reflexivity|]. split; [lia|]. intros X. exfalso. cbn in X. lia.
    + destruct (url_unescape rest) as [p|e|w] eqn:EU; try discriminate. cbn [rbind]. intros H. injection H as <-. cbn [g_scheme g_path].
      apply unescape_len in EU. destruct EU as [E1 E2]. split; [reflexivity|]. split; [exact E1|]. intros X. destruct (E2 X) as [-> E3].
      split; [reflexivity|]. split; [exact E3|]. intros ->. split; [|discriminate]. intros r ->.
      rewrite has_prefix_app, andb_true_r in HA. cbn [beq negb orb] in HA. apply negb_false_iff, has_prefix_iff in HA.
      destruct HA as (r' & HA). exists r'. change (bs "///" ++ r') with (bs "//" ++ "/"%byte :: r') in HA. apply app_inv_head in HA. exact HA.
  - destruct (beq_spec scheme []) as [->|Hs]; cbn [negb].
    + destruct (contains_byte (fst (split2 rest "/"%byte)) ":"%byte) eqn:HC; [discriminate|].
      replace (has_prefix rest (bs "//")) with false.
      2:{ symmetry. destruct (has_prefix rest (bs "//")) eqn:X; [|reflexivity]. apply has_prefix_iff in X. destruct X as (r & ->).
          change (bs "//" ++ r) with (bs "/" ++ (bs "/" ++ r)) in HP. rewrite has_prefix_app in HP. discriminate. }
      rewrite andb_false_r. destruct (url_unescape rest) as [p|e|w] eqn:EU; try discriminate. cbn [rbind]. intros H. injection H as <-. cbn [g_scheme g_path].
      apply unescape_len in EU. destruct EU as [E1 E2]. split; [reflexivity|]. split; [exact E1|]. intros X. destruct (E2 X) as [-> E3].
      split; [reflexivity|]. split; [exact E3|]. intros _. split; [|intros _; apply contains_byte_false; exact HC].
      intros r ->. change (bs "//" ++ r) with (bs "/" ++ (bs "/" ++ r)) in HP. rewrite has_prefix_app in HP. discriminate.
    + intros H. injection H as <-. cbn [g_scheme g_path length]. split; [reflexivity|]. split; [lia|]. intros X.
      destruct rest; [|discriminate X]. split; [reflexivity|]. split; [intros []|]. intros ->. congruence.
Qed.
End Authority.
Lemma scheme_end_other s : forall first i, scheme_end s first i = Ok None \/ exists p q, s = p ++ ":"%byte :: q /\ ~ In "/"%byte p.
Proof.
  induction s as [|c s IH]; intros first i; cbn [scheme_end]; [auto|].
  assert (STEP : forall f j, c <> "/"%byte -> scheme_end s f j = Ok None \/ exists p q, c :: s = p ++ ":"%byte :: q /\ ~ In "/"%byte p).
  { intros f j Hc. destruct (IH f j) as [H|(p & q & -> & H)]; [auto|right]. exists (c :: p), q. split; [reflexivity|]. intros [X|X]; auto. }
  destruct (((97 <=? b2n c) && (b2n c <=? 122) || (65 <=? b2n c) && (b2n c <=? 90))%N) eqn:E1; [apply STEP; intros ->; discriminate|].
  destruct (((48 <=? b2n c) && (b2n c <=? 57))%N || contains_byte (bs "+-.") c) eqn:E2.
  { destruct first; [auto|]. apply STEP. intros ->. discriminate. }
  destruct (byte_eqb_spec c ":"%byte) as [->|_]; [|auto]. right. exists [], s. split; [reflexivity|intros []].
Qed.
Lemma ctl_iff s : existsb is_ctl s = false <-> Forall (fun c => (32 <= b2n c)%N /\ b2n c <> 127%N) s.
Proof.
  induction s as [|c s IH]; cbn [existsb]; [split; [constructor|reflexivity]|]. rewrite orb_false_iff, IH, Forall_cons_iff.
  unfold is_ctl. rewrite orb_false_iff, N.ltb_ge, N.eqb_neq. reflexivity.
Qed.
Lemma first_segment s seg : ~ In "/"%byte seg -> (s = seg \/ exists rest, s = seg ++ "/"%byte :: rest) -> fst (split2 s "/"%byte) = seg.
Proof. intros H [->|(r & ->)]; [rewrite split2_none by exact H|rewrite split2_first by exact H]; reflexivity. Qed.
Lemma first_segment_is s : let seg := fst (split2 s "/"%byte) in ~ In "/"%byte seg /\ (s = seg \/ exists rest, s = seg ++ "/"%byte :: rest).
Proof. cbv zeta. destruct (split2 s "/"%byte) as [a [b|]] eqn:E; cbn [fst]; apply split2_inv in E; destruct E as [H1 H2]; eauto. Qed.
Lemma ordinary_iff s : Forall ordinary s <-> Forall (fun c => (32 <= b2n c)%N /\ b2n c <> 127%N) s /\ ~ In "#"%byte s /\ ~ In "?"%byte s /\ ~ In percent s.
Proof.
  rewrite !Forall_forall. split.
  - intros H. split; [intros c X; apply H in X; unfold ordinary in X; tauto|].
    split; [|split]; intros X; apply H in X; unfold ordinary, percent in X; tauto.
  - intros (H & H1 & H2 & H3) c X. specialize (H c X). unfold ordinary. split; [tauto|]. split; [tauto|].
    split; [|split]; intros ->; auto.
Qed.
Section Stores.
Variable authority : bytes -> res (option bytes * bytes).
Lemma colon_first s p q : s = p ++ ":"%byte :: q -> ~ In "/"%byte p -> In ":"%byte (fst (split2 s "/"%byte)).
Proof.
  intros -> H. destruct (first_segment_is (p ++ ":"%byte :: q)) as [H1 H2]. cbv zeta in *. remember (fst (split2 (p ++ ":"%byte :: q) "/"%byte)) as seg.
  destruct H2 as [<-|(r & H2)]; [apply in_or_app; right; left; reflexivity|].
  clear Heqseg. revert seg H1 H2. induction p as [|c p IH]; intros seg H1 H2.
  - destruct seg as [|x seg]; cbn in H2; [discriminate|]. injection H2 as <- _. left. reflexivity.
  - destruct seg as [|x seg]; cbn in H2.
    + injection H2 as -> _. elim H. left. reflexivity.
    + injection H2 as <- H2. right. apply IH; [intros X; apply H; right; exact X|intros X; apply H1; right; exact X|exact H2].
Qed.
Lemma names_itself_path s : names_itself s ->
  exists g, url_Parse authority s = Ok g /\ g_scheme g = [] /\ g_path g = s.
Proof.
  intros (Hs & HO & H2 & H3). apply ordinary_iff in HO. destruct HO as (HC & HH & HQ & HP).
  assert (H3' : ~ In ":"%byte (fst (split2 s "/"%byte))).
  { destruct (first_segment_is s) as [F1 F2]. cbv zeta in *. apply H3; auto. }
  unfold url_Parse. rewrite split2_none by exact HH. rewrite url_parse_eq. apply ctl_iff in HC. rewrite HC.
  destruct (beq_spec s (bs "*")) as [->|_]; [eexists; split; [reflexivity|auto]|].
  unfold getScheme. destruct (scheme_end_other s true 0) as [E|(p & q & E & X)]; [|elim H3'; eapply colon_first; eassumption].
  rewrite E. cbn [rbind fst snd map]. rewrite query_none by exact HQ. unfold hier. cbv zeta.
  change (beq [] []) with true. cbn [negb andb orb]. rewrite andb_false_r.
  replace (contains_byte (fst (split2 s "/"%byte)) ":"%byte) with false by (symmetry; apply contains_byte_false; exact H3').
  rewrite andb_false_r. rewrite unescape_plain by exact HP.
  destruct (has_prefix s (bs "//")) eqn:E2.
  - apply has_prefix_iff in E2. destruct E2 as (r & E2). destruct (H2 _ E2) as (r' & ->).
    change (bs "//" ++ "/"%byte :: r') with (bs "///" ++ r') in E2. replace (has_prefix s (bs "///")) with true by (rewrite E2; symmetry; apply has_prefix_app). cbn [negb andb rbind]. eexists. split; [reflexivity|auto].
  - rewrite andb_false_r. cbn [rbind]. eexists. split; [reflexivity|auto].
Qed.
Lemma path_is_text s g : s <> [] -> url_Parse authority s = Ok g -> g_path g = s -> names_itself s.
Proof.
  intros Hs HP HE. unfold url_Parse in HP. destruct (split2 s "#"%byte) as [u fr] eqn:ES.
  destruct (url_parse authority u) as [g0|e|w] eqn:EP; try discriminate. cbn [rbind] in HP.
  assert (G : g_path g0 = s).
  { destruct fr as [[|x f]|]; [congruence| |congruence]. destruct (url_unescape (x :: f)); try discriminate. cbn [rbind] in HP. injection HP as <-. exact HE. }
  clear HP HE. apply split2_inv in ES. destruct ES as [S1 S2].
  assert (LU : length u <= length s) by (destruct fr; rewrite S2; [rewrite app_length; lia|lia]).
  rewrite url_parse_eq in EP. destruct (existsb is_ctl u) eqn:EC; [discriminate|]. apply ctl_iff in EC.
  destruct (beq_spec u (bs "*")) as [->|_].
  { injection EP as <-. cbn [g_path] in G. subst s. split; [discriminate|]. split; [repeat constructor; discriminate|]. split.
    - intros r X. discriminate X.
    - intros seg N [<-|(r & X)]; [intros [X|[]]; discriminate X|]. destruct seg as [|y [|z seg]]; try discriminate X. }
  destruct (getScheme u) as [[sc rest]|e|w] eqn:EG; try discriminate. cbn [rbind fst snd] in EP.
  destruct (query_split rest) as [[r f] q] eqn:EQ. apply query_len in EQ. destruct EQ as [Q1 Q2].
  apply hier_len in EP. destruct EP as (E1 & E2 & E3). rewrite G in *.
  destruct (getScheme_inv _ _ _ EG) as [(-> & -> & EN)|[X Y]]; [|lia].
  assert (HL : length s = length r) by lia. destruct (E3 HL) as (<- & E4 & E5). destruct (E5 eq_refl) as [E6 E7]. clear E5 E3.
  assert (HU : s = u).
  { destruct fr as [fr|]; [|congruence]. exfalso. apply (f_equal (@length byte)) in S2. rewrite app_length in S2. cbn [length] in S2. lia. }
  rewrite HU in *. assert (HQ : ~ In "?"%byte u) by (apply Q2; reflexivity).
  split; [exact Hs|]. split; [apply ordinary_iff; auto|]. split; [exact E6|].
  intros seg N X. pose proof (first_segment _ _ N X) as F.
  destruct (has_prefix u (bs "/")) eqn:E; [|rewrite <- F; apply E7; reflexivity].
  apply has_prefix_iff in E. destruct E as (z & ->). cbn in F. rewrite <- F. intros [].
Qed.
Theorem own_directory s : s <> [] -> NewFromURI_text authority s = Ok (SFS s) <-> names_itself s.
Proof.
  intros Hs. split.
  - unfold NewFromURI_text. destruct (url_Parse authority s) as [g|e|w] eqn:E; try discriminate. cbn [rbind]. unfold NewFromURI. cbn [u_scheme u_path].
    intros H. destruct (g_path g) as [|c p] eqn:EP.
    + assert (s = StoreDir).
      { destruct (beq _ _); [injection H; auto|]. destruct (beq _ _); [discriminate|]. destruct (beq _ _); [injection H; auto|].
        destruct (beq _ _); [discriminate|]. destruct (beq _ _); discriminate. }
      subst s. injection E as <-. discriminate EP.
    + apply (path_is_text s g Hs E). rewrite EP.
      destruct (beq _ _); [injection H; auto|]. destruct (beq _ _); [discriminate|]. destruct (beq _ _); [injection H; auto|].
        destruct (beq _ _); [discriminate|]. destruct (beq _ _); discriminate.
  - intros H. destruct (names_itself_path s H) as (g & E1 & E2 & E3). unfold NewFromURI_text. rewrite E1. cbn [rbind]. unfold NewFromURI. cbn [u_scheme u_path].
    rewrite E2, E3. change (beq [] []) with true. cbv iota. unfold NewFSStore. destruct s; [congruence|reflexivity].
Qed.
Lemma file_scheme p : Forall ordinary p -> has_prefix p (bs "/") = true -> authority [] = Ok (None, []) ->
  NewFromURI_text authority (bs "file://" ++ p) = Ok (SFS p).
Proof.
  intros HO HP HA. apply ordinary_iff in HO. destruct HO as (HC & HH & HQ & HR).
  unfold NewFromURI_text, url_Parse. rewrite split2_none.
  2:{ intros X. apply in_app_or in X. destruct X as [X|X]; [|auto]. revert X. apply contains_byte_false. reflexivity. }
  rewrite url_parse_eq. replace (existsb is_ctl (bs "file://" ++ p)) with false.
  2:{ symmetry. rewrite existsb_app. apply ctl_iff in HC. rewrite HC. reflexivity. }
  change (getScheme (bs "file://" ++ p)) with (Ok (bs "file", bs "//" ++ p)).
  replace (beq (bs "file://" ++ p) (bs "*")) with false by (symmetry; destruct (beq_spec (bs "file://" ++ p) (bs "*")) as [X|]; [discriminate X|reflexivity]).
  cbn [rbind fst snd]. rewrite query_none.
  2:{ intros X. apply in_app_or in X. destruct X as [X|X]; [|auto]. revert X. apply contains_byte_false. reflexivity. }
  apply has_prefix_iff in HP. destruct HP as (r & ->). unfold hier. cbv zeta.
  change (map lower_byte (bs "file")) with (bs "file"). 
  change (has_prefix (bs "//" ++ bs "/" ++ r) (bs "/")) with true. change (has_prefix (bs "//" ++ bs "/" ++ r) (bs "//")) with true.
  change (beq (bs "file") []) with false. cbn [negb andb orb].
  change (skipn 2 (bs "//" ++ bs "/" ++ r)) with (bs "/" ++ r).
  change (index_byte (bs "/" ++ r) "/"%byte) with (Some 0). cbv iota. change (firstn 0 (bs "/" ++ r)) with (@nil byte). change (skipn 0 (bs "/" ++ r)) with (bs "/" ++ r).
  rewrite HA. cbn [rbind]. rewrite unescape_plain by exact HR. reflexivity.
Qed.
End Stores.

Lemma unescape_no_panic s : is_panic (url_unescape s) = false.
Proof.
  assert (G : forall n s, length s <= n -> is_panic (url_unescape s) = false); [|apply (G (length s)); lia]. clear s.
  induction n as [|n IH]; intros s Hn; [destruct s; [reflexivity|cbn in Hn; lia]|]. destruct s as [|c s]; [reflexivity|]. cbn [length] in Hn. cbn [url_unescape].
  destruct (byte_eqb c percent).
  - destruct s as [|h1 [|h2 s]]; try reflexivity. destruct (hex_val h1); [|reflexivity]. destruct (hex_val h2); [|reflexivity]. cbn [length] in Hn.
    specialize (IH s ltac:(lia)). destruct (url_unescape s); [reflexivity|reflexivity|discriminate].
  - specialize (IH s ltac:(lia)). destruct (url_unescape s); [reflexivity|reflexivity|discriminate].
Qed.
Lemma scheme_end_no_panic s : forall f i, is_panic (scheme_end s f i) = false.
Proof.
  induction s as [|c s IH]; intros f i; [reflexivity|]. cbn [scheme_end]. destruct (_ || _); [apply IH|]. destruct (_ || _); [destruct f; [reflexivity|apply IH]|].
  destruct (byte_eqb _ _); [destruct f; reflexivity|reflexivity].
Qed.
Lemma parse_no_panic authority s : (forall a, is_panic (authority a) = false) -> is_panic (url_Parse authority s) = false.
Proof.
  intros HA. unfold url_Parse. destruct (split2 s "#"%byte) as [u fr].
  assert (P : is_panic (url_parse authority u) = false).
  { rewrite url_parse_eq. destruct (existsb is_ctl u); [reflexivity|]. destruct (beq u (bs "*")); [reflexivity|].
    unfold getScheme. pose proof (scheme_end_no_panic u true 0) as X. destruct (scheme_end u true 0) as [[j|]|e|w]; [| |reflexivity|discriminate]; clear X; cbn [rbind fst snd].
    - generalize (map lower_byte (firstn j u)) (skipn (S j) u). intros sc r0. destruct (query_split r0) as [[r f] q]. unfold hier. cbv zeta.
      destruct (_ && _); [reflexivity|]. destruct (_ && _); [reflexivity|]. destruct (_ && _).
      + destruct (index_byte (skipn 2 r) "/"%byte).
        * specialize (HA (firstn n (skipn 2 r))). destruct (authority _); [|reflexivity|discriminate]. cbn [rbind]. pose proof (unescape_no_panic (skipn n (skipn 2 r))) as X. destruct (url_unescape _); [reflexivity|reflexivity|discriminate].
        * specialize (HA (skipn 2 r)). destruct (authority _); [reflexivity|reflexivity|discriminate].
      + pose proof (unescape_no_panic r) as X. destruct (url_unescape r); [reflexivity|reflexivity|discriminate].
    - change (map lower_byte []) with (@nil byte). destruct (query_split u) as [[r f] q]. unfold hier. cbv zeta.
      destruct (_ && _); [reflexivity|]. destruct (_ && _); [reflexivity|]. destruct (_ && _).
      + destruct (index_byte (skipn 2 r) "/"%byte).
        * specialize (HA (firstn n (skipn 2 r))). destruct (authority _); [|reflexivity|discriminate]. cbn [rbind]. pose proof (unescape_no_panic (skipn n (skipn 2 r))) as X. destruct (url_unescape _); [reflexivity|reflexivity|discriminate].
        * specialize (HA (skipn 2 r)). destruct (authority _); [reflexivity|reflexivity|discriminate].
      + pose proof (unescape_no_panic r) as X. destruct (url_unescape r); [reflexivity|reflexivity|discriminate]. }
  destruct (url_parse authority u); [|reflexivity|discriminate]. cbn [rbind]. destruct fr as [[|x f]|]; [reflexivity| |reflexivity].
  pose proof (unescape_no_panic (x :: f)) as X. destruct (url_unescape (x :: f)); [reflexivity|reflexivity|discriminate].
Qed.
