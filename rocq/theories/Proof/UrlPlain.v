(** Ordinary base URLs (C101). *)
From Verif Require Import Base.Bytes Base.BytesFacts Model.GoStd Model.Storepath Model.StoreBackends Model.GoUrl Model.GoUrlAuth Spec.StorePathSpec Spec.BackendSpec Spec.UrlSpec
  Proof.PathFacts Proof.StorePathProps Proof.BackendProps Proof.UrlProps Proof.UrlRequest Proof.UrlAuth.
Ltac Zify.zify_post_hook ::= idtac.

Lemma alnum_iff c : alnum c <-> is_alnum c = true.
Proof.
  unfold alnum, is_alnum. rewrite !orb_true_iff, !andb_true_iff, !N.leb_le. tauto.
Qed.
Lemma plain_is c : (alnum c \/ In c (bs "-_.~/+=")) <-> (is_alnum c || contains_byte (bs "-_.~/+=") c) = true.
Proof. rewrite orb_true_iff, alnum_iff, contains_byte_iff. tauto. Qed.
Definition plainb (c : byte) : bool := is_alnum c || contains_byte (bs "-_.~/+=") c.
Lemma plain_b q : plain_text q -> forallb plainb q = true.
Proof. unfold plain_text. rewrite Forall_forall, forallb_forall. intros H c X. apply plain_is, H, X. Qed.
Lemma plain_facts q : forallb plainb q = true ->
  existsb is_ctl q = false /\ ~ In "#"%byte q /\ ~ In "?"%byte q /\ ~ In percent q /\ url_escape UPath q = q.
Proof.
  intros H. assert (N : forall c, plainb c = false -> ~ In c q).
  { intros c Hc X. rewrite forallb_forall in H. rewrite (H c X) in Hc. discriminate. }
  split; [|split; [apply N; reflexivity|split; [apply N; reflexivity|split; [apply N; reflexivity|]]]].
  - destruct (existsb is_ctl q) eqn:E; [|reflexivity]. apply existsb_exists in E. destruct E as (c & X & Y). exfalso. apply (N c); [|exact X].
    destruct c; try reflexivity; discriminate Y.
  - clear N. induction q as [|c q IH]; [reflexivity|]. cbn [forallb] in H. apply andb_true_iff in H. destruct H as [H1 H2].
    change (url_escape UPath (c :: q)) with (escape_byte UPath c ++ url_escape UPath q). rewrite (IH H2).
    replace (escape_byte UPath c) with [c]; [reflexivity|]. destruct c; try reflexivity; discriminate H1.
Qed.
Definition hostb (c : byte) : bool := is_alnum c || contains_byte (bs "-.:") c.
Lemma host_b h port : host_name h -> port_text port -> forallb hostb (h ++ port) = true /\ ~ In ":"%byte h /\
  (port = [] \/ exists d, port = ":"%byte :: d /\ all_digits d = true).
Proof.
  intros [_ H] P. rewrite Forall_forall in H.
  assert (H1 : forallb hostb h = true).
  { apply forallb_forall. intros c X. unfold hostb. destruct (H c X) as [Y|Y]; [apply alnum_iff in Y; rewrite Y; reflexivity|].
    destruct Y as [<-|[<-|[]]]; reflexivity. }
  assert (H2 : ~ In ":"%byte h).
  { intros X. destruct (H _ X) as [Y|[Y|[Y|[]]]]; try discriminate Y. apply alnum_iff in Y. discriminate Y. }
  destruct P as [->|(d & -> & D)]; [rewrite app_nil_r; auto|].
  assert (D1 : all_digits d = true).
  { unfold all_digits. apply forallb_forall. rewrite Forall_forall in D. intros c X. destruct (D c X) as [A B]. apply N.leb_le in A, B. rewrite A, B. reflexivity. }
  split; [|split; [exact H2|right; exists d; auto]]. rewrite forallb_app, H1. cbn [andb]. change (bs ":" ++ d) with (":"%byte :: d). cbn [forallb]. 
  apply forallb_forall. intros c X. unfold all_digits in D1. rewrite forallb_forall in D1. specialize (D1 c X). unfold hostb, is_alnum. rewrite D1. reflexivity.
Qed.
Lemma host_parse h port : host_name h -> port_text port -> parseAuthority (h ++ port) = Ok (None, h ++ port).
Proof.
  intros H P. destruct (host_b h port H P) as (HB & NC & PT). unfold parseAuthority.
  assert (NA : forall c, hostb c = false -> ~ In c (h ++ port)).
  { intros c Hc X. rewrite forallb_forall in HB. rewrite (HB c X) in Hc. discriminate. }
  rewrite last_split_none by (apply NA; reflexivity).
  assert (ST : forallb stays (h ++ port) = true).
  { apply forallb_forall. intros c X. rewrite forallb_forall in HB. specialize (HB c X). destruct c; try reflexivity; discriminate HB. }
  replace (parseHost (h ++ port)) with (Ok (h ++ port)).
  - cbn [rbind]. rewrite escape_stays by exact ST. reflexivity.
  - symmetry. unfold parseHost. replace (has_prefix (h ++ port) (bs "[")) with false.
    2:{ symmetry. destruct (has_prefix _ _) eqn:E; [|reflexivity]. apply has_prefix_iff in E. destruct E as (r & E). exfalso. apply (NA "["%byte); [reflexivity|]. rewrite E. left. reflexivity. }
    destruct PT as [->|(d & -> & D)].
    + rewrite app_nil_r in *. rewrite last_split_none by exact NC. apply unescape_stays, ST.
    + rewrite last_split_app by (apply digits_stay; exact D). rewrite D. apply unescape_stays, ST.
Qed.
Definition cache_url (sc h port q : bytes) : gourl := GoUrl sc [] None (h ++ port) q [] false false [] [] [].
Lemma parse_cache sc h port q : sc = bs "http" \/ sc = bs "https" -> host_name h -> port_text port -> base_path q ->
  url_Parse parseAuthority (cache_text sc h port q) = Ok (cache_url sc h port q).
Proof.
  intros HS HH HP [HQ PQ]. apply plain_b in PQ. destruct (plain_facts q PQ) as (Q1 & Q2 & Q3 & Q4 & Q5).
  destruct (host_b h port HH HP) as (HB & _ & _).
  assert (NA : forall c, hostb c = false -> ~ In c (h ++ port)).
  { intros c Hc X. rewrite forallb_forall in HB. rewrite (HB c X) in Hc. discriminate. }
  set (R := bs "//" ++ (h ++ port) ++ q).
  assert (TX : cache_text sc h port q = sc ++ bs ":" ++ R) by (unfold cache_text, R; rewrite <- !app_assoc; reflexivity).
  assert (CT : existsb is_ctl (h ++ port) = false).
  { destruct (existsb is_ctl (h ++ port)) eqn:E; [|reflexivity]. apply existsb_exists in E. destruct E as (c & X & Y). exfalso. apply (NA c); [|exact X].
    destruct c; try reflexivity; discriminate Y. }
  assert (NR : forall c, c = "#"%byte \/ c = "?"%byte -> ~ In c R).
  { intros c Hc X. unfold R in X. rewrite !in_app_iff in X. rewrite <- in_app_iff in X. destruct X as [X|[X|X]].
    - destruct X as [X|[X|[]]]; destruct Hc; subst; discriminate.
    - revert X. apply NA. destruct Hc; subst; reflexivity.
    - destruct Hc; subst; auto. }
  unfold url_Parse. rewrite TX, split2_none.
  2:{ rewrite !in_app_iff. intros [X|[X|X]].
      - revert X. apply contains_byte_false. destruct HS as [->| ->]; reflexivity.
      - destruct X as [X|[]]; discriminate X.
      - revert X. apply NR. auto. }
  rewrite url_parse_eq. replace (existsb is_ctl (sc ++ bs ":" ++ R)) with false.
  2:{ symmetry. unfold R. rewrite !existsb_app. rewrite <- existsb_app with (l1 := h). rewrite CT, Q1. destruct HS as [->| ->]; reflexivity. }
  replace (beq (sc ++ bs ":" ++ R) (bs "*")) with false by (symmetry; apply beq_neq; destruct HS as [->| ->]; discriminate).
  destruct (getScheme_http sc R HS) as [G1 G2]. rewrite G1. cbn [rbind fst snd]. rewrite G2. rewrite query_none by (apply NR; auto).
  unfold hier. cbv zeta. change (has_prefix R (bs "/")) with true. change (has_prefix R (bs "//")) with true.
  replace (beq sc []) with false by (destruct HS as [->| ->]; reflexivity). cbn [negb andb orb]. change (skipn 2 R) with ((h ++ port) ++ q).
  assert (NS : ~ In "/"%byte (h ++ port)) by (apply NA; reflexivity).
  assert (SP : match index_byte ((h ++ port) ++ q) "/"%byte with Some i => (firstn i ((h ++ port) ++ q), skipn i ((h ++ port) ++ q)) | None => ((h ++ port) ++ q, []) end = (h ++ port, q)).
  { destruct HQ as [->|(r & ->)].
    - rewrite app_nil_r. destruct (index_byte (h ++ port) "/"%byte) eqn:E; [|reflexivity]. exfalso.
      pose proof (split2_none (h ++ port) "/"%byte NS) as X. unfold split2 in X. rewrite E in X. discriminate X.
    - change (bs "/" ++ r) with ("/"%byte :: r). rewrite no_index by exact NS. rewrite firstn_length_app.
      rewrite skipn_app, skipn_all, Nat.sub_diag. reflexivity. }
  rewrite SP. rewrite host_parse by assumption. cbn [rbind fst snd]. rewrite unescape_plain by exact Q4. cbn [rbind].
  unfold raw_of. rewrite Q5, beq_refl. reflexivity.
Qed.
Lemma print_cache sc h port P : sc = bs "http" \/ sc = bs "https" -> host_name h -> plain_text P -> P <> [] ->
  url_String (cache_url sc h port P) = cache_text sc h port (rooted P).
Proof.
  intros HS [HN _] PP NE. apply plain_b in PP. destruct (plain_facts P PP) as (_ & _ & _ & _ & E).
  assert (EP : EscapedPath (cache_url sc h port P) = P).
  { unfold EscapedPath, keeps_raw. cbn [cache_url g_rawpath g_path]. cbn [beq negb andb]. rewrite E. destruct (beq P (bs "*")) eqn:EB; [|reflexivity].
    apply beq_eq in EB. subst P. discriminate PP. }
  unfold url_String. rewrite EP. cbn [cache_url g_scheme g_opaque g_user g_host g_path g_omithost g_force g_query g_fragment].
  replace (beq (h ++ port) []) with false by (symmetry; apply beq_neq; destruct h; [congruence|discriminate]).
  replace (beq P []) with false by (symmetry; apply beq_neq; exact NE).
  match goal with |- ?m ++ _ = _ => replace m with (sc ++ bs ":") by (destruct HS as [->| ->]; reflexivity) end.
  replace (beq sc []) with false by (destruct HS as [->| ->]; reflexivity). cbn [negb andb orb beq].
  unfold cache_text. rewrite !app_nil_r. rewrite <- !app_assoc. rewrite andb_true_r. f_equal.
  change (bs "://" ++ h ++ port ++ rooted P) with (bs ":" ++ bs "//" ++ h ++ port ++ rooted P). 
  f_equal. f_equal. rewrite app_nil_l. f_equal. f_equal. destruct P as [|c P']; [congruence|].
  replace (has_prefix (c :: P') (bs "/")) with (byte_eqb c "/"%byte) by (change (has_prefix (c :: P') (bs "/")) with (byte_eqb c "/"%byte && true); rewrite andb_true_r; reflexivity).
  unfold rooted.
  destruct (byte_eqb c "/"%byte); reflexivity.
Qed.

Lemma split_chars (Q : byte -> Prop) s c : Forall Q s -> Forall (Forall Q) (split_byte s c).
Proof.
  induction 1 as [|x s Hx _ IH]; cbn [split_byte]; [repeat constructor|].
  destruct (byte_eqb x c); [constructor; [constructor|exact IH]|]. destruct (split_byte s c) as [|y l]; [repeat constructor; auto|].
  inversion IH; subst. constructor; [constructor; assumption|assumption].
Qed.
Lemma clean_go_chars (Q : byte -> Prop) rt l : Forall (Forall Q) l -> forall acc, Forall (Forall Q) acc -> Forall (Forall Q) (clean_go rt acc l).
Proof.
  induction 1 as [|c l Hc _ IH]; intros acc Ha; cbn [clean_go]; [apply Forall_rev; exact Ha|].
  destruct (_ || _); [auto|]. destruct (beq c dotdot).
  - destruct acc as [|y acc]; [destruct rt; apply IH; auto|]. inversion Ha; subst. destruct (beq y dotdot); apply IH; auto.
  - apply IH. auto.
Qed.
Lemma join_chars (Q : byte -> Prop) l c : Q c -> Forall (Forall Q) l -> Forall Q (join_byte l c).
Proof.
  intros Hc. induction 1 as [|x l Hx Hl IH]; [constructor|]. cbn [join_byte]. destruct l; [exact Hx|]. apply Forall_app. split; [exact Hx|constructor; assumption].
Qed.
Lemma Clean_chars (Q : byte -> Prop) p : Q slash -> Q "."%byte -> Forall Q p -> Forall Q (Clean p).
Proof.
  intros Hs Hd Hp. unfold Clean. cbv zeta.
  assert (C : Forall (Forall Q) (clean_comps p)) by (apply clean_go_chars; [apply split_chars, Hp|constructor]).
  destruct (is_rooted p); [constructor; [exact Hs|apply join_chars; assumption]|]. destruct (clean_comps p) as [|x l]; [repeat constructor; exact Hd|]. apply join_chars; assumption.
Qed.
Lemma Join2_chars (Q : byte -> Prop) a b : Q slash -> Q "."%byte -> Forall Q a -> Forall Q b -> Forall Q (Join2 a b).
Proof.
  intros Hs Hd Ha Hb. unfold Join2. destruct a as [|x a]; [destruct b; [constructor|apply Clean_chars; assumption]|].
  apply Clean_chars; [assumption|assumption|]. apply Forall_app. split; [exact Ha|constructor; assumption].
Qed.
Theorem request_cache sc h port q p : sc = bs "http" \/ sc = bs "https" -> host_name h -> port_text port -> base_path q -> wf_store_path p -> ~ In "?"%byte p ->
  exists b name v, url_Parse parseAuthority (cache_text sc h port q) = Ok b /\ NewFromURI_text parseAuthority (cache_text sc h port q) = Ok (SHTTP (Url sc q)) /\
    p = bs "/nix/store/" ++ name /\ constructRequest parseAuthority b p = Ok v /\
    url_String v = cache_text sc h port (child (Clean (rooted q)) name).
Proof.
  intros HS HH HP HQ W NQ. pose proof (parse_cache sc h port q HS HH HP HQ) as PC. exists (cache_url sc h port q).
  assert (RR : reprintable parseAuthority (None, h ++ port)).
  { apply (authority_again (h ++ port)); [apply host_parse; assumption|]. left. cbn [snd]. destruct (has_prefix _ _) eqn:E; [|reflexivity].
    apply has_prefix_iff in E. destruct E as (r & E). destruct HH as [NE HA]. destruct h as [|x h]; [congruence|]. injection E as -> _. inversion HA as [|? ? HX _]; subst.
    destruct HX as [HX|[HX|[HX|[]]]]; try discriminate HX. apply alnum_iff in HX. discriminate HX. }
  assert (HB : http_base (cache_url sc h port q)).
  { split; [exact HS|]. cbn [cache_url g_host]. destruct HH as [NE _]. destruct h; [congruence|discriminate]. }
  destruct (request_store_path parseAuthority _ _ p PC HB RR W) as (name & v0 & EN & EV & SR).
  set (P := Join2 q (Base p)).
  destruct (store_path_last p W) as (n & E & _ & L).
  assert (n = name) as -> by (rewrite E in EN; apply app_inv_head in EN; exact EN).
  assert (BN : Base p = name) by (apply Base_last; exact L).
  assert (PP : plain_text P).
  { unfold P, plain_text. apply Join2_chars.
    - right. cbn. tauto.
    - right. cbn. tauto.
    - exact (proj2 HQ).
    - rewrite BN. assert (X : Forall (fun c => alnum c \/ In c (bs "-_.~/+=")) p); [|rewrite EN in X; apply Forall_app in X; exact (proj2 X)].
      destruct W as (hh & nn & -> & [_ HA] & [_ HN]). clear - HA HN NQ. rewrite !Forall_app. split; [|split; [|split]].
      + apply Forall_forall. intros c X. apply plain_is. apply contains_byte_iff in X. destruct c; first [reflexivity|discriminate X].
      + revert HA. apply Forall_impl. intros c X. apply plain_is. apply contains_byte_iff in X. destruct c; first [reflexivity|discriminate X].
      + apply Forall_cons; [right; cbn; tauto|apply Forall_nil].
      + rewrite Forall_forall in HN |- *. intros c X. apply plain_is. specialize (HN c X).
        assert (NC : c <> "?"%byte) by (intros ->; apply NQ; rewrite !in_app_iff; tauto).
        apply contains_byte_iff in HN. destruct c; first [reflexivity|discriminate HN|elim NC; reflexivity]. }
  assert (PN : P <> []) by (unfold P; apply Join2_nonempty, Base_nonempty).
  exists name. assert (EQ : constructRequest parseAuthority (cache_url sc h port q) p = Ok (cache_url sc h port (rooted P))).
  { unfold constructRequest. change (getURL (cache_url sc h port q) p) with (cache_url sc h port P).
    rewrite print_cache by assumption. apply parse_cache; try assumption. split.
    - right. destruct P as [|c P']; [congruence|]. unfold rooted. destruct (byte_eqb_spec c "/"%byte) as [->|_]; [exists P'|exists (c :: P')]; reflexivity.
    - unfold rooted. destruct P as [|c P']; [congruence|]. destruct (byte_eqb c "/"%byte); [exact PP|]. constructor; [right; cbn; tauto|exact PP]. }
  exists (cache_url sc h port (rooted P)). split; [exact PC|]. split.
  { unfold NewFromURI_text. rewrite PC. cbn [rbind cache_url g_scheme g_path]. destruct HS as [->| ->]; reflexivity. }
  split; [exact EN|]. split; [exact EQ|]. rewrite EQ in EV. injection EV as <-. destruct SR as (_ & _ & _ & _ & SP & _). cbn [cache_url g_path] in SP.
  rewrite <- SP.
  rewrite print_cache; try assumption.
  - f_equal. destruct P as [|c P']; [congruence|]. unfold rooted. destruct (byte_eqb c "/"%byte) eqn:EC; [|reflexivity]. rewrite EC. reflexivity.
  - unfold rooted. destruct P as [|c P']; [congruence|]. destruct (byte_eqb c "/"%byte); [exact PP|]. constructor; [right; cbn; tauto|exact PP].
  - destruct P as [|c P']; [congruence|]. unfold rooted. destruct (byte_eqb c "/"%byte); discriminate.
Qed.
