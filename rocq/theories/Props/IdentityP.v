(** C119: different derivations and outputs have different store paths. *)
From Verif Require Import Base.Bytes Base.BytesFacts Model.GoIO Model.GoStd Model.Nixbase32 Model.Nixhash Model.Storepath Model.Derivation Model.DrvParser
  Spec.StorePathSpec Spec.DerivationSpec Spec.RoundSpec Spec.DrvIdSpec
  Proof.PathFacts Proof.StorePathProps Proof.DrvEncode Proof.DrvParse Proof.DrvRound Proof.DrvValidate Proof.DrvText Proof.DrvHash Proof.DrvOrder Proof.DrvInj Proof.DrvInjNeat Proof.Codec Props.DerivationP.
Ltac Zify.zify_post_hook ::= idtac.

(** The text.  [neat_drv] (C49): the strings that are written without escaping close
    the quotes and brackets they open and hide no comma of an array around them; all
    strings without quotes and backslashes do. *)
Theorem C119_text_partial : forall d e t, neat_drv d -> neat_drv e -> aterm d t -> aterm e t -> same_fields d e.
Proof.
  intros d e t L M (o & i & v & A & B & C & E) (o' & i' & v' & A' & B' & C' & E'). rewrite E' in E.
  destruct (text_neat_inj _ _ _ _ _ _ _ _ _ _ _ _ _ _ (neat_of e o' i' v' A' B' C' M) (neat_of d o i v A B C L) E) as (-> & -> & S & P & Q & R & ->).
  destruct A as [A _], B as [B _], C as [C _], A' as [A' _], B' as [B' _], C' as [C' _].
  repeat split; try congruence; eapply Permutation_trans; eauto using Permutation_sym.
Qed.
Print Assumptions C119_text_partial.

Lemma Absolute_inj a b c c' : length c = 20 -> length c' = 20 -> valid_name a -> valid_name b -> sp_Absolute (SP a c) = sp_Absolute (SP b c') -> a = b /\ c = c'.
Proof.
  intros L L' A B E. destruct (roundtrip_Absolute (SP a c) L A) as (X & _), (roundtrip_Absolute (SP b c') L' B) as (Y & _). rewrite E, Y in X. injection X as -> ->. auto.
Qed.
Lemma hex_inj a b : hex_encode a = hex_encode b -> a = b.
Proof. intros E. pose proof (hex_roundtrip a) as H. rewrite E, hex_roundtrip in H. congruence. Qed.
Lemma tail_eq {A} (a b x y : list A) : length x = length y -> a ++ x = b ++ y -> a = b /\ x = y.
Proof.
  revert b. induction a as [|c a IH]; intros b L E; destruct b as [|d b]; cbn [app] in E; [auto|..].
  - subst x. cbn in L. rewrite app_length in L. lia.
  - subst y. cbn in L. rewrite app_length in L. lia.
  - injection E as -> E. destruct (IH b L E) as [-> ->]. auto.
Qed.
Lemma text_dec (a b : bytes) : a = b \/ a <> b.
Proof. destruct (bytes_eq_dec a b); auto. Qed.

(** The path of the derivation itself. *)
Theorem C119_DrvPath_partial : forall sha d e p, (forall b, length (sha b) = 32) -> wf_maps d -> wf_maps e ->
  drv_Name d <> [] -> name_text (drv_Name d) -> drv_Name e <> [] -> name_text (drv_Name e) ->
  DrvPath sha d = Ok p -> DrvPath sha e = Ok p ->
  drv_Name d = drv_Name e /\
  exists t u refs refs', aterm d t /\ aterm e u /\ refs_of d refs /\ refs_of e refs' /\
    (t = u \/ collide sha t u \/ collide (path_digest sha) (drv_fp sha refs t (drv_Name d)) (drv_fp sha refs' u (drv_Name e))) /\
    (neat_drv d -> neat_drv e -> t = u -> same_fields d e).
Proof.
  intros sha d e p S W W' N A N' A' P P'.
  destruct (C55_DrvPath sha d W N) as (t & refs & c & T & R1 & R2 & H & L & D & _), (C55_DrvPath sha e W' N') as (u & refs' & c' & T' & R1' & R2' & H' & L' & D' & _).
  assert (V : forall x, x <> [] -> name_text x -> valid_name (x ++ bs ".drv")).
  { intros x X Y. split; [destruct x; [congruence|discriminate]|]. apply Forall_app. split; [exact Y|]. apply alpha_dec. vm_compute. reflexivity. }
  rewrite D in P. injection P as P. rewrite D' in P'. injection P' as P'. rewrite <- P' in P.
  destruct (Absolute_inj _ _ c c' L L' (V _ N A) (V _ N' A') P) as [NN CC]. apply app_inv_tail in NN. split; [exact NN|]. subst c'.
  exists t, u, refs, refs'. split; [exact T|]. split; [exact T'|]. split; [split; assumption|]. split; [split; assumption|]. split.
  - destruct (text_dec t u) as [|TU]; [auto|]. right. destruct (text_dec (drv_fp sha refs t (drv_Name d)) (drv_fp sha refs' u (drv_Name e))) as [FP|FP].
    + left. split; [exact TU|]. unfold drv_fp in FP. rewrite NN in FP. apply app_inv_head in FP. rewrite !app_assoc in FP. apply app_inv_tail in FP.
      apply app_inv_tail in FP. apply app_inv_tail in FP. apply tail_eq in FP; [|rewrite !hex_encode_length, !S; reflexivity]. apply hex_inj. apply FP.
    + right. split; [exact FP|]. unfold path_digest. unfold drv_fp. rewrite H, H'. reflexivity.
  - intros X Y <-. exact (C119_text_partial d e t X Y T T').
Qed.
Print Assumptions C119_DrvPath_partial.

(** Output paths. *)
Lemma opaths_get sha dn mb n p l : forall acc paths, opaths sha dn mb acc l = Ok paths -> mget paths n = Some p ->
  mget acc n = Some p \/ exists o, In (n, o) l /\ opath sha dn mb n o = Ok p.
Proof.
  induction l as [|[k o] l IH]; intros acc paths E G; cbn [opaths] in E; [injection E as <-; auto|].
  destruct (opath sha dn mb k o) as [q|x|x] eqn:O; cbn [rbind] in E; try discriminate. destruct (IH _ _ E G) as [H|(o' & H & H')].
  - destruct (beq_spec k n) as [->|D].
    + rewrite mset_same in H. injection H as <-. right. exists o. split; [left; reflexivity|exact O].
    + rewrite mset_other in H by congruence. auto.
  - right. exists o'. split; [right; exact H|exact H'].
Qed.
Lemma opath_shape sha dn mb n o p : opath sha dn mb n o = Ok p -> exists c, length c = 20 /\ p = sp_Absolute (SP (out_name dn n) c).
Proof.
  unfold opath. cbn zeta. intros H. destruct (negb (beq (o_algo o) [])); [injection H as <-; eexists; split; [|reflexivity]; apply fold20_eq|].
  destruct mb; cbn [rbind] in H; try discriminate. injection H as <-. eexists; split; [|reflexivity]; apply fold20_eq.
Qed.
Lemma out_name_valid dn n : dn <> [] -> name_text dn -> name_text n -> valid_name (out_name dn n).
Proof.
  intros N A B. unfold out_name. destruct (beq n (bs "out")); [split; assumption|]. split; [destruct dn; [congruence|discriminate]|].
  apply Forall_app. split; [exact A|]. apply Forall_app. split; [|exact B]. apply alpha_dec. vm_compute. reflexivity.
Qed.
Lemma out_name_inj dn n m : out_name dn n = out_name dn m -> n = m.
Proof.
  assert (X : forall k, dn = dn ++ bs "-" ++ k -> False). { intros k H. apply (f_equal (@length byte)) in H. rewrite !app_length in H. cbn in H. lia. }
  unfold out_name. destruct (beq_spec n (bs "out")) as [->|], (beq_spec m (bs "out")) as [->|]; intros H.
  - reflexivity.
  - exfalso. exact (X _ H).
  - exfalso. exact (X _ (eq_sym H)).
  - apply app_inv_head in H. apply app_inv_head in H. exact H.
Qed.
Theorem C119_outputs_differ : forall sha d repl paths n m p, wf_maps d -> name_text (drv_Name d) -> name_text n -> name_text m ->
  CalculateOutputPaths sha d repl = Ok paths -> mget paths n = Some p -> mget paths m = Some p -> n = m.
Proof.
  intros sha d repl paths n m p W A B C E G G'. rewrite Calc_eq in E. destruct (drv_Name d) as [|c dn] eqn:DN; [discriminate|].
  destruct (opaths_get _ _ _ _ _ _ _ _ E G) as [X|(o & _ & O)]; [discriminate|]. destruct (opaths_get _ _ _ _ _ _ _ _ E G') as [X|(o' & _ & O')]; [discriminate|].
  destruct (opath_shape _ _ _ _ _ _ O) as (k & L & P), (opath_shape _ _ _ _ _ _ O') as (k' & L' & P'). rewrite P in P'.
  assert (NE : c :: dn <> []) by discriminate.
  destruct (Absolute_inj _ _ k k' L L' (out_name_valid _ _ NE A B) (out_name_valid _ _ NE A C) P') as [Q _]. exact (out_name_inj _ _ _ Q).
Qed.
Print Assumptions C119_outputs_differ.
Lemma fixed_content_inj o o' : ~ In ":"%byte (o_hash o) -> ~ In ":"%byte (o_hash o') -> fixed_content o = fixed_content o' -> o_algo o = o_algo o' /\ o_hash o = o_hash o'.
Proof.
  unfold fixed_content. intros N N' E. apply app_inv_head in E. rewrite !app_assoc in E. apply app_inv_tail in E. rewrite <- !app_assoc in E. change (bs ":") with [":"%byte] in E. cbn [app] in E.
  revert E. generalize (o_algo o) as a, (o_algo o') as b. induction a as [|c a IH]; intros [|d b] E; cbn [app] in E.
  - injection E as E. auto.
  - injection E as <- E. exfalso. apply N. rewrite E. apply in_or_app. right. left. reflexivity.
  - injection E as -> E. exfalso. apply N'. rewrite <- E. apply in_or_app. right. left. reflexivity.
  - injection E as -> E. destruct (IH b E) as [-> ->]. auto.
Qed.
Theorem C119_output_paths : forall sha d e repl repl' r r' paths paths' n m o o' p,
  (forall b, length (sha b) = 32) -> wf_maps d -> wf_maps e ->
  drv_Name d <> [] -> name_text (drv_Name d) -> drv_Name e <> [] -> name_text (drv_Name e) -> name_text n -> name_text m ->
  (repl = [] /\ r = (fun q => q) \/ replaces repl r d) -> (repl' = [] /\ r' = (fun q => q) \/ replaces repl' r' e) ->
  In (n, o) (d_outputs d) -> In (m, o') (d_outputs e) ->
  (fixed_output o -> n = bs "out" /\ ~ In ":"%byte (o_hash o)) -> (fixed_output o' -> m = bs "out" /\ ~ In ":"%byte (o_hash o')) ->
  CalculateOutputPaths sha d repl = Ok paths -> CalculateOutputPaths sha e repl' = Ok paths' ->
  mget paths n = Some p -> mget paths' m = Some p ->
  exists t u, aterm (mask (rename r d)) t /\ aterm (mask (rename r' e)) u /\
    (n = m /\ drv_Name d = drv_Name e /\
       (o_algo o = [] /\ o_algo o' = [] /\ t = u \/ fixed_output o /\ o_algo o = o_algo o' /\ o_hash o = o_hash o')
     \/ collide sha (out_content o t) (out_content o' u)
     \/ collide (path_digest sha) (out_fp sha (drv_Name d) n o t) (out_fp sha (drv_Name e) m o' u)).
Proof.
  intros sha d e repl repl' r r' paths paths' n m o o' p S W W' N A N' A' B B' R R' I I' F F' C C' G G'.
  destruct (C70_output_paths sha d repl r W N R) as (t & ps & T & CP & _ & HP). rewrite C in CP. injection CP as <-. specialize (HP n o I).
  destruct (C70_output_paths sha e repl' r' W' N' R') as (u & qs & U & CQ & _ & HQ). rewrite C' in CQ. injection CQ as <-. specialize (HQ m o' I').
  cbn zeta in HP, HQ. destruct HP as (c & H1 & L & H2 & _), HQ as (c' & H1' & L' & H2' & _). fold (out_name (drv_Name d) n) in *. fold (out_name (drv_Name e) m) in *.
  assert (H3 : sp_Absolute (SP (out_name (drv_Name d) n) c) = sp_Absolute (SP (out_name (drv_Name e) m) c')) by congruence.
  destruct (Absolute_inj _ _ c c' L L' (out_name_valid _ _ N A B) (out_name_valid _ _ N' A' B') H3) as [NN <-].
  assert (K : forall dn n o t, (fixed_output o -> n = bs "out" /\ ~ In ":"%byte (o_hash o)) ->
    (if beq (o_algo o) [] then bs "output:" ++ n ++ bs ":sha256:" ++ hex_encode (sha t) ++ bs ":/nix/store:" ++ out_name dn n
     else if beq (o_algo o) (bs "r:sha256") then bs "source:sha256:" ++ o_hash o ++ bs ":/nix/store:" ++ dn
     else bs "output:out:sha256:" ++ hex_encode (sha (bs "fixed:out:" ++ o_algo o ++ bs ":" ++ o_hash o ++ bs ":")) ++ bs ":/nix/store:" ++ dn) = out_fp sha dn n o t).
  { clear. intros dn n o t F. unfold out_fp, out_content, fixed_content. destruct (beq_spec (o_algo o) []) as [E|E]; [rewrite E; reflexivity|].
    destruct (F E) as [-> _]. reflexivity. }
  rewrite (K _ _ _ _ F) in H1. rewrite (K _ _ _ _ F') in H1'. clear K. exists t, u. split; [exact T|]. split; [exact U|].
  destruct (text_dec (out_fp sha (drv_Name d) n o t) (out_fp sha (drv_Name e) m o' u)) as [FP|FP]; [|right; right; split; [exact FP|unfold path_digest; congruence]].
  assert (Z : o_algo o = bs "r:sha256" /\ o_algo o' = bs "r:sha256" /\ o_hash o = o_hash o' \/ n = m /\ sha (out_content o t) = sha (out_content o' u)).
  { unfold out_fp in FP. rewrite NN in FP. destruct (beq_spec (o_algo o) (bs "r:sha256")) as [E|E], (beq_spec (o_algo o') (bs "r:sha256")) as [E'|E'].
    - left. split; [exact E|]. split; [exact E'|]. apply app_inv_head in FP. apply app_inv_tail in FP. exact FP.
    - exfalso. clear - FP. discriminate FP.
    - exfalso. clear - FP. discriminate FP.
    - right. apply app_inv_head in FP. rewrite !app_assoc in FP. apply app_inv_tail in FP. apply app_inv_tail in FP. apply tail_eq in FP; [|rewrite !hex_encode_length, !S; reflexivity].
      destruct FP as [X Y]. apply app_inv_tail in X. apply hex_inj in Y. auto. }
  assert (SN : n = m -> drv_Name d = drv_Name e).
  { intros ->. unfold out_name in NN. destruct (beq m (bs "out")); [exact NN|]. apply app_inv_tail in NN. exact NN. }
  destruct Z as [(E & E' & HH)|(-> & SH)].
  - assert (FX : fixed_output o) by (unfold fixed_output; rewrite E; discriminate). assert (FX' : fixed_output o') by (unfold fixed_output; rewrite E'; discriminate).
    assert (NM : n = m) by (destruct (F FX) as [-> _], (F' FX') as [-> _]; reflexivity).
    left. split; [exact NM|]. split; [exact (SN NM)|]. right. split; [exact FX|]. split; [congruence|exact HH].
  - destruct (text_dec (out_content o t) (out_content o' u)) as [Q|Q]; [|right; left; split; assumption].
    left. split; [reflexivity|]. split; [exact (SN eq_refl)|]. unfold out_content in Q.
    assert (HD : forall d t, aterm d t -> exists x, t = "D"%byte :: x). { clear. intros d t (? & ? & ? & _ & _ & _ & ->). unfold drv_text. eexists. reflexivity. }
    destruct (HD _ _ T) as (x & TX), (HD _ _ U) as (y & UY).
    destruct (beq_spec (o_algo o) []) as [E|E], (beq_spec (o_algo o') []) as [E'|E'].
    + auto.
    + rewrite TX in Q. discriminate Q.
    + rewrite UY in Q. discriminate Q.
    + right. split; [exact E|]. apply fixed_content_inj; [apply (F E)|apply (F' E')|exact Q].
Qed.
Print Assumptions C119_output_paths.
(** So, for a hash without collisions, derivations whose input-addressed outputs share a path are equal apart from their output paths. *)
Theorem C119_outputs_tell_partial : forall sha d e paths paths' n m o o' p,
  (forall b, length (sha b) = 32) -> wf_maps d -> wf_maps e ->
  drv_Name d <> [] -> name_text (drv_Name d) -> drv_Name e <> [] -> name_text (drv_Name e) -> name_text n -> name_text m ->
  In (n, o) (d_outputs d) -> In (m, o') (d_outputs e) -> o_algo o = [] -> o_algo o' = [] ->
  neat_drv (mask d) -> neat_drv (mask e) ->
  CalculateOutputPaths sha d [] = Ok paths -> CalculateOutputPaths sha e [] = Ok paths' -> mget paths n = Some p -> mget paths' m = Some p ->
  exists t u, aterm (mask d) t /\ aterm (mask e) u /\
    (n = m /\ drv_Name d = drv_Name e /\ same_fields (mask d) (mask e)
     \/ collide sha t u
     \/ collide (path_digest sha) (out_fp sha (drv_Name d) n o t) (out_fp sha (drv_Name e) m o' u)).
Proof.
  intros sha d e paths paths' n m o o' p S W W' N A N' A' B B' I I' F F' L L' C C' G G'.
  assert (ID : forall d, wf_maps d -> rename (fun q => q) d = d).
  { clear. intros d W. destruct d as [nm outs srcs ins pl bl args env]. unfold rename. cbn. f_equal. rewrite (map_ext _ (fun x => x)) by (intros []; reflexivity). rewrite map_id. apply nodup_fixed_point, keys_nodup_pairs. exact (proj1 (proj2 W)). }
  destruct (C119_output_paths sha d e [] [] (fun q => q) (fun q => q) paths paths' n m o o' p) as (t & u & T & U & Z); try assumption; try (left; split; reflexivity); try (intros Q; exfalso; apply Q; assumption).
  rewrite ID in T, U by assumption. exists t, u. split; [exact T|]. split; [exact U|]. unfold out_content in Z. rewrite F, F' in Z. cbn [beq] in Z.
  destruct Z as [(Z1 & Z2 & [(_ & _ & Z)|(Z & _)])|Z]; [|exfalso; apply Z; exact F|right; exact Z].
  left. split; [exact Z1|]. split; [exact Z2|]. subst u. exact (C119_text_partial _ _ t L L' T U).
Qed.
Print Assumptions C119_outputs_tell_partial.
(** A hash with 32 bytes for the examples. *)
Definition toy (b : bytes) : bytes := firstn 32 (n2b (fold_left N.add (map b2n b) 0%N mod 256) :: rev b ++ repeat x00 32).
Lemma toy_length b : length (toy b) = 32.
Proof. unfold toy. rewrite firstn_length. cbn [length]. rewrite app_length, repeat_length. lia. Qed.
Definition two_outputs : drv := Drv [] [(bs "out", Output p1 [] []); (bs "dev", Output p1 [] [])] [p1] [(p2, [bs "out"])] (bs "x86_64-linux") (bs "/bin/sh") [] [(bs "name", bs "x")].
Example C119_nonvacuous : wf_maps sample /\ wf_maps sample_sorted /\ sample <> sample_sorted /\ neat_drv sample /\
  name_text (drv_Name sample) /\ drv_Name sample <> [] /\
  (exists p, DrvPath toy sample = Ok p /\ DrvPath toy sample_sorted = Ok p) /\
  (exists q s t, CalculateOutputPaths toy two_outputs [] = Ok [(bs "out", q); (bs "dev", s)] /\ Validate q = Ok tt /\ Validate s = Ok tt /\ q <> s /\
     CalculateOutputPaths toy (mk (bs "/bin/sh") [] [(bs "name", bs "x")]) [] = Ok [(bs "out", t)] /\ t <> q).
Proof.
  split; [exact sample_wf|]. split; [apply (same_wf sample); [apply C52_nonvacuous|exact sample_wf]|]. split; [apply C52_nonvacuous|].
  split; [apply literals_neat, literals_dec; vm_compute; reflexivity|]. split; [apply alpha_dec; vm_compute; reflexivity|]. split; [discriminate|]. split.
  - assert (E : DrvPath toy sample = DrvPath toy sample_sorted) by (vm_compute; reflexivity).
    assert (H : is_ok (DrvPath toy sample) = true) by (vm_compute; reflexivity). destruct (DrvPath toy sample) as [p|x|x]; try discriminate. exists p. auto.
  - assert (H : match CalculateOutputPaths toy two_outputs [], CalculateOutputPaths toy (mk (bs "/bin/sh") [] [(bs "name", bs "x")]) [] with
                | Ok [(a, q); (b, s)], Ok [(c, t)] => beq a (bs "out") && beq b (bs "dev") && beq c (bs "out") && is_ok (Validate q) && is_ok (Validate s) && negb (beq q s) && negb (beq t q) | _, _ => false end = true) by (vm_compute; reflexivity).
    destruct (CalculateOutputPaths toy two_outputs []) as [[|[a q] [|[b s] [|]]]|x|x]; try discriminate. destruct (CalculateOutputPaths toy _ []) as [[|[c t] [|]]|x|x]; try discriminate.
    rewrite !andb_true_iff, !negb_true_iff in H. destruct H as ((((((H1 & H2) & H3) & H4) & H5) & H6) & H7). apply beq_eq in H1, H2, H3. apply beq_neq in H6, H7. subst.
    exists q, s, t. split; [reflexivity|]. split; [destruct (Validate q) as [[]|x|x]; try discriminate; reflexivity|].
    split; [destruct (Validate s) as [[]|x|x]; try discriminate; reflexivity|]. auto.
Qed.
(** Arguments, output names and variable names are not escaped: valid derivations with different arguments have the same
    paths, whatever the hash function. *)
Theorem C119_arguments_refuted : exists d e, wf_maps d /\ wf_maps e /\ drv_Validate d = Ok tt /\ drv_Validate e = Ok tt /\ d_args d <> d_args e /\
  name_text (drv_Name d) /\ forall sha, DrvPath sha d = DrvPath sha e /\ is_ok (DrvPath sha d) = true /\ CalculateOutputPaths sha d [] = CalculateOutputPaths sha e [].
Proof.
  set (env := [(bs "name", bs "x")]). set (d := mk (bs "b") [bs "rm" ++ [x22; ","%byte; x22] ++ bs "x"] env). set (e := mk (bs "b") [bs "rm"; bs "x"] env). exists d, e.
  assert (W : wf_maps d) by (repeat split; apply nodup_dec; vm_compute; reflexivity). assert (W' : wf_maps e) by (repeat split; apply nodup_dec; vm_compute; reflexivity).
  split; [exact W|]. split; [exact W'|]. split; [vm_compute; reflexivity|]. split; [vm_compute; reflexivity|]. split; [discriminate|]. split; [apply alpha_dec; vm_compute; reflexivity|].
  intros sha. assert (B : forall s, drv_bytes d s [] = drv_bytes e s []) by (intros []; vm_compute; reflexivity).
  destruct (bytes_aterm d false W) as (t & E & _). assert (E' := E). rewrite B in E'.
  assert (N : drv_Name d <> []) by discriminate. assert (N' : drv_Name e <> []) by discriminate.
  rewrite (DrvPath_eq sha d t E N), (DrvPath_eq sha e t E' N'). split; [reflexivity|]. split; [reflexivity|]. rewrite !Calc_eq, B. reflexivity.
Qed.
Print Assumptions C119_arguments_refuted.
(** The name is not checked either: with "/../" in it the hash part is cut off, and derivations that differ anywhere have one path. *)
Theorem C119_name_refuted : exists name p, forall sha b b' args args', b <> [] -> b' <> [] ->
  let d := mk b args [(bs "name", name)] in let e := mk b' args' [(bs "name", name)] in
  drv_Validate d = Ok tt /\ drv_Validate e = Ok tt /\ DrvPath sha d = Ok p /\ DrvPath sha e = Ok p.
Proof.
  exists (bs "x/../y"), (bs "/nix/store/y.drv"). intros sha b b' args args' NB NB' d e.
  assert (K : forall b args, b <> [] -> drv_Validate (mk b args [(bs "name", bs "x/../y")]) = Ok tt /\ DrvPath sha (mk b args [(bs "name", bs "x/../y")]) = Ok (bs "/nix/store/y.drv")).
  { clear. intros b args NB. set (d := mk b args _). assert (W : wf_maps d) by (repeat split; apply nodup_dec; vm_compute; reflexivity). split.
    - assert (NA : ~ ambiguous d). { intros (_ & J & _). revert J. apply (mget_none (d_env d)). vm_compute. reflexivity. }
      apply Validate_iff; [exact NA|]. assert (V : valid_drv (mk (bs "b") [] [(bs "name", bs "x/../y")])).
      { apply Validate_iff; [|vm_compute; reflexivity]. intros (_ & J & _). revert J. apply (mget_none (d_env d)). vm_compute. reflexivity. }
      destruct V as (V1 & V2 & V3 & V4 & V5 & V6 & V7 & V8 & V9). repeat (split; [assumption|]). exact V9.
    - assert (N : drv_Name d <> []) by discriminate. destruct (C55_DrvPath sha d W N) as (t & refs & c & _ & _ & _ & _ & L & D & _). rewrite D. f_equal.
      assert (NS : ~ In slash (EncodeToString c ++ bs "-x")).
      { intros X. apply in_app_or in X. destruct X as [X|X]; [eapply hash_no_slash; [apply encode_hash_part; exact L|exact X]|]. cbn in X. intuition discriminate. }
      unfold sp_Absolute. rewrite Join_store. change (StoreDir ++ slash :: ?x) with (slash :: bs "nix" ++ slash :: bs "store" ++ slash :: x). rewrite Clean_rooted.
      rewrite split_app by (cbn; intuition discriminate). rewrite split_app by (cbn; intuition discriminate).
      replace (sp_String (SP (drv_Name d ++ bs ".drv") c)) with ((EncodeToString c ++ bs "-x") ++ slash :: bs "../y.drv") by (unfold sp_String; cbn [sp_digest sp_name]; rewrite <- app_assoc; reflexivity).
      rewrite split_app by exact NS. change (split_byte (bs "../y.drv") slash) with [bs ".."; bs "y.drv"]. assert (LH : 2 < length (EncodeToString c ++ bs "-x")) by (rewrite app_length; destruct (encode_hash_part c L) as [-> _]; cbn; lia).
      clear D NS L. revert LH. generalize (EncodeToString c ++ bs "-x") as h. intros h LH.
      assert (B : forall k, length k <= 2 -> beq h k = false) by (intros k LK; apply beq_neq; intros ->; lia).
      assert (B0 := B [] ltac:(cbn; lia)). assert (B1 := B dot ltac:(cbn; lia)). assert (B2 := B dotdot ltac:(cbn; lia)). clear B LH.
      cbn [clean_go]. change (beq (bs "nix") [] || beq (bs "nix") dot) with false. change (beq (bs "store") [] || beq (bs "store") dot) with false. change (beq (bs "nix") dotdot) with false. change (beq (bs "store") dotdot) with false.
      rewrite B0, B1, B2. reflexivity. }
  split; [apply K; exact NB|]. split; [apply K; exact NB'|]. split; [apply K; exact NB|apply K; exact NB'].
Qed.
Print Assumptions C119_name_refuted.
