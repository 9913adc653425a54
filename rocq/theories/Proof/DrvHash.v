From Verif Require Import Base.Bytes Base.BytesFacts Model.GoIO Model.GoStd Model.Nixhash Model.Storepath Model.Derivation Model.DrvParser Spec.StorePathSpec Spec.DerivationSpec
  Proof.HashProps Proof.StorePathProps Proof.DrvEncode Proof.DrvValidate Proof.DrvText.
Ltac Zify.zify_post_hook ::= idtac.

(** * The Write calls *)
Lemma sep_writes_ext {A} (f g : A -> list bytes) l : (forall x, f x = g x) -> forall b, sep_writes f b l = sep_writes g b l.
Proof. intros H. induction l as [|x l IH]; intros b; cbn [sep_writes]; [reflexivity|]. rewrite H, IH. reflexivity. Qed.
Definition body_writes (nouts : list bytes) (outs : bytes -> output) (nins : list bytes) (ins : bytes -> list bytes) (srcs : list bytes) (plat bld : bytes)
    (args : list bytes) (nenv : list bytes) (env : bytes -> bytes) (paths : bytes -> bytes) : list bytes :=
  [bs "Derive"; bs "("] ++
      [bs "["] ++
      sep_writes (fun n => array_writes true (bs "(") (bs ")") [n; paths n; o_algo (outs n); o_hash (outs n)]) true nouts ++
      [bs "]"] ++
      [bs ","; bs "["] ++
      sep_writes (fun p => [bs "("; quoteC; p; quoteC; bs ","] ++ array_writes true (bs "[") (bs "]") (ins p) ++ [bs ")"]) true nins ++
      [bs "]"] ++
      [bs ","] ++ array_writes true (bs "[") (bs "]") srcs ++
      [bs ","; escapeString plat; bs ","; escapeString bld] ++
      [bs ","] ++ array_writes true (bs "[") (bs "]") args ++
      [bs ","; bs "["] ++
      sep_writes (fun k => array_writes false (bs "(") (bs ")") [quoteC ++ k ++ quoteC; escapeString (env k)]) true nenv ++
      [bs "]"] ++
      [bs ")"].
Lemma body_writes_ext nouts outs outs' nins ins ins' srcs plat bld args nenv env env' paths paths' :
  (forall x, o_algo (outs x) = o_algo (outs' x)) -> (forall x, o_hash (outs x) = o_hash (outs' x)) -> (forall x, ins x = ins' x) -> (forall x, env x = env' x) -> (forall x, paths x = paths' x) ->
  body_writes nouts outs nins ins srcs plat bld args nenv env paths = body_writes nouts outs' nins ins' srcs plat bld args nenv env' paths'.
Proof.
  intros H1 H2 H3 H4 H5. unfold body_writes.
  rewrite (sep_writes_ext (fun n => array_writes true (bs "(") (bs ")") [n; paths n; o_algo (outs n); o_hash (outs n)])
    (fun n => array_writes true (bs "(") (bs ")") [n; paths' n; o_algo (outs' n); o_hash (outs' n)])) by (intros x; rewrite H1, H2, H5; reflexivity).
  rewrite (sep_writes_ext (fun p => [bs "("; quoteC; p; quoteC; bs ","] ++ array_writes true (bs "[") (bs "]") (ins p) ++ [bs ")"])
    (fun p => [bs "("; quoteC; p; quoteC; bs ","] ++ array_writes true (bs "[") (bs "]") (ins' p) ++ [bs ")"])) by (intros x; rewrite H3; reflexivity).
  rewrite (sep_writes_ext (fun k => array_writes false (bs "(") (bs ")") [quoteC ++ k ++ quoteC; escapeString (env k)])
    (fun k => array_writes false (bs "(") (bs ")") [quoteC ++ k ++ quoteC; escapeString (env' k)])) by (intros x; rewrite H4; reflexivity).
  reflexivity.
Qed.
Lemma drv_writes_body d strip repl : drv_writes d strip repl =
  let* inputs := match repl with [] => Ok (d_inputs d) | _ => replace_inputs repl [] (d_inputs d) end in
  Ok (body_writes (sort_strings (mkeys (d_outputs d))) (fun n => mget_or (d_outputs d) n (Output [] [] [])) (sort_strings (mkeys inputs)) (fun p => mget_or inputs p [])
       (d_srcs d) (d_platform d) (d_builder d) (d_args d) (sort_strings (mkeys (d_env d)))
       (fun k => if strip && mhas (d_outputs d) k then [] else mget_or (d_env d) k [])
       (fun n => if strip then [] else o_path (mget_or (d_outputs d) n (Output [] [] [])))).
Proof. unfold drv_writes. destruct (match repl with [] => _ | _ => _ end); reflexivity. Qed.

(** Masking. *)
Lemma mget_map {V W} (f : bytes -> V -> W) (m : amap V) k : mget (map (fun kv => (fst kv, f (fst kv) (snd kv))) m) k = match mget m k with Some v => Some (f k v) | None => None end.
Proof. induction m as [|[k' v] m IH]; [reflexivity|]. cbn [map mget fst snd]. destruct (beq_spec k' k) as [->|]; [reflexivity|exact IH]. Qed.
Lemma mkeys_map {V W} (f : bytes -> V -> W) (m : amap V) : mkeys (map (fun kv => (fst kv, f (fst kv) (snd kv))) m) = mkeys m.
Proof. unfold mkeys. rewrite map_map. reflexivity. Qed.
Lemma mask_writes d repl : drv_writes d true repl = drv_writes (mask d) false repl.
Proof.
  rewrite !drv_writes_body. unfold mask. cbn [d_inputs d_outputs d_env d_srcs d_platform d_builder d_args].
  destruct (match repl with [] => _ | _ => _ end) as [ins|e|w]; cbn [rbind]; [|reflexivity|reflexivity]. f_equal.
  rewrite (mkeys_map (fun _ o => Output [] (o_algo o) (o_hash o))).
  rewrite (mkeys_map (fun k (v : bytes) => if existsb (beq k) (map fst (d_outputs d)) then [] else v)).
  apply body_writes_ext; intros x; cbn [negb andb]; auto; unfold mget_or; rewrite ?(mget_map (fun _ o => Output [] (o_algo o) (o_hash o))).
  - destruct (mget (d_outputs d) x); reflexivity.
  - destruct (mget (d_outputs d) x); reflexivity.
  - rewrite (mget_map (fun k (v : bytes) => if existsb (beq k) (map fst (d_outputs d)) then [] else v)). rewrite mhas_existsb.
    destruct (existsb _ _), (mget (d_env d) x); reflexivity.
  - destruct (mget (d_outputs d) x); reflexivity.
Qed.
Lemma mask_bytes d repl : drv_bytes d true repl = drv_bytes (mask d) false repl.
Proof. unfold drv_bytes. rewrite mask_writes. reflexivity. Qed.

(** Replacements. *)
Definition missing_error : error := EMsg "unable to find replacement, but replacement requested".
Lemma replace_missing repl l : forall acc p, In p (map fst l) -> mget repl p = None -> replace_inputs repl acc l = Err missing_error.
Proof.
  induction l as [|[q names] l IH]; intros acc p H E; [destruct H|]. cbn [replace_inputs]. destruct H as [<-|H].
  - cbn [fst] in E. rewrite E. reflexivity.
  - destruct (mget repl q); [eapply IH; eauto|reflexivity].
Qed.
Lemma replace_no_panic repl l : forall acc, is_panic (replace_inputs repl acc l) = false.
Proof. induction l as [|[q names] l IH]; intros acc; cbn [replace_inputs]; [reflexivity|]. destruct (mget repl q); [apply IH|reflexivity]. Qed.
Lemma bytes_no_panic d strip repl : is_panic (drv_bytes d strip repl) = false.
Proof.
  unfold drv_bytes. rewrite drv_writes_body. destruct repl as [|x repl]; [reflexivity|].
  pose proof (replace_no_panic (x :: repl) (d_inputs d) []) as P. destruct (replace_inputs _ _ _); cbn [rbind]; [reflexivity|reflexivity|discriminate].
Qed.
Lemma repl_cases d repl : no_clash repl d ->
  repl = [] \/ (exists r, replaces repl r d) \/ (repl <> [] /\ exists p, In p (mkeys (d_inputs d)) /\ mget repl p = None).
Proof.
  intros C. destruct repl as [|x repl]; [auto|]. right. set (R := x :: repl) in *.
  destruct (existsb (fun p => match mget R p with None => true | _ => false end) (mkeys (d_inputs d))) eqn:E.
  - right. split; [discriminate|]. apply existsb_exists in E. destruct E as (p & A & B). exists p. split; [exact A|]. destruct (mget R p); [discriminate|reflexivity].
  - left. exists (fun p => mget_or R p []). split; [discriminate|]. split; [|exact C].
    intros p Hp. unfold mget_or. destruct (mget R p) eqn:G; [reflexivity|]. exfalso. apply Bool.not_true_iff_false in E. apply E. apply existsb_exists. exists p. rewrite G. auto.
Qed.
Lemma perm_ins {V} (m m' : amap V) z : NoDup (mkeys m) -> Permutation m m' -> sort_strings (mkeys m) = sort_strings (mkeys m') /\ forall k, mget_or m k z = mget_or m' k z.
Proof.
  intros N P. split; [apply sort_perm_eq, Permutation_map, P|]. intros k. unfold mget_or. rewrite (same_mget m m' k N P). reflexivity.
Qed.
Lemma same_writes d e strip repl : wf_maps d -> same_drv d e -> no_clash repl d -> drv_writes d strip repl = drv_writes e strip repl.
Proof.
  intros W S C. rewrite !drv_writes_body. pose proof (repl_cases d repl C) as RC. destruct W as (N1 & N2 & N3).
  pose proof S as (S1 & S2 & S3 & S4 & S5 & S6 & S7 & S8).
  assert (B : forall ins ins', NoDup (mkeys ins) -> Permutation ins ins' ->
    body_writes (sort_strings (mkeys (d_outputs d))) (fun n => mget_or (d_outputs d) n (Output [] [] [])) (sort_strings (mkeys ins)) (fun p => mget_or ins p [])
       (d_srcs d) (d_platform d) (d_builder d) (d_args d) (sort_strings (mkeys (d_env d)))
       (fun k => if strip && mhas (d_outputs d) k then [] else mget_or (d_env d) k [])
       (fun n => if strip then [] else o_path (mget_or (d_outputs d) n (Output [] [] []))) =
    body_writes (sort_strings (mkeys (d_outputs e))) (fun n => mget_or (d_outputs e) n (Output [] [] [])) (sort_strings (mkeys ins')) (fun p => mget_or ins' p [])
       (d_srcs e) (d_platform e) (d_builder e) (d_args e) (sort_strings (mkeys (d_env e)))
       (fun k => if strip && mhas (d_outputs e) k then [] else mget_or (d_env e) k [])
       (fun n => if strip then [] else o_path (mget_or (d_outputs e) n (Output [] [] [])))).
  { intros ins ins' NI PI. destruct (perm_ins ins ins' [] NI PI) as [I1 I2]. destruct (perm_ins _ _ (Output [] [] []) N1 S2) as [O1 O2]. destruct (@perm_ins bytes _ _ [] N3 S8) as [E1 E2].
    rewrite I1, O1, E1, S3, S5, S6, S7. apply body_writes_ext; intros x; rewrite ?O2, ?I2, ?E2; auto.
    rewrite !mhas_existsb, (existsb_perm _ _ _ (Permutation_map fst S2)). reflexivity. }
  destruct RC as [->|[(r & R)|(NE & p & A & Hp)]].
  - cbn [rbind]. f_equal. apply B; assumption.
  - destruct (replace_inputs_rename _ _ _ R) as (ins & E & NI & PI). destruct (replace_inputs_rename _ _ _ (same_replaces _ _ _ _ S R)) as (ins' & E' & _ & PI').
    destruct R as (R0 & _). destruct repl as [|x repl]; [congruence|]. rewrite E, E'. cbn [rbind]. f_equal. apply B; [exact NI|].
    rewrite PI, PI'. apply same_rename. exact S.
  - destruct repl as [|x repl]; [congruence|]. rewrite (replace_missing _ (d_inputs d) [] p A Hp).
    rewrite (replace_missing _ (d_inputs e) [] p); [reflexivity| |exact Hp]. eapply Permutation_in; [apply Permutation_map; exact S4|exact A].
Qed.
Lemma same_bytes_any d e strip repl : wf_maps d -> same_drv d e -> no_clash repl d -> drv_bytes d strip repl = drv_bytes e strip repl.
Proof. intros W S C. unfold drv_bytes. rewrite (same_writes d e strip repl W S C). reflexivity. Qed.
Lemma no_clash_nil d : no_clash [] d.
Proof. intros p q a b x _ _ H. discriminate. Qed.

(** * The hash as a function of what was written to it *)
Lemma h_writes_eq l : forall h, h_writes h l = h ++ concat l.
Proof. induction l as [|b l IH]; intros h; cbn [h_writes concat]; [rewrite app_nil_r; reflexivity|]. rewrite IH. unfold h_write. rewrite <- app_assoc. reflexivity. Qed.
Lemma concat_pairs {A} (f g : A -> bytes) l : concat (concat (map (fun r => [f r; g r]) l)) = concat (map (fun r => f r ++ g r) l).
Proof. induction l as [|x l IH]; cbn [map concat app]; [reflexivity|]. rewrite IH, <- app_assoc. reflexivity. Qed.
Lemma join_rest rest : forall first, join_byte (first :: rest) ":" = first ++ concat (map (fun s => bs ":" ++ s) rest).
Proof. induction rest as [|s rest IH]; intros first; [cbn [map concat join_byte]; rewrite app_nil_r; reflexivity|]. change (join_byte (first :: s :: rest) ":") with (first ++ ":"%byte :: join_byte (s :: rest) ":"). rewrite IH. reflexivity. Qed.
Lemma hashStrings_eq sha h first rest : hashStrings sha h first rest = (sha (h ++ join_byte (first :: rest) ":"), h ++ join_byte (first :: rest) ":").
Proof. unfold hashStrings, h_sum. cbn zeta. rewrite h_writes_eq. unfold h_write. rewrite concat_pairs, join_rest, <- app_assoc. reflexivity. Qed.
Lemma sum_writes sha d strip repl (f : bytes -> bytes) :
  (let* w := drv_writes d strip repl in Ok (f (h_sum sha (h_writes h_new w)))) = (let* b := drv_bytes d strip repl in Ok (f (sha b))).
Proof. unfold drv_bytes, h_sum. destruct (drv_writes d strip repl); cbn [rbind]; [rewrite h_writes_eq|..]; reflexivity. Qed.
Lemma maskedATermHash_def sha d repl : maskedATermHash sha d repl = let* b := drv_bytes d true repl in Ok (hex_encode (sha b)).
Proof. apply (sum_writes sha d true repl hex_encode). Qed.
Lemma CalculateDrvReplacement_def sha d repl : CalculateDrvReplacement sha d repl =
  let full := let* b := drv_bytes d false repl in Ok (hex_encode (sha b)) in
  if length (d_outputs d) =? 1 then
    match mget (d_outputs d) (bs "out") with
    | Some o => if negb (beq (o_algo o) []) then Ok (hex_encode (sha (join_byte [bs "fixed"; bs "out"; o_algo o; o_hash o; o_path o] ":"))) else full
    | None => full
    end
  else full.
Proof. unfold CalculateDrvReplacement. rewrite (sum_writes sha d false repl hex_encode). destruct (mget (d_outputs d) (bs "out")) as [o|]; [rewrite hashStrings_eq|]; reflexivity. Qed.
Lemma DrvPath_def sha d : DrvPath sha d =
  let* t := drv_bytes d false [] in
  match drv_Name d with
  | [] => Panic "env 'name' not found"
  | name =>
      let fp := bs "text:" ++ concat (map (fun r => r ++ bs ":") (sort_strings (mkeys (d_inputs d) ++ d_srcs d))) ++ bs "sha256:" ++ hex_encode (sha t) ++
                bs ":" ++ (StoreDir ++ bs ":") ++ name ++ bs ".drv" in
      let* c := CompressHash (sha fp) 20 in
      Ok (sp_Absolute (SP (name ++ bs ".drv") c))
  end.
Proof.
  unfold DrvPath, drv_bytes. destruct (drv_writes d false []) as [w|e|m]; cbn [rbind]; [|reflexivity|reflexivity]. cbn zeta.
  destruct (drv_Name d) as [|c nm]; [reflexivity|]. unfold h_sum. rewrite !h_writes_eq. unfold h_write, h_reset, h_new. rewrite concat_pairs. cbn [app]. rewrite <- !app_assoc. reflexivity.
Qed.

(** * Paths *)
Definition fold20 (h : bytes) : bytes := match CompressHash h 20 with Ok c => c | _ => [] end.
Lemma fold20_eq h : CompressHash h 20 = Ok (fold20 h) /\ length (fold20 h) = 20.
Proof. destruct (compress_spec h 20) as (c & E & L & _); [discriminate|]. unfold fold20. rewrite E. auto. Qed.

Section Sha.
Variable sha : bytes -> bytes.
(** What a path depends on. *)
Definition opath (dname : bytes) (mb : res bytes) (name : bytes) (o : output) : res bytes :=
  let pathName := if beq name (bs "out") then dname else dname ++ bs "-" ++ name in
  if negb (beq (o_algo o) []) then
    Ok (sp_Absolute (SP pathName (fold20 (
      if beq (o_algo o) (bs "r:sha256") then sha (bs "source:sha256:" ++ o_hash o ++ bs ":/nix/store:" ++ dname)
      else sha (bs "output:out:sha256:" ++ hex_encode (sha (bs "fixed:out:" ++ o_algo o ++ bs ":" ++ o_hash o ++ bs ":")) ++ bs ":/nix/store:" ++ dname)))))
  else
    let* b := mb in
    Ok (sp_Absolute (SP pathName (fold20 (sha (bs "output:" ++ name ++ bs ":sha256:" ++ hex_encode (sha b) ++ bs ":/nix/store:" ++ pathName))))).
Lemma join_source h dn : join_byte [bs "source"; bs "sha256"; h; bs "/nix/store"; dn] ":" = bs "source:sha256:" ++ h ++ bs ":/nix/store:" ++ dn.
Proof.
  cbn [join_byte]. change (bs "source:sha256:") with (bs "source" ++ ":"%byte :: bs "sha256" ++ [":"%byte]).
  change (bs ":/nix/store:") with (":"%byte :: bs "/nix/store" ++ [":"%byte]). repeat (rewrite <- ?app_assoc; cbn [app]). reflexivity.
Qed.
Lemma join_output n h dn : join_byte [bs "output"; n; bs "sha256"; h; bs "/nix/store"; dn] ":" = bs "output:" ++ n ++ bs ":sha256:" ++ h ++ bs ":/nix/store:" ++ dn.
Proof.
  cbn [join_byte]. change (bs "output:") with (bs "output" ++ [":"%byte]). change (bs ":sha256:") with (":"%byte :: bs "sha256" ++ [":"%byte]).
  change (bs ":/nix/store:") with (":"%byte :: bs "/nix/store" ++ [":"%byte]). repeat (rewrite <- ?app_assoc; cbn [app]). reflexivity.
Qed.
Lemma join_fixed a h p : join_byte [bs "fixed"; bs "out"; a; h; p] ":" = bs "fixed:out:" ++ a ++ bs ":" ++ h ++ bs ":" ++ p.
Proof.
  cbn [join_byte]. change (bs "fixed:out:") with (bs "fixed" ++ ":"%byte :: bs "out" ++ [":"%byte]). change (bs ":") with [":"%byte].
  repeat (rewrite <- ?app_assoc; cbn [app]). reflexivity.
Qed.
Lemma output_path_eq d repl name o : output_path sha d repl h_new name o = let* p := opath (drv_Name d) (drv_bytes d true repl) name o in Ok (p, h_new).
Proof.
  unfold output_path, opath, StoreDir. rewrite maskedATermHash_def. cbn zeta.
  assert (Z : forall a, CompressHash a 20 = Ok (fold20 a)) by (intros; apply fold20_eq).
  set (pn := if beq name (bs "out") then _ else _). clearbody pn. generalize (drv_Name d). intros dn.
  destruct (negb (beq (o_algo o) [])).
  - rewrite !hashStrings_eq. unfold h_new, h_reset. cbn [app]. rewrite join_source, join_output, join_fixed, app_nil_r.
    replace (bs "output:out:sha256:") with (bs "output:" ++ bs "out" ++ bs ":sha256:") by reflexivity.
    destruct (beq (o_algo o) (bs "r:sha256")); cbn [rbind]; rewrite Z; cbn [rbind]; rewrite <- ?app_assoc; reflexivity.
  - destruct (drv_bytes d true repl) as [b|e|w]; cbn [rbind]; [|reflexivity|reflexivity]. rewrite hashStrings_eq. unfold h_new, h_reset. cbn [app]. rewrite join_output, Z. reflexivity.
Qed.
Fixpoint opaths (dname : bytes) (mb : res bytes) (acc : amap bytes) (l : list (bytes * output)) : res (amap bytes) :=
  match l with
  | [] => Ok acc
  | (n, o) :: l' => let* p := opath dname mb n o in opaths dname mb (mset acc n p) l'
  end.
Lemma output_paths_eq d repl l : forall acc, output_paths sha d repl h_new acc l = opaths (drv_Name d) (drv_bytes d true repl) acc l.
Proof.
  induction l as [|[n o] l IH]; intros acc; cbn [output_paths opaths]; [reflexivity|]. rewrite output_path_eq. destruct (opath _ _ _ _); cbn [rbind fst snd]; [apply IH|reflexivity|reflexivity].
Qed.
Lemma Calc_eq d repl : CalculateOutputPaths sha d repl =
  match drv_Name d with [] => Panic "env 'name' not found" | _ => opaths (drv_Name d) (drv_bytes d true repl) [] (d_outputs d) end.
Proof. unfold CalculateOutputPaths. rewrite output_paths_eq. destruct (drv_Name d); reflexivity. Qed.
(** Outcomes. *)
Definition ok_path (dname : bytes) (mb : res bytes) (no : bytes * output) : bytes := match opath dname mb (fst no) (snd no) with Ok p => p | _ => [] end.
Lemma opaths_ok dname mb l : forall acc, (forall no, In no l -> is_ok (opath dname mb (fst no) (snd no)) = true) -> NoDup (mkeys acc ++ map fst l) ->
  opaths dname mb acc l = Ok (acc ++ map (fun no => (fst no, ok_path dname mb no)) l).
Proof.
  induction l as [|[n o] l IH]; intros acc H N; cbn [opaths map]; [rewrite app_nil_r; reflexivity|].
  assert (H0 := H (n, o) (or_introl eq_refl)). cbn [fst snd] in H0. unfold ok_path. cbn [fst snd]. destruct (opath dname mb n o) as [p|e|w]; try discriminate. cbn [rbind].
  cbn [map fst] in N. assert (NI : ~ In n (mkeys acc)). { intros X. apply NoDup_remove_2 in N. apply N. apply in_or_app. left. exact X. }
  rewrite (mset_fresh acc n p NI). rewrite IH.
  - rewrite <- app_assoc. reflexivity.
  - intros no Hno. apply H. right. exact Hno.
  - unfold mkeys in *. rewrite map_app, <- app_assoc. exact N.
Qed.
Lemma opath_cases dname mb n o : is_panic mb = false -> is_ok (opath dname mb n o) = true \/ exists e, mb = Err e /\ o_algo o = [] /\ opath dname mb n o = Err e.
Proof.
  intros P. unfold opath. cbn zeta. destruct (beq_spec (o_algo o) []) as [E|E]; cbn [negb]; [|left; reflexivity].
  destruct mb as [b|e|w]; cbn [rbind]; [left; reflexivity|right; eauto|discriminate].
Qed.
Lemma opaths_err dname e l : forall acc, (exists no, In no l /\ o_algo (snd no) = []) -> opaths dname (Err e) acc l = Err e.
Proof.
  induction l as [|[n o] l IH]; intros acc (no & H & A); [destruct H|]. cbn [opaths]. destruct (opath_cases dname (Err e) n o eq_refl) as [O|(e' & X & _ & O)].
  - destruct H as [<-|H].
    + cbn [snd] in A. unfold opath in O. cbn zeta in O. rewrite A in O. discriminate O.
    + destruct (opath dname (Err e) n o); try discriminate. cbn [rbind]. apply IH. eauto.
  - injection X as <-. rewrite O. reflexivity.
Qed.
Lemma opaths_no_panic dname mb l : is_panic mb = false -> forall acc, is_panic (opaths dname mb acc l) = false.
Proof.
  intros P. induction l as [|[n o] l IH]; intros acc; [reflexivity|]. cbn [opaths]. destruct (opath_cases dname mb n o P) as [O|(e & _ & _ & ->)]; [|reflexivity].
  destruct (opath dname mb n o); try discriminate. apply IH.
Qed.
Lemma opaths_perm dname mb l l' : is_panic mb = false -> NoDup (map fst l) -> Permutation l l' -> same_map_result (opaths dname mb [] l) (opaths dname mb [] l').
Proof.
  intros NP N P. assert (N' : NoDup (map fst l')) by (eapply Permutation_NoDup; [apply Permutation_map; exact P|exact N]).
  assert (OK : (forall no, In no l -> is_ok (opath dname mb (fst no) (snd no)) = true) -> same_map_result (opaths dname mb [] l) (opaths dname mb [] l')).
  { intros H. rewrite (opaths_ok dname mb l [] H N). rewrite (opaths_ok dname mb l' []); [|intros no Hno; apply H; eapply Permutation_in; [symmetry; exact P|exact Hno]|exact N'].
    cbn [app same_map_result]. apply Permutation_map. exact P. }
  destruct mb as [b|e|w]; [|destruct (existsb (fun no => beq (o_algo (snd no)) []) l) eqn:E|discriminate].
  - apply OK. intros no _. destruct (opath_cases dname (Ok b) (fst no) (snd no) eq_refl) as [X|(e & X & _)]; [exact X|discriminate].
  - apply existsb_exists in E. destruct E as (no & A & B). apply beq_eq in B. rewrite (opaths_err dname e l) by eauto.
    rewrite (opaths_err dname e l'); [reflexivity|]. exists no. split; [eapply Permutation_in; [exact P|exact A]|exact B].
  - apply OK. intros no H. destruct (opath_cases dname (Err e) (fst no) (snd no) eq_refl) as [X|(e' & _ & A & _)]; [exact X|].
    exfalso. apply Bool.not_true_iff_false in E. apply E. apply existsb_exists. exists no. rewrite A. auto.
Qed.
Lemma opath_algo dname mb n o o' : o_algo o = o_algo o' -> o_hash o = o_hash o' -> opath dname mb n o = opath dname mb n o'.
Proof. intros A B. unfold opath. rewrite A, B. reflexivity. Qed.
Definition hide (no : bytes * output) : bytes * output := (fst no, Output [] (o_algo (snd no)) (o_hash (snd no))).
Lemma opaths_hide dname mb l : forall acc, opaths dname mb acc (map hide l) = opaths dname mb acc l.
Proof.
  induction l as [|[n o] l IH]; intros acc; [reflexivity|]. cbn [map hide fst snd opaths]. rewrite (opath_algo dname mb n (Output [] (o_algo o) (o_hash o)) o eq_refl eq_refl).
  destruct (opath dname mb n o); cbn [rbind]; [apply IH|reflexivity|reflexivity].
Qed.
Lemma Calc_mask d repl : CalculateOutputPaths sha d repl =
  match drv_Name d with [] => Panic "env 'name' not found" | _ => opaths (drv_Name d) (drv_bytes (mask d) false repl) [] (d_outputs (mask d)) end.
Proof. rewrite Calc_eq, mask_bytes. change (d_outputs (mask d)) with (map hide (d_outputs d)). rewrite opaths_hide. reflexivity. Qed.
Lemma mask_wf d : wf_maps d -> wf_maps (mask d).
Proof.
  intros (A & B & C). unfold wf_maps, mask. cbn [d_outputs d_inputs d_env]. rewrite (mkeys_map (fun _ o => Output [] (o_algo o) (o_hash o))).
  rewrite (mkeys_map (fun k (v : bytes) => if existsb (beq k) (map fst (d_outputs d)) then [] else v)). auto.
Qed.
Lemma Calc_same_mask d e repl : wf_maps d -> drv_Name d = drv_Name e -> same_drv (mask d) (mask e) -> no_clash repl d ->
  same_map_result (CalculateOutputPaths sha d repl) (CalculateOutputPaths sha e repl).
Proof.
  intros W N S C. rewrite !Calc_mask, <- N. destruct (drv_Name d); [exact I|].
  rewrite <- (same_bytes_any (mask d) (mask e) false repl (mask_wf d W) S C).
  apply opaths_perm; [apply bytes_no_panic|apply (mask_wf d W)|apply S].
Qed.
Lemma Calc_same d e repl : wf_maps d -> same_drv d e -> no_clash repl d ->
  same_map_result (CalculateOutputPaths sha d repl) (CalculateOutputPaths sha e repl).
Proof. intros W S C. apply Calc_same_mask; auto; [apply same_name; assumption|apply (same_mask d e true S)]. Qed.
Lemma Calc_eq_mask d e repl : drv_Name d = drv_Name e -> mask d = mask e -> CalculateOutputPaths sha d repl = CalculateOutputPaths sha e repl.
Proof. intros N M. rewrite !Calc_mask, N, M. reflexivity. Qed.
Lemma mask_fill paths d : mask (fill paths d) = mask d.
Proof.
  unfold mask, fill. cbn [d_name d_outputs d_srcs d_inputs d_platform d_builder d_args d_env]. rewrite !map_map. cbn [fst snd o_algo o_hash].
  f_equal. apply map_ext. intros [k v]. cbn [fst snd]. destruct (existsb _ _); reflexivity.
Qed.
Lemma fill_name paths d : ~ has_key "name" (d_outputs d) -> ~ has_key "__json" (d_outputs d) -> drv_Name (fill paths d) = drv_Name d.
Proof.
  intros N J. unfold drv_Name, fill, mget_or. cbn [d_env d_name].
  rewrite !(mget_map (fun k v => if existsb (beq k) (map fst (d_outputs d)) then path_of paths k else v)).
  destruct (mget (d_env d) (bs "__json")); [reflexivity|]. destruct (mget (d_env d) (bs "name")) as [v|]; [|reflexivity].
  destruct (existsb (beq (bs "name")) (map fst (d_outputs d))) eqn:E; [|reflexivity]. exfalso. apply N. apply existsb_exists in E. destruct E as (x & A & B). apply beq_eq in B. subst. exact A.
Qed.
(** A single fixed output. *)
Lemma Calc_fixed d e repl repl' n o o' : d_outputs d = [(n, o)] -> d_outputs e = [(n, o')] -> fixed_output o -> o_algo o = o_algo o' -> o_hash o = o_hash o' ->
  drv_Name d = drv_Name e -> CalculateOutputPaths sha d repl = CalculateOutputPaths sha e repl'.
Proof.
  intros D E F A B N. rewrite !Calc_eq, <- N, D, E. cbn [opaths]. unfold opath. cbn zeta. rewrite <- A, <- B.
  unfold fixed_output in F. apply beq_neq in F. rewrite F. reflexivity.
Qed.
Lemma mget_paths dname mb l n o : NoDup (map fst l) -> In (n, o) l -> mget (map (fun no => (fst no, ok_path dname mb no)) l) n = Some (ok_path dname mb (n, o)).
Proof.
  intros N H. apply in_mget; [unfold mkeys; rewrite map_map; exact N|]. apply in_map_iff. exists (n, o). auto.
Qed.
Lemma Calc_ok d repl b : wf_maps d -> drv_Name d <> [] -> drv_bytes d true repl = Ok b ->
  exists paths, CalculateOutputPaths sha d repl = Ok paths /\ mkeys paths = mkeys (d_outputs d) /\
    forall n o, In (n, o) (d_outputs d) -> exists p, opath (drv_Name d) (Ok b) n o = Ok p /\ mget paths n = Some p.
Proof.
  intros W N E. rewrite Calc_eq, E. destruct (drv_Name d) as [|c dn] eqn:DN; [congruence|].
  assert (OK : forall no, In no (d_outputs d) -> is_ok (opath (c :: dn) (Ok b) (fst no) (snd no)) = true).
  { intros no _. destruct (opath_cases (c :: dn) (Ok b) (fst no) (snd no) eq_refl) as [X|(e & X & _)]; [exact X|discriminate]. }
  rewrite (opaths_ok (c :: dn) (Ok b) (d_outputs d) [] OK (proj1 W)). eexists. split; [reflexivity|]. cbn [app]. split; [unfold mkeys; rewrite map_map; reflexivity|].
  intros n o H. specialize (OK (n, o) H). cbn [fst snd] in OK. rewrite (mget_paths (c :: dn) (Ok b) _ n o (proj1 W) H). unfold ok_path. cbn [fst snd].
  destruct (opath (c :: dn) (Ok b) n o) as [p|x|x]; try discriminate. eauto.
Qed.
(** Without replacements that fail. *)
Lemma Calc_no_panic d repl : drv_Name d <> [] -> is_panic (CalculateOutputPaths sha d repl) = false.
Proof. intros N. rewrite Calc_eq. destruct (drv_Name d); [congruence|]. apply opaths_no_panic, bytes_no_panic. Qed.
Lemma Calc_panic d repl : drv_Name d = [] -> is_panic (CalculateOutputPaths sha d repl) = true.
Proof. intros N. rewrite Calc_eq, N. reflexivity. Qed.

(** DrvPath. *)
Definition drv_fingerprint (t : bytes) (refs : list bytes) (name : bytes) : bytes :=
  bs "text:" ++ concat (map (fun r => r ++ bs ":") refs) ++ bs "sha256:" ++ hex_encode (sha t) ++ bs ":/nix/store:" ++ name ++ bs ".drv".
Lemma DrvPath_eq d t : drv_bytes d false [] = Ok t -> drv_Name d <> [] ->
  DrvPath sha d = Ok (sp_Absolute (SP (drv_Name d ++ bs ".drv") (fold20 (sha (drv_fingerprint t (sort_strings (mkeys (d_inputs d) ++ d_srcs d)) (drv_Name d)))))).
Proof.
  intros E N. rewrite ?DrvPath_def. rewrite E. cbn [rbind]. destruct (drv_Name d) as [|c nm] eqn:DN; [congruence|]. cbn zeta.
  rewrite (proj1 (fold20_eq _)). cbn [rbind]. unfold drv_fingerprint, StoreDir.
  change (bs ":/nix/store:") with (bs ":" ++ bs "/nix/store" ++ bs ":"). repeat rewrite <- app_assoc. reflexivity.
Qed.
Lemma DrvPath_panic d : wf_maps d -> drv_Name d = [] -> is_panic (DrvPath sha d) = true.
Proof. intros W N. destruct (bytes_aterm d false W) as (t & E & _). rewrite ?DrvPath_def. rewrite E, N. reflexivity. Qed.
Lemma DrvPath_same d e : wf_maps d -> same_drv d e -> DrvPath sha d = DrvPath sha e.
Proof.
  intros W S. rewrite ?DrvPath_def. rewrite <- (same_bytes_any d e false [] W S (no_clash_nil d)). rewrite <- (same_name d e W S).
  destruct S as (_ & _ & S3 & S4 & _). rewrite S3.
  rewrite (sort_perm_eq (mkeys (d_inputs d) ++ d_srcs e) (mkeys (d_inputs e) ++ d_srcs e)); [reflexivity|]. apply Permutation_app_tail, Permutation_map, S4.
Qed.
Lemma Repl_same d e repl : wf_maps d -> same_drv d e -> no_clash repl d -> CalculateDrvReplacement sha d repl = CalculateDrvReplacement sha e repl.
Proof.
  intros W S C. rewrite ?CalculateDrvReplacement_def. cbn zeta. rewrite (same_bytes_any d e false repl W S C). destruct S as (_ & S2 & _).
  rewrite (Permutation_length S2). rewrite (same_mget (d_outputs d) (d_outputs e) (bs "out") (proj1 W) S2). reflexivity.
Qed.
End Sha.
