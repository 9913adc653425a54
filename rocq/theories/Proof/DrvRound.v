From Verif Require Import Base.Bytes Base.BytesFacts Model.GoIO Model.GoStd Model.Nixhash Model.Storepath Model.Derivation Model.DrvParser Spec.DerivationSpec
  Proof.StorePathProps Proof.DrvEncode Proof.DrvParse.
Ltac Zify.zify_post_hook ::= idtac.

Lemma fold_strings l : forall i acc, fold_items string_item (map quoted l) i acc = Ok (acc ++ l).
Proof.
  induction l as [|x l IH]; intros i acc; cbn [map fold_items]; [rewrite app_nil_r; reflexivity|]. unfold string_item at 1. rewrite unquote_quoted. cbn [rbind].
  rewrite IH, <- app_assoc. reflexivity.
Qed.
Lemma quoted_skips k l : Forall literal l -> Forall (skips k) (map quoted l).
Proof. intros H. apply Forall_map. apply Forall_impl with (2 := H). intros s. apply skips_quoted. Qed.
Lemma quoted_nes l : Forall (fun x => x <> []) (map quoted l).
Proof. apply Forall_map. apply Forall_forall. intros. apply quoted_ne. Qed.
Lemma each_strings l acc : Forall literal l -> arrayEach string_item (brackets (map quoted l)) acc = Ok (acc ++ l).
Proof. intros H. rewrite arrayEach_brackets by (try apply quoted_skips; try apply quoted_nes; exact H). apply fold_strings. Qed.

Lemma blt_nble a b : blt a b = true -> ble b a = false.
Proof. intros H. rewrite blt_not_ble in H. apply negb_true_iff in H. exact H. Qed.
Lemma blt_ne a b : blt a b = true -> b <> [].
Proof. intros H ->. destruct a; discriminate. Qed.

(** One entry. *)
Definition lit_output (no : bytes * output) : Prop := literal (fst no) /\ literal (o_path (snd no)) /\ literal (o_algo (snd no)) /\ literal (o_hash (snd no)).
Definition lit_input (pn : bytes * list bytes) : Prop := literal (fst pn) /\ Forall literal (snd pn).
Definition lit_env (kv : bytes * bytes) : Prop := literal (fst kv).
Lemma output_text_skips no : lit_output no -> skips 1 (output_text no).
Proof. intros (A & B & C & D). apply skips_parens. repeat constructor; apply skips_quoted; assumption. Qed.
Lemma input_text_skips pn : lit_input pn -> skips 1 (input_text pn).
Proof.
  intros (A & B). apply skips_parens. repeat constructor; [apply skips_quoted; assumption|]. apply (skips_le 1); [lia|]. apply skips_brackets. apply quoted_skips. exact B.
Qed.
Lemma env_text_skips kv : lit_env kv -> skips 1 (env_text kv).
Proof. intros A. apply skips_parens. repeat constructor; apply skips_quoted; [exact A|apply literal_escaped]. Qed.

Lemma output_item_text m prev no i : lit_output no -> blt prev (fst no) = true ->
  output_item (m, prev) (output_text no) i = Ok (mset m (fst no) (snd no), fst no).
Proof.
  intros (A & B & C & D) H. unfold output_item, output_text.
  rewrite arrayEach_parens; [|repeat constructor; apply skips_quoted; assumption|repeat constructor; apply quoted_ne].
  cbn [fold_items output_field Nat.add]. rewrite !unquote_quoted. cbn [rbind]. rewrite (blt_nble _ _ H). cbn [rbind o_algo o_hash o_path].
  repeat (cbn [output_field]; rewrite !unquote_quoted; cbn [rbind o_algo o_hash o_path]).
  pose proof (blt_ne _ _ H) as NE. destruct no as [[|c n] [p a h]]; cbn [fst snd o_path o_algo o_hash] in *; [congruence|reflexivity].
Qed.
Lemma input_item_text m prev pn i : lit_input pn -> blt prev (fst pn) = true ->
  input_item (m, prev) (input_text pn) i = Ok (mset m (fst pn) (snd pn), fst pn).
Proof.
  intros (A & B) H. unfold input_item, input_text.
  rewrite arrayEach_parens; [|repeat constructor; [apply skips_quoted; assumption|apply skips_brackets; apply quoted_skips; exact B]|repeat constructor; discriminate].
  cbn [fold_items input_field Nat.add]. rewrite !unquote_quoted. cbn [rbind]. rewrite (blt_nble _ _ H). cbn [rbind input_field].
  rewrite each_strings by exact B. reflexivity.
Qed.
Lemma env_item_text m prev kv i : lit_env kv -> blt prev (fst kv) = true ->
  env_item (m, prev) (env_text kv) i = Ok (mset m (fst kv) (snd kv), fst kv).
Proof.
  intros A H. unfold env_item, env_text.
  rewrite arrayEach_parens; [|repeat constructor; apply skips_quoted; [exact A|apply literal_escaped]|repeat constructor; discriminate].
  cbn [fold_items env_field Nat.add]. rewrite unquote_quoted. cbn [rbind]. rewrite (blt_nble _ _ H). cbn [rbind env_field]. rewrite unquote_escaped. reflexivity.
Qed.

(** A map of entries. *)
Lemma fold_map {V} (item : amap V * bytes -> bytes -> nat -> res (amap V * bytes)) (text : bytes * V -> bytes) (P : bytes * V -> Prop) :
  (forall m prev kv i, P kv -> blt prev (fst kv) = true -> item (m, prev) (text kv) i = Ok (mset m (fst kv) (snd kv), fst kv)) ->
  forall l m prev i, Forall P l -> strictly_sorted (prev :: map fst l) -> (forall k, In k (mkeys m) -> ~ In k (map fst l)) ->
  exists prev', fold_items item (map text l) i (m, prev) = Ok (m ++ l, prev').
Proof.
  intros HI. induction l as [|kv l IH]; intros m prev i HP HS HN; cbn [map fold_items]; [exists prev; rewrite app_nil_r; reflexivity|].
  inversion HP as [|? ? P1 P2]; subst. cbn [map] in HS. inversion HS as [|? ? S1 S2]; subst. inversion S2 as [|? ? S3 S4]; subst.
  rewrite HI by assumption. cbn [rbind]. rewrite mset_fresh by (intros X; apply (HN _ X); left; reflexivity).
  destruct (IH (m ++ [(fst kv, snd kv)]) (fst kv) (i + 1) P2) as (p' & E).
  - exact S1.
  - intros k Hk. unfold mkeys in Hk. rewrite map_app in Hk. apply in_app_or in Hk. destruct Hk as [Hk|[<-|[]]].
    + intros X. apply (HN k Hk). right. exact X.
    + cbn [fst]. apply strict_sorted_nodup in S1. inversion S1; assumption.
  - exists p'. rewrite E, <- app_assoc. destruct kv. reflexivity.
Qed.
Lemma sorted_from_empty l : strictly_sorted l -> ~ In [] l -> strictly_sorted ([] :: l).
Proof.
  intros S N. constructor; [exact S|]. apply Forall_forall. intros x Hx. destruct x; [contradiction|reflexivity].
Qed.
Lemma each_map {V} (item : amap V * bytes -> bytes -> nat -> res (amap V * bytes)) (text : bytes * V -> bytes) (P : bytes * V -> Prop) l :
  (forall m prev kv i, P kv -> blt prev (fst kv) = true -> item (m, prev) (text kv) i = Ok (mset m (fst kv) (snd kv), fst kv)) ->
  (forall kv, P kv -> skips 1 (text kv)) -> (forall kv, text kv <> []) -> Forall P l -> strictly_sorted (map fst l) -> ~ In [] (map fst l) ->
  (let* st := arrayEach item (brackets (map text l)) ([], []) in Ok (fst st)) = Ok l.
Proof.
  intros HI HS HN HP S N. rewrite arrayEach_brackets.
  - destruct (fold_map item text P HI l [] [] 0 HP (sorted_from_empty _ S N)) as (p & E); [intros k []|].
    match goal with |- rbind ?x _ = _ => replace x with (@Ok (amap V * bytes) ([] ++ l, p)) by (symmetry; exact E) end. reflexivity.
  - apply Forall_map. apply Forall_impl with (2 := HP). exact HS.
  - apply Forall_map. apply Forall_forall. intros. apply HN.
Qed.
Lemma parse_outputs_text l : Forall lit_output l -> strictly_sorted (map fst l) -> ~ In [] (map fst l) -> parse_outputs (brackets (map output_text l)) = Ok l.
Proof. apply (each_map output_item output_text lit_output); [exact output_item_text|exact output_text_skips|discriminate]. Qed.
Lemma parse_inputs_text l : Forall lit_input l -> strictly_sorted (map fst l) -> ~ In [] (map fst l) -> parse_inputs (brackets (map input_text l)) = Ok l.
Proof. apply (each_map input_item input_text lit_input); [exact input_item_text|exact input_text_skips|discriminate]. Qed.
Lemma parse_env_text l : Forall lit_env l -> strictly_sorted (map fst l) -> ~ In [] (map fst l) -> parse_env (brackets (map env_text l)) = Ok l.
Proof. apply (each_map env_item env_text lit_env); [exact env_item_text|exact env_text_skips|discriminate]. Qed.

(** The whole text. *)
Definition set_name (json : bytes -> res (option bytes)) (d : drv) : res drv :=
  match mget (d_env d) (bs "__json") with
  | None => Ok d
  | Some j => let* r := json j in
      match r with
      | None => Panic "nil pointer dereference"
      | Some n => Ok (Drv n (d_outputs d) (d_srcs d) (d_inputs d) (d_platform d) (d_builder d) (d_args d) (d_env d))
      end
  end.
Lemma parse_eq json b : parseDerivation json b =
  if length b <? 8 then Err (EMsg "input too short to be a valid derivation")
  else let* pre := slice b 0 6 in
    if negb (beq pre (bs "Derive")) then Err (EMsg "missing derivation prefix")
    else let* body := slice b 6 (length b) in
      let* d := arrayEach drv_field body (Drv [] [] [] [] [] [] [] []) in set_name json d.
Proof.
  unfold parseDerivation. destruct (length b <? 8); [reflexivity|]. destruct (slice b 0 6) as [p| |]; cbn [rbind]; try reflexivity. destruct (negb _); [reflexivity|].
  destruct (slice b 6 (length b)) as [q| |]; cbn [rbind]; try reflexivity. destruct (arrayEach drv_field q _) as [d| |]; cbn [rbind]; try reflexivity.
  unfold set_name. destruct (mget (d_env d) (bs "__json")); [|reflexivity]. destruct (json b0) as [[n|]| |]; try reflexivity. destruct d; reflexivity.
Qed.
Lemma parse_text json outs ins srcs plat bld args env :
  Forall lit_output outs -> strictly_sorted (map fst outs) -> ~ In [] (map fst outs) ->
  Forall lit_input ins -> strictly_sorted (map fst ins) -> ~ In [] (map fst ins) ->
  Forall literal srcs -> Forall literal args ->
  Forall lit_env env -> strictly_sorted (map fst env) -> ~ In [] (map fst env) ->
  parseDerivation json (drv_text outs ins srcs plat bld args env) =
  set_name json (Drv [] outs srcs ins (escaped plat) (escaped bld) args env).
Proof.
  intros A1 A2 A3 B1 B2 B3 C D E1 E2 E3. rewrite parse_eq. unfold drv_text. set (body := parens _).
  assert (LB : 2 <= length body) by (unfold body, parens; rewrite !app_length; cbn [length bs list_byte_of_string]; cbn; lia).
  replace (length (bs "Derive" ++ body) <? 8) with false by (symmetry; apply Nat.ltb_ge; rewrite app_length; cbn; lia).
  pose proof (slice_mid [] (bs "Derive") body) as S1. cbn [app length Nat.add] in S1. change (length (bs "Derive")) with 6 in S1. rewrite S1. cbn [rbind]. change (negb (beq (bs "Derive") (bs "Derive"))) with false. cbn iota.
  pose proof (slice_mid (bs "Derive") body []) as S2. rewrite app_nil_r in S2. rewrite <- app_length in S2. change (length (bs "Derive")) with 6 in S2. rewrite S2. cbn [rbind].
  unfold body. rewrite arrayEach_parens; [|repeat constructor|repeat constructor; discriminate].
  - cbn [fold_items Nat.add drv_field]. rewrite parse_outputs_text by assumption. cbn [rbind drv_field]. rewrite parse_inputs_text by assumption. cbn [rbind drv_field].
    rewrite each_strings by exact C. cbn [rbind drv_field]. rewrite !unquote_quoted. cbn [rbind drv_field]. rewrite unquote_quoted. cbn [rbind drv_field].
    rewrite each_strings by exact D. cbn [rbind drv_field]. rewrite parse_env_text by assumption. reflexivity.
  - apply skips_brackets. apply Forall_map. apply Forall_impl with (2 := A1). intros x Hx. apply (skips_le 1); [lia|]. apply output_text_skips. exact Hx.
  - apply skips_brackets. apply Forall_map. apply Forall_impl with (2 := B1). intros x Hx. apply (skips_le 1); [lia|]. apply input_text_skips. exact Hx.
  - apply skips_brackets. apply quoted_skips. exact C.
  - apply skips_quoted. apply literal_escaped.
  - apply skips_quoted. apply literal_escaped.
  - apply skips_brackets. apply quoted_skips. exact D.
  - apply skips_brackets. apply Forall_map. apply Forall_impl with (2 := E1). intros x Hx. apply (skips_le 1); [lia|]. apply env_text_skips. exact Hx.
Qed.
