From Verif Require Import Base.Bytes Base.BytesFacts Model.GoIO Model.GoStd Model.Nixhash Model.Storepath Model.Derivation Model.DrvParser Spec.DerivationSpec.
Ltac Zify.zify_post_hook ::= idtac.

(** * Escaping *)
Lemma escape_byte_eq c : escape_byte c = escaped_char c.
Proof. destruct c; reflexivity. Qed.
Lemma escape_eq s : escape s = escaped s.
Proof. unfold escape, escaped. induction s as [|c s IH]; [reflexivity|]. cbn [map concat]. rewrite escape_byte_eq, IH. reflexivity. Qed.
Lemma unescape_escaped s : unescape (escaped s) = s.
Proof.
  induction s as [|c s IH]; [reflexivity|]. unfold escaped in *. cbn [map concat].
  destruct c; cbn [escaped_char app]; try (cbn [unescape]; cbn; rewrite ?IH; reflexivity).
Qed.
Lemma literal_escaped s : literal (escaped s).
Proof.
  induction s as [|c s IH]; [exact I|]. unfold escaped in *. cbn [map concat].
  destruct c; cbn; try exact IH; (split; [discriminate|exact IH]).
Qed.
Lemma escaped_plain s : plain_text s -> escaped s = s.
Proof.
  induction s as [|c s IH]; intros H; [reflexivity|]. unfold escaped in *. cbn [map concat]. rewrite IH.
  - assert (X : ~ In c ["\"%byte; x22; x0a; x0d; x09]) by (apply H; left; reflexivity).
    destruct c; try reflexivity; exfalso; apply X; cbn; auto 10.
  - intros c' Hc'. apply H. right. exact Hc'.
Qed.
Lemma escaped_fixed s : escaped s = s -> plain_text s.
Proof.
  intros E. assert (K : forall l, length l <= length (escaped l)).
  { clear. induction l as [|c l IH]; [auto|]. unfold escaped in *. cbn [map concat]. rewrite app_length. destruct c; cbn [escaped_char length]; cbn; lia. }
  induction s as [|c s IH]; intros x Hx; [destruct Hx|]. unfold escaped in E. cbn [map concat] in E. fold (escaped s) in E.
  assert (L : length (escaped_char c) = 1).
  { apply (f_equal (@length byte)) in E. rewrite app_length in E. cbn [length] in E. pose proof (K s). assert (length (escaped_char c) >= 1) by (destruct c; cbn; lia). lia. }
  assert (EC : escaped_char c = [c]) by (destruct c; try reflexivity; discriminate L).
  rewrite EC in E. injection E as E. destruct Hx as [<-|Hx]; [|exact (IH E x Hx)].
  intros Hi. repeat (destruct Hi as [<-|Hi]; [discriminate EC|]). exact Hi.
Qed.

(** * Write calls *)
Lemma elem_writes_false q l : concat (elem_writes q false l) = concat (map (fun e => ","%byte :: (if q then quoted e else e)) l).
Proof.
  induction l as [|e l IH]; [reflexivity|]. cbn [elem_writes map concat]. rewrite !concat_app, IH. destruct q; cbn; rewrite ?app_nil_r; unfold quoted; cbn; rewrite <- ?app_assoc; reflexivity.
Qed.
Lemma join_concat x l : join_byte (x :: l) ","%byte = x ++ concat (map (fun e => ","%byte :: e) l).
Proof.
  revert x. induction l as [|y l IH]; intros x; [cbn; rewrite app_nil_r; reflexivity|].
  change (join_byte (x :: y :: l) ","%byte) with (x ++ ","%byte :: join_byte (y :: l) ","%byte). rewrite IH. reflexivity.
Qed.
Lemma array_writes_text q o c l : concat (array_writes q o c l) = o ++ join_byte (map (fun e => if q then quoted e else e) l) ","%byte ++ c.
Proof.
  unfold array_writes. rewrite !concat_app. cbn [concat]. rewrite !app_nil_r. f_equal. f_equal.
  destruct l as [|e l]; [reflexivity|]. cbn [elem_writes map]. rewrite join_concat, !concat_app, elem_writes_false. cbn [concat app].
  rewrite map_map. f_equal. destruct q; cbn; rewrite ?app_nil_r; reflexivity.
Qed.
Lemma array_writes_true o c l : concat (array_writes true o c l) = o ++ join_byte (map quoted l) ","%byte ++ c.
Proof. apply array_writes_text. Qed.
Lemma sep_writes_text {A} (f : A -> list bytes) (g : A -> bytes) l : (forall x, In x l -> concat (f x) = g x) ->
  concat (sep_writes f true l) = join_byte (map g l) ","%byte.
Proof.
  intros H. assert (E : forall l, (forall x, In x l -> concat (f x) = g x) -> concat (sep_writes f false l) = concat (map (fun e => ","%byte :: e) (map g l))).
  { clear. induction l as [|x l IH]; intros H; [reflexivity|]. cbn [sep_writes map concat]. rewrite !concat_app, IH by (intros; apply H; right; assumption).
    rewrite H by (left; reflexivity). reflexivity. }
  destruct l as [|x l]; [reflexivity|]. cbn [sep_writes map]. rewrite join_concat, !concat_app, E by (intros; apply H; right; assumption).
  rewrite H by (left; reflexivity). reflexivity.
Qed.

(** * Maps in key order *)
Definition ordered {V} (m : amap V) (z : V) : list (bytes * V) := map (fun k => (k, mget_or m k z)) (sort_strings (mkeys m)).
Lemma sort_in l x : In x (sort_strings l) <-> In x l.
Proof. split; intros H; eapply Permutation_in; [apply sort_perm|exact H|symmetry; apply sort_perm|exact H]. Qed.
Lemma ordered_keys {V} (m : amap V) z : map fst (ordered m z) = sort_strings (mkeys m).
Proof. unfold ordered. rewrite map_map. cbn [fst]. apply map_id. Qed.
Lemma mget_or_in {V} (m : amap V) k v z : NoDup (mkeys m) -> In (k, v) m -> mget_or m k z = v.
Proof. intros N H. unfold mget_or. rewrite (in_mget m k v N H). reflexivity. Qed.
Lemma keys_perm {V} (m : amap V) z : NoDup (mkeys m) -> Permutation m (map (fun k => (k, mget_or m k z)) (mkeys m)).
Proof.
  intros N. unfold mkeys. rewrite map_map. assert (E : map (fun x : bytes * V => (fst x, mget_or m (fst x) z)) m = m); [|rewrite E; reflexivity].
  rewrite <- map_id. apply map_ext_in. intros [k v] H. cbn [fst]. rewrite (mget_or_in m k v z N H). reflexivity.
Qed.
Lemma ordered_in_order {V} (m : amap V) z : NoDup (mkeys m) -> in_order m (ordered m z).
Proof.
  intros N. split.
  - rewrite (keys_perm m z N) at 1. unfold ordered. apply Permutation_map. symmetry. apply sort_perm.
  - rewrite ordered_keys. apply sorted_nodup_strict; [apply sort_sorted|]. eapply Permutation_NoDup; [symmetry; apply sort_perm|exact N].
Qed.
Lemma in_order_unique {V} (m : amap V) l1 l2 : in_order m l1 -> in_order m l2 -> l1 = l2.
Proof.
  intros [P1 S1] [P2 S2]. assert (P : Permutation l1 l2) by (rewrite <- P1; exact P2). clear P1 P2 m.
  assert (E : map fst l1 = map fst l2) by (apply sorted_perm_unique; [apply strict_sorted; exact S1|apply strict_sorted; exact S2|apply Permutation_map; exact P]).
  pose proof (strict_sorted_nodup _ S1) as N1. apply strict_sorted_nodup in S2. rename S2 into N2.
  assert (K : forall k v, In (k, v) l1 <-> In (k, v) l2) by (intros; split; intros H; eapply Permutation_in; [exact P|exact H|symmetry; exact P|exact H]). clear P S1.
  revert l2 E N2 K. induction l1 as [|[k v] l1 IH]; intros [|[k' v'] l2] E N2 K; try discriminate; [reflexivity|].
  cbn [map fst] in *. injection E as E1 E2. subst k'. inversion N1; subst. inversion N2; subst.
  assert (v = v').
  { destruct (proj1 (K k v) (or_introl eq_refl)) as [X|X]; [congruence|]. exfalso. apply H3. apply (in_map fst) in X. exact X. }
  subst v'. f_equal. apply IH; auto. intros k0 v0. specialize (K k0 v0). cbn [In] in K. split; intros X.
  - destruct (proj1 K (or_intror X)) as [Y|Y]; [|exact Y]. exfalso. injection Y as -> ->. apply H1. apply (in_map fst) in X. exact X.
  - destruct (proj2 K (or_intror X)) as [Y|Y]; [|exact Y]. exfalso. injection Y as -> ->. apply H3. apply (in_map fst) in X. exact X.
Qed.
Lemma in_order_perm {V} (m m' : amap V) l : Permutation m m' -> in_order m l -> in_order m' l.
Proof. intros P [A B]. split; [rewrite <- P; exact A|exact B]. Qed.
Lemma aterm_unique d t1 t2 : aterm d t1 -> aterm d t2 -> t1 = t2.
Proof.
  intros (o1 & i1 & e1 & A1 & B1 & C1 & ->) (o2 & i2 & e2 & A2 & B2 & C2 & ->).
  rewrite (in_order_unique _ _ _ A1 A2), (in_order_unique _ _ _ B1 B2), (in_order_unique _ _ _ C1 C2). reflexivity.
Qed.

Lemma drv_text_eq ds ins strip : 
  concat ([bs "Derive"; bs "("] ++
      [bs "["] ++
      sep_writes (fun n =>
        let o := mget_or (d_outputs ds) n (Output [] [] []) in
        array_writes true (bs "(") (bs ")") [n; (if strip : bool then [] else o_path o); o_algo o; o_hash o]) true (sort_strings (mkeys (d_outputs ds))) ++
      [bs "]"] ++
      [bs ","; bs "["] ++
      sep_writes (fun p =>
        [bs "("; quoteC; p; quoteC; bs ","] ++ array_writes true (bs "[") (bs "]") (mget_or ins p []) ++ [bs ")"]) true (sort_strings (mkeys ins)) ++
      [bs "]"] ++
      [bs ","] ++ array_writes true (bs "[") (bs "]") (d_srcs ds) ++
      [bs ","; escapeString (d_platform ds); bs ","; escapeString (d_builder ds)] ++
      [bs ","] ++ array_writes true (bs "[") (bs "]") (d_args ds) ++
      [bs ","; bs "["] ++
      sep_writes (fun k =>
        let v := if strip && mhas (d_outputs ds) k then [] else mget_or (d_env ds) k [] in
        array_writes false (bs "(") (bs ")") [quoteC ++ k ++ quoteC; escapeString v]) true (sort_strings (mkeys (d_env ds))) ++
      [bs "]"] ++
      [bs ")"]) =
  drv_text (map (fun k => let o := mget_or (d_outputs ds) k (Output [] [] []) in (k, if strip then Output [] (o_algo o) (o_hash o) else o)) (sort_strings (mkeys (d_outputs ds))))
    (ordered ins []) (d_srcs ds) (d_platform ds) (d_builder ds) (d_args ds)
    (map (fun k => (k, if strip && mhas (d_outputs ds) k then [] else mget_or (d_env ds) k [])) (sort_strings (mkeys (d_env ds)))).
Proof.
  repeat rewrite concat_app. rewrite !array_writes_true.
  rewrite (sep_writes_text _ (fun k => output_text (let o := mget_or (d_outputs ds) k (Output [] [] []) in (k, if strip then Output [] (o_algo o) (o_hash o) else o)))).
  2:{ intros n _. cbn zeta. rewrite array_writes_text. unfold output_text, parens. cbn [map fst snd]. destruct strip; reflexivity. }
  rewrite (sep_writes_text _ (fun k => input_text (k, mget_or ins k []))).
  2:{ intros n _. rewrite !concat_app, array_writes_text. unfold input_text, parens, brackets. cbn [fst snd join_byte]. unfold quoted, quoteC. cbn [concat app]. rewrite <- ?app_assoc. cbn [app]. rewrite <- ?app_assoc. reflexivity. }
  rewrite (sep_writes_text _ (fun k => env_text (k, if strip && mhas (d_outputs ds) k then [] else mget_or (d_env ds) k []))).
  2:{ intros n _. cbn zeta. rewrite array_writes_text. unfold env_text, parens. cbn [map fst snd join_byte]. unfold escapeString. rewrite escape_eq. reflexivity. }
  unfold drv_text, parens, brackets. rewrite !map_map. unfold ordered. rewrite map_map. unfold escapeString. rewrite !escape_eq. cbn [join_byte concat].
  repeat match goal with |- context [join_byte (map ?f ?l) ?c] => generalize (join_byte (map f l) c); intros ? end.
  generalize (escaped (d_platform ds)) (escaped (d_builder ds)). intros.
  unfold quoted, quoteC. rewrite ?app_nil_r. change (bs "[") with ["["%byte]. change (bs "]") with ["]"%byte]. change (bs "(") with ["("%byte]. change (bs ")") with [")"%byte].
  change (bs ",") with [","%byte]. repeat (rewrite <- ?app_assoc; cbn [app]). reflexivity.
Qed.

Definition with_inputs (d : drv) (ins : amap (list bytes)) : drv :=
  Drv (d_name d) (d_outputs d) (d_srcs d) ins (d_platform d) (d_builder d) (d_args d) (d_env d).
Lemma mhas_existsb {V} (m : amap V) k : mhas m k = existsb (beq k) (map fst m).
Proof.
  unfold mhas. induction m as [|[k' v] m IH]; [reflexivity|]. cbn [mget map existsb fst].
  assert (E : beq k k' = beq k' k) by (apply eq_true_iff_eq; rewrite !beq_eq; split; congruence). rewrite E. destruct (beq k' k); [reflexivity|exact IH].
Qed.
Lemma map_in_order {V} (f : bytes -> V -> V) (m : amap V) l : in_order m l ->
  in_order (map (fun kv => (fst kv, f (fst kv) (snd kv))) m) (map (fun kv => (fst kv, f (fst kv) (snd kv))) l).
Proof. intros [P S]. split; [apply Permutation_map; exact P|]. rewrite map_map. cbn [fst]. exact S. Qed.
Lemma writes_aterm_ins d strip ins : NoDup (mkeys (d_outputs d)) -> NoDup (mkeys ins) -> NoDup (mkeys (d_env d)) ->
  aterm (mask_if strip (with_inputs d ins))
   (drv_text (map (fun k => let o := mget_or (d_outputs d) k (Output [] [] []) in (k, if strip then Output [] (o_algo o) (o_hash o) else o)) (sort_strings (mkeys (d_outputs d))))
    (ordered ins []) (d_srcs d) (d_platform d) (d_builder d) (d_args d)
    (map (fun k => (k, if strip && mhas (d_outputs d) k then [] else mget_or (d_env d) k [])) (sort_strings (mkeys (d_env d))))).
Proof.
  intros N1 N2 N3. pose proof (ordered_in_order (d_outputs d) (Output [] [] []) N1) as O. pose proof (ordered_in_order (d_env d) [] N3) as O'.
  destruct strip; (eexists _, _, _; split; [|split; [apply ordered_in_order; exact N2|split; [|reflexivity]]]); cbn [mask_if mask with_inputs d_outputs d_env].
  - apply (map_in_order (fun _ o => Output [] (o_algo o) (o_hash o))) in O. unfold ordered in O. rewrite map_map in O. exact O.
  - apply (map_in_order (fun k v => if existsb (beq k) (map fst (d_outputs d)) then [] else v)) in O'. unfold ordered in O'. rewrite map_map in O'.
    cbn [fst snd] in O'. match type of O' with in_order _ ?l => match goal with |- in_order _ ?l' => replace l' with l; [exact O'|] end end.
    apply map_ext. intros k. rewrite mhas_existsb. reflexivity.
  - exact O.
  - exact O'.
Qed.
Lemma drv_bytes_eq d strip repl : drv_bytes d strip repl =
  let* ins := match repl with [] => Ok (d_inputs d) | _ => replace_inputs repl [] (d_inputs d) end in
  Ok (drv_text (map (fun k => let o := mget_or (d_outputs d) k (Output [] [] []) in (k, if strip then Output [] (o_algo o) (o_hash o) else o)) (sort_strings (mkeys (d_outputs d))))
    (ordered ins []) (d_srcs d) (d_platform d) (d_builder d) (d_args d)
    (map (fun k => (k, if strip && mhas (d_outputs d) k then [] else mget_or (d_env d) k [])) (sort_strings (mkeys (d_env d))))).
Proof.
  unfold drv_bytes, drv_writes. destruct (match repl with [] => _ | _ => _ end) as [ins|e|w]; cbn [rbind]; try reflexivity.
  f_equal. apply (drv_text_eq d ins strip).
Qed.
Lemma bytes_aterm d strip : wf_maps d -> exists t, drv_bytes d strip [] = Ok t /\ aterm (mask_if strip d) t.
Proof.
  intros (N1 & N2 & N3). rewrite drv_bytes_eq. cbn [rbind]. eexists. split; [reflexivity|].
  pose proof (writes_aterm_ins d strip (d_inputs d) N1 N2 N3) as A. destruct d. exact A.
Qed.
Lemma replace_inputs_ok repl r l : forall acc, (forall p, In p (map fst l) -> mget repl p = Some (r p)) -> NoDup (mkeys acc) ->
  (forall x a b, In (x, a) (acc ++ map (fun pn => (r (fst pn), snd pn)) l) -> In (x, b) (acc ++ map (fun pn => (r (fst pn), snd pn)) l) -> a = b) ->
  exists ins, replace_inputs repl acc l = Ok ins /\ NoDup (mkeys ins) /\ forall e, In e ins <-> In e (acc ++ map (fun pn => (r (fst pn), snd pn)) l).
Proof.
  induction l as [|[p names] l IH]; intros acc H N U; cbn [replace_inputs map fst snd].
  - exists acc. rewrite app_nil_r. split; [reflexivity|]. split; [exact N|tauto].
  - rewrite (H p) by (left; reflexivity). cbn [map fst snd] in U.
    assert (HS : forall e, In e (mset acc (r p) names) <-> In e (acc ++ [(r p, names)])).
    { intros [x a]. destruct (in_dec (list_eq_dec byte_eq_dec) (r p) (mkeys acc)) as [I|I].
      - apply in_map_iff in I. destruct I as ([y b] & Y & I). cbn [fst] in Y. subst y.
        assert (b = names). { apply (U (r p)); apply in_or_app; [left; exact I|right; left; reflexivity]. } subst b.
        assert (G : mset acc (r p) names = acc).
        { clear - I N. induction acc as [|[k v] acc IH]; [destruct I|]. cbn [mset]. destruct (beq_spec k (r p)) as [E|NE].
          - subst k. destruct I as [I|I]; [congruence|]. exfalso. inversion N. subst. match goal with X : ~ In _ _ |- _ => apply X end. apply in_map_iff. exists (r p, names). auto.
          - f_equal. destruct I as [I|I]; [congruence|]. apply IH; [inversion N; assumption|exact I]. }
        rewrite G, in_app_iff. cbn. split; [tauto|]. intros [X|[X|[]]]; [exact X|]. rewrite <- X. exact I.
      - rewrite mset_fresh by exact I. tauto. }
    assert (HS2 : forall e, In e (mset acc (r p) names ++ map (fun pn => (r (fst pn), snd pn)) l) <-> In e (acc ++ (r p, names) :: map (fun pn => (r (fst pn), snd pn)) l)).
    { intros e. specialize (HS e). rewrite in_app_iff in HS. rewrite !in_app_iff. cbn [In] in *. tauto. }
    destruct (IH (mset acc (r p) names)) as (ins & E & NI & HI).
    + intros q Hq. apply H. right. exact Hq.
    + apply mset_nodup. exact N.
    + intros x a b A B. apply HS2 in A, B. exact (U x a b A B).
    + exists ins. split; [exact E|]. split; [exact NI|]. intros e. rewrite HI. apply HS2.
Qed.
Lemma replaced_unique repl r d : replaces repl r d -> forall x a b, In (x, a) (map (fun pn => (r (fst pn), snd pn)) (d_inputs d)) ->
  In (x, b) (map (fun pn => (r (fst pn), snd pn)) (d_inputs d)) -> a = b.
Proof.
  intros (_ & R1 & R2) x a b A B. apply in_map_iff in A, B. destruct A as ([p u] & E1 & A), B as ([q v] & E2 & B). cbn [fst snd] in *. injection E1 as <- <-. injection E2 as E2 <-.
  apply (R2 p q u v (r p) A B).
  - apply R1. apply in_map_iff. exists (p, u). auto.
  - rewrite <- E2. apply R1. apply in_map_iff. exists (q, v). auto.
Qed.
Lemma keys_nodup_pairs {V} (m : amap V) : NoDup (mkeys m) -> NoDup m.
Proof. intros N. eapply NoDup_map_inv. exact N. Qed.
Lemma replace_inputs_rename repl r d : replaces repl r d ->
  exists ins, replace_inputs repl [] (d_inputs d) = Ok ins /\ NoDup (mkeys ins) /\ Permutation ins (d_inputs (rename r d)).
Proof.
  intros R. pose proof (replaced_unique _ _ _ R) as U. destruct R as (R0 & R1 & R2).
  destruct (replace_inputs_ok repl r (d_inputs d) [] R1 (NoDup_nil _) U) as (ins & E & N & I). exists ins. split; [exact E|]. split; [exact N|].
  apply NoDup_Permutation; [apply keys_nodup_pairs; exact N|apply NoDup_nodup|]. intros e. rewrite I. cbn [rename d_inputs]. rewrite nodup_In. reflexivity.
Qed.
Lemma replace_inputs_missing repl l : forall acc p, In p (map fst l) -> mget repl p = None -> is_err (replace_inputs repl acc l) = true.
Proof.
  induction l as [|[q names] l IH]; intros acc p H E; [destruct H|]. cbn [replace_inputs]. destruct H as [<-|H].
  - cbn [fst] in E. rewrite E. reflexivity.
  - destruct (mget repl q); [eapply IH; eauto|reflexivity].
Qed.
(** * Order *)
Lemma same_mget {V} (m m' : amap V) k : NoDup (mkeys m) -> Permutation m m' -> mget m k = mget m' k.
Proof. intros N P. apply mget_perm; assumption. Qed.
Lemma same_aterm d e t : same_drv d e -> aterm d t -> aterm e t.
Proof.
  intros (S1 & S2 & S3 & S4 & S5 & S6 & S7 & S8) (outs & ins & env & A & B & C & ->). exists outs, ins, env.
  split; [eapply in_order_perm; eauto|]. split; [eapply in_order_perm; eauto|]. split; [eapply in_order_perm; eauto|]. congruence.
Qed.
Lemma same_wf d e : same_drv d e -> wf_maps d -> wf_maps e.
Proof.
  intros (S1 & S2 & S3 & S4 & S5 & S6 & S7 & S8) (A & B & C). unfold wf_maps, mkeys in *.
  repeat split; eapply Permutation_NoDup; [apply Permutation_map; exact S2|exact A|apply Permutation_map; exact S4|exact B|apply Permutation_map; exact S8|exact C].
Qed.
Lemma same_sym d e : same_drv d e -> same_drv e d.
Proof. intros (S1 & S2 & S3 & S4 & S5 & S6 & S7 & S8). unfold same_drv. repeat split; auto; symmetry; assumption. Qed.
Lemma existsb_perm (f : bytes -> bool) l l' : Permutation l l' -> existsb f l = existsb f l'.
Proof.
  intros P. apply eq_true_iff_eq. rewrite !existsb_exists. split; intros (x & A & B); exists x; (split; [|exact B]); eapply Permutation_in; [exact P|exact A|symmetry; exact P|exact A].
Qed.
Lemma same_mask d e b : same_drv d e -> same_drv (mask_if b d) (mask_if b e).
Proof.
  destruct b; [|auto]. intros (S1 & S2 & S3 & S4 & S5 & S6 & S7 & S8). unfold same_drv, mask_if, mask. cbn.
  repeat split; auto; [apply Permutation_map; exact S2|]. 
  erewrite (map_ext (fun kv : bytes * bytes => (fst kv, if existsb (beq (fst kv)) (map fst (d_outputs d)) then _ else _))); [apply Permutation_map; exact S8|].
  intros kv. cbn. rewrite (existsb_perm _ _ _ (Permutation_map fst S2)). reflexivity.
Qed.
Lemma bytes_replaced d strip repl r : wf_maps d -> replaces repl r d ->
  exists t, drv_bytes d strip repl = Ok t /\ aterm (mask_if strip (rename r d)) t.
Proof.
  intros (N1 & N2 & N3) R. rewrite drv_bytes_eq. destruct (replace_inputs_rename _ _ _ R) as (ins & E & N & P). destruct R as (R0 & R1 & R2).
  destruct repl as [|x repl]; [congruence|]. rewrite E. cbn [rbind]. eexists. split; [reflexivity|].
  pose proof (writes_aterm_ins d strip ins N1 N N3) as A.
  eapply same_aterm; [|exact A]. apply same_mask. unfold same_drv, with_inputs, rename. cbn. repeat split; auto.
Qed.
Lemma same_rename d e r : same_drv d e -> same_drv (rename r d) (rename r e).
Proof.
  intros (S1 & S2 & S3 & S4 & S5 & S6 & S7 & S8). unfold same_drv, rename. cbn. repeat split; auto.
  apply NoDup_Permutation; [apply NoDup_nodup|apply NoDup_nodup|]. intros x. rewrite !nodup_In.
  split; apply Permutation_in; [|symmetry]; apply Permutation_map; exact S4.
Qed.
Lemma same_clash d e repl : same_drv d e -> no_clash repl d -> no_clash repl e.
Proof. intros (_ & _ & _ & P & _) C p q a b x Hp Hq. apply (C p q); eapply Permutation_in; try (symmetry; exact P); assumption. Qed.
Lemma same_replaces d e repl r : same_drv d e -> replaces repl r d -> replaces repl r e.
Proof.
  intros S (A & B & C). split; [exact A|]. split; [|exact (same_clash _ _ _ S C)].
  destruct S as (S1 & S2 & S3 & S4 & S5 & S6 & S7 & S8). unfold mkeys in *.
  intros p Hp. apply B. eapply Permutation_in; [|exact Hp]. apply Permutation_map. symmetry. exact S4.
Qed.
Lemma same_bytes d e strip : wf_maps d -> same_drv d e -> drv_bytes d strip [] = drv_bytes e strip [].
Proof.
  intros W S. destruct (bytes_aterm d strip W) as (t & E & A). destruct (bytes_aterm e strip (same_wf _ _ S W)) as (t' & E' & A').
  rewrite E, E'. f_equal. eapply aterm_unique; [eapply same_aterm; [apply same_mask; exact S|exact A]|exact A'].
Qed.
Lemma same_bytes_repl d e strip repl r : wf_maps d -> same_drv d e -> replaces repl r d -> drv_bytes d strip repl = drv_bytes e strip repl.
Proof.
  intros W S R. destruct (bytes_replaced d strip repl r W R) as (t & E & A). destruct (bytes_replaced e strip repl r (same_wf _ _ S W) (same_replaces _ _ _ _ S R)) as (t' & E' & A').
  rewrite E, E'. f_equal. eapply aterm_unique; [eapply same_aterm; [apply same_mask, same_rename; exact S|exact A]|exact A'].
Qed.
Lemma same_name d e : wf_maps d -> same_drv d e -> drv_Name d = drv_Name e.
Proof.
  intros (_ & _ & N) (S1 & _ & _ & _ & _ & _ & _ & S8). unfold drv_Name, mget_or.
  rewrite <- (same_mget _ _ (bs "__json") N S8), <- (same_mget _ _ (bs "name") N S8), S1. reflexivity.
Qed.
