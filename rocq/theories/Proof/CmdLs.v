(** Proofs for nar ls (C67). *)
From Coq Require Import Sorted.
From Verif Require Import Base.Bytes Base.BytesFacts Model.GoIO Model.GoStd Model.Wire Model.Nar Model.NarReader Model.Cmd
  Spec.WireSpec Spec.NarSpec Spec.NarParenSpec Spec.NarHist Spec.CmdSpec
  Proof.PathFacts Proof.NarPath Proof.NarReaderFacts Proof.NarSession Proof.CmdProps.
Ltac Zify.zify_post_hook ::= idtac.

(** * The loop over a list of headers *)
Definition shown (p : bytes) (rc : bool) (h : header) : bool := rc || negb (contains_byte (skipn (length p) (hd_path h)) "/"%byte).
Fixpoint ls_text (p : bytes) (rc : bool) (its : list (header * bytes)) : bytes :=
  match its with
  | [] => []
  | (h, _) :: its' =>
      if has_prefix (hd_path h) p then (if shown p rc h then headerLineString h else []) ++ ls_text p rc its'
      else if blt p (hd_path h) then [] else ls_text p rc its'
  end.
Lemma ls_items p rc : forall its rounds rest e r, at_items its rest e r -> length its < rounds -> ls_loop p rc rounds r = (Ok tt, ls_text p rc its).
Proof.
  induction its as [|[h c] its IH]; intros rounds rest e r A L; (destruct rounds as [|k]; [lia|]); cbn [ls_loop ls_text].
  - destruct (next_nil _ _ _ A) as (r' & ->). reflexivity.
  - destruct (next_items _ _ _ _ _ _ A) as (r' & -> & A' & _). cbn [length] in L. rewrite (IH k rest e r' A' ltac:(lia)). unfold shown. destruct (has_prefix (hd_path h) p); [reflexivity|]. destruct (blt p (hd_path h)); reflexivity.
Qed.
Lemma ls_run t s rest e p rc : listable t -> flat s = (nar t ++ rest, e) -> ls_Run s p rc = (Ok tt, ls_text p rc (items [] t)).
Proof.
  intros W Hs. destruct (start_items t s rest e W Hs) as (r & s1 & rest' & E & A). unfold ls_Run. rewrite E. exact (ls_items p rc _ _ rest' e r A (items_short t s rest e Hs)).
Qed.
Lemma ls_skip p rc a b : Forall (fun it : header * bytes => has_prefix (hd_path (fst it)) p = false /\ blt p (hd_path (fst it)) = false) a -> ls_text p rc (a ++ b) = ls_text p rc b.
Proof. induction 1 as [|[h c] a (H1 & H2) _ IH]; [reflexivity|]. cbn [app ls_text fst] in *. rewrite H1, H2. exact IH. Qed.
Lemma ls_none p rc a : Forall (fun it : header * bytes => has_prefix (hd_path (fst it)) p = false) a -> ls_text p rc a = [].
Proof. induction 1 as [|[h c] a H1 _ IH]; [reflexivity|]. cbn [ls_text fst] in *. rewrite H1, IH. destruct (blt p (hd_path h)); reflexivity. Qed.
Lemma ls_some p rc a b : Forall (fun it : header * bytes => has_prefix (hd_path (fst it)) p = true) a ->
  ls_text p rc (a ++ b) = concat (map (fun it => if shown p rc (fst it) then headerLineString (fst it) else []) a) ++ ls_text p rc b.
Proof. induction 1 as [|[h c] a H1 _ IH]; [reflexivity|]. cbn [app ls_text fst map concat] in *. rewrite H1, IH, app_assoc. reflexivity. Qed.

(** * The lines *)
Lemma line_hdr X cs t : wf_tree X t -> headerLineString (hdr_of cs t) = line_of cs t.
Proof.
  intros W. unfold headerLineString, line_of. destruct W as [x c L|tg T L|es F1 F2 F3]; cbn [hdr_of hd_path hd_size hd_target].
  - assert (M : mode_String (fi_Mode (Header (path_of cs) (bs "regular") [] (Z.of_nat (length c)) x)) = mode_of (Reg x c)) by (destruct x; vm_compute; reflexivity).
    rewrite M. cbn [app]. repeat f_equal. unfold detail_of. destruct c as [|y c]; [reflexivity|].
    replace (0 <? Z.of_nat (length (y :: c)))%Z with true by (symmetry; apply Z.ltb_lt; cbn [length]; lia). unfold lenN. rewrite <- (Z_nat_N (Z.of_nat _)), Nat2Z.id. reflexivity.
  - assert (M : mode_String (fi_Mode (Header (path_of cs) (bs "symlink") tg 0 false)) = mode_of (Sym tg)) by (vm_compute; reflexivity).
    rewrite M. cbn [app]. destruct tg as [|y tg]; [congruence|]. unfold detail_of. change (0 <? 0)%Z with false. cbn [app]. reflexivity.
  - assert (M : mode_String (fi_Mode (Header (path_of cs) (bs "directory") [] 0 false)) = mode_of (Dir es)) by (vm_compute; reflexivity).
    rewrite M. unfold detail_of. change (0 <? 0)%Z with false. cbn [app]. reflexivity.
Qed.
Lemma lines_items X t : wf_tree X t -> forall cs, concat (map (fun it => headerLineString (fst it)) (items cs t)) = lines cs t.
Proof.
  induction t as [b c|tg|es IH] using node_ind2; intros W cs; cbn [items map concat fst lines]; rewrite (line_hdr X cs _ W); f_equal.
  inversion W as [| |es' F1 F2 F3]; subst. clear F1 F2 W. induction F3 as [|e es H _ IHe]; [reflexivity|]. inversion IH as [|? ? I1 I2]; subst. cbn [map concat]. rewrite map_app, concat_app, (I1 H), (IHe I2). reflexivity.
Qed.

(** * Paths *)
Lemma join_acc acc : exists q, forall m ys, join_byte (acc ++ m :: ys) slash = q ++ join_byte (m :: ys) slash.
Proof.
  induction acc as [|a acc (q & Q)]; [exists []; reflexivity|]. exists (a ++ slash :: q). intros m ys. specialize (Q m ys). cbn [app]. rewrite <- app_assoc. cbn [app]. rewrite <- Q. destruct (acc ++ m :: ys) as [|z l] eqn:E; [destruct acc; discriminate|reflexivity].
Qed.
Lemma path_acc acc : exists q, forall m ys, exists r, path_of (acc ++ m :: ys) = q ++ m ++ r.
Proof.
  destruct (join_acc acc) as (q & Q). exists (slash :: q). intros m ys. unfold path_of. change "/"%byte with slash. rewrite Q. destruct ys as [|y ys].
  - exists []. rewrite app_nil_r. reflexivity.
  - exists (slash :: join_byte (y :: ys) slash). reflexivity.
Qed.
Lemma path_below (cs : list bytes) (y : bytes) (ys : list bytes) : y <> [] -> exists r, r <> [] /\ path_of (cs ++ y :: ys) = path_of cs ++ r.
Proof.
  intros Y. unfold path_of. destruct cs as [|c cs].
  - exists (join_byte (y :: ys) "/"%byte). split; [|reflexivity]. destruct ys; [exact Y|]. destruct y; [congruence|discriminate].
  - exists (slash :: join_byte (y :: ys) slash). split; [discriminate|]. cbn [app]. f_equal. change "/"%byte with slash. revert c. induction cs as [|d cs IH]; intros c; [reflexivity|]. cbn [app]. 
    change (join_byte (c :: d :: cs ++ y :: ys) slash) with (c ++ slash :: join_byte (d :: cs ++ y :: ys) slash). rewrite IH. cbn [join_byte]. rewrite <- app_assoc. reflexivity.
Qed.
Lemma diverge m : forall n, ~ starts_with m n -> ~ starts_with n m -> exists x a b u v, m = x ++ a :: u /\ n = x ++ b :: v /\ a <> b.
Proof.
  induction m as [|a m IH]; intros n H1 H2; [elim H2; exists n; reflexivity|]. destruct n as [|b n]; [elim H1; exists (a :: m); reflexivity|].
  destruct (byte_dec a b) as [<-|N]; [|exists [], a, b, m, n; auto]. destruct (IH n) as (x & a' & b' & u & v & -> & -> & D).
  - intros (r & ->). apply H1. exists r. reflexivity.
  - intros (r & ->). apply H2. exists r. reflexivity.
  - exists (a :: x), a', b', u, v. auto.
Qed.
Lemma bcmp_diverge x a b u v u' v' : a <> b -> bcmp (x ++ a :: u) (x ++ b :: v) = bcmp (x ++ a :: u') (x ++ b :: v').
Proof.
  intros D. rewrite !bcmp_app_common. cbn [bcmp]. destruct (b2n a ?= b2n b)%N eqn:C; try reflexivity. apply N.compare_eq in C. apply b2n_inj in C. contradiction.
Qed.
Lemma no_prefix_diverge x a b u v : a <> b -> has_prefix (x ++ a :: u) (x ++ b :: v) = false.
Proof.
  intros D. destruct (has_prefix _ _) eqn:H; [|reflexivity]. apply has_prefix_iff in H. destruct H as (r & H). rewrite <- app_assoc in H. apply app_inv_head in H. cbn [app] in H. congruence.
Qed.

(** Where the subtree is among the headers. *)
Lemma split_items X t cs n : clear_path t cs n -> wf_tree X t -> forall acc sfx, let p := path_of (acc ++ cs) ++ sfx in
  exists before after, items acc t = before ++ items (acc ++ cs) n ++ after /\
    Forall (fun it => has_prefix (hd_path (fst it)) p = false /\ blt p (hd_path (fst it)) = false) before /\
    Forall (fun it => has_prefix (hd_path (fst it)) p = false) after.
Proof.
  induction 1 as [t|es nm t cs n Hin Hcl A IH]; intros W acc sfx p.
  - exists [], []. rewrite !app_nil_r. split; [reflexivity|]. split; constructor.
  - inversion W as [| |es' F1 F2 F3]; subst. assert (Wt : wf_tree X t) by (rewrite Forall_forall in F3; exact (F3 _ Hin)).
    assert (NE : nm <> []) by (rewrite Forall_forall in F1; apply (F1 _ Hin)).
    apply in_split in Hin. destruct Hin as (es1 & es2 & ->). destruct (IH Wt (acc ++ [nm]) sfx) as (b1 & a1 & E & B & Af). rewrite <- app_assoc in E, B, Af. cbn [app] in E, B, Af.
    assert (SRT : forall e1, In e1 es1 -> bcmp (fst e1) nm = Lt).
    { clear -F2. rewrite map_app in F2. cbn [map fst] in F2. revert F2. generalize (map fst es2). intros l. induction es1 as [|e es1 IH]; intros F2 e1 Hin; [destruct Hin|]. cbn [map app] in F2. destruct Hin as [->|Hin].
      - apply names_sorted_lt in F2. rewrite Forall_forall in F2. apply F2. apply in_app_iff. right. left. reflexivity.
      - apply names_sorted_tl in F2. exact (IH F2 e1 Hin). }
    assert (DIV : forall e1, In e1 (es1 ++ es2) -> fst e1 <> nm -> ~ starts_with (fst e1) nm /\ ~ starts_with nm (fst e1)).
    { intros e1 Hin N. apply Hcl; [|exact N]. apply in_map. apply in_app_iff in Hin. apply in_app_iff. destruct Hin; [left|right; right]; assumption. }
    assert (SRT2 : forall e1, In e1 es2 -> fst e1 <> nm).
    { clear -F2. rewrite map_app in F2. cbn [map fst] in F2. intros e1 Hin EQ. assert (F : names_sorted (nm :: map fst es2)). { revert F2. generalize (map fst es1). intros l. induction l as [|z l IH]; intros F; [exact F|]. cbn [app] in F. apply names_sorted_tl in F. exact (IH F). }
      apply names_sorted_lt in F. rewrite Forall_forall in F. specialize (F (fst e1) ltac:(apply in_map; exact Hin)). rewrite EQ, bcmp_refl in F. discriminate. }
    destruct (path_acc acc) as (q & Q).
    assert (OTHER : forall e1 it, ~ starts_with (fst e1) nm -> ~ starts_with nm (fst e1) -> In it (items (acc ++ [fst e1]) (snd e1)) ->
      has_prefix (hd_path (fst it)) p = false /\ bcmp p (hd_path (fst it)) = bcmp nm (fst e1)).
    { intros [m tm] [h c] D1 D2 Hit. cbn [fst snd] in *. apply items_at in Hit. destruct Hit as (cs' & n' & _ & -> & _). rewrite hdr_path, <- app_assoc. cbn [app].
      destruct (Q m cs') as (r1 & ->). destruct (Q nm cs) as (r2 & E2). unfold p. rewrite E2. destruct (diverge m nm D1 D2) as (x & a & b & u & v & -> & -> & D).
      rewrite <- !app_assoc. cbn [app]. split.
      - rewrite (app_assoc q x (a :: _)), (app_assoc q x (b :: _)). apply no_prefix_diverge. exact D.
      - rewrite (bcmp_app_common q). apply bcmp_diverge. congruence. }
    exists ((hdr_of acc (Dir (es1 ++ (nm, t) :: es2)), []) :: concat (map (fun e => items (acc ++ [fst e]) (snd e)) es1) ++ b1),
           (a1 ++ concat (map (fun e => items (acc ++ [fst e]) (snd e)) es2)).
    split; [|split].
    + cbn [items content_of app]. f_equal. rewrite map_app, concat_app. cbn [map concat fst snd]. rewrite E, <- !app_assoc. reflexivity.
    + constructor; [|apply Forall_app; split; [|exact B]].
      * cbn [fst hdr_of hd_path]. destruct (path_below acc nm cs NE) as (r & R1 & R2). assert (PE : p = path_of acc ++ r ++ sfx) by (unfold p; rewrite R2, <- app_assoc; reflexivity). rewrite PE. split.
        -- destruct (has_prefix _ _) eqn:H; [|reflexivity]. apply has_prefix_iff in H. destruct H as (z & H). rewrite <- !app_assoc in H. rewrite <- (app_nil_r (path_of acc)) in H at 1. apply app_inv_head in H. destruct r; [congruence|discriminate H].
        -- unfold blt. rewrite <- (app_nil_r (path_of acc)) at 2. rewrite bcmp_app_common. destruct r; [congruence|reflexivity].
      * apply Forall_forall. intros it Hit. apply in_concat in Hit. destruct Hit as (l & Hl & Hit). apply in_map_iff in Hl. destruct Hl as (e1 & <- & He1).
        pose proof (SRT e1 He1) as LT. destruct (DIV e1 ltac:(apply in_app_iff; auto)) as (D1 & D2). { intros EQ. rewrite EQ, bcmp_refl in LT. discriminate. }
        destruct (OTHER e1 it D1 D2 Hit) as (O1 & O2). split; [exact O1|]. unfold blt. rewrite O2, bcmp_antisym, LT. reflexivity.
    + apply Forall_app. split; [exact Af|]. apply Forall_forall. intros it Hit. apply in_concat in Hit. destruct Hit as (l & Hl & Hit). apply in_map_iff in Hl. destruct Hl as (e1 & <- & He1).
      destruct (DIV e1 ltac:(apply in_app_iff; auto) (SRT2 e1 He1)) as (D1 & D2). apply (OTHER e1 it D1 D2 Hit).
Qed.

(** * What is shown of a subtree *)
Definition dirp (cs : list bytes) : bytes := match cs with [] => bs "/" | _ => path_of cs ++ bs "/" end.
Lemma join_two (cs : list bytes) (c y : bytes) (ys : list bytes) : join_byte ((c :: cs) ++ y :: ys) slash = join_byte (c :: cs) slash ++ slash :: join_byte (y :: ys) slash.
Proof.
  revert c. induction cs as [|d cs IH]; intros c; [reflexivity|].
  change (join_byte ((c :: d :: cs) ++ y :: ys) slash) with (c ++ slash :: join_byte ((d :: cs) ++ y :: ys) slash).
  change (join_byte (c :: d :: cs) slash) with (c ++ slash :: join_byte (d :: cs) slash). rewrite IH, <- app_assoc. reflexivity.
Qed.
Lemma dirp_below (cs : list bytes) (y : bytes) (ys : list bytes) : path_of (cs ++ y :: ys) = dirp cs ++ join_byte (y :: ys) slash.
Proof.
  destruct cs as [|c cs]; [reflexivity|]. unfold path_of. change "/"%byte with slash. rewrite join_two. unfold dirp, path_of. rewrite <- app_assoc. reflexivity.
Qed.
Lemma skip_app (p r : bytes) : skipn (length p) (p ++ r) = r.
Proof. induction p as [|x p IH]; [reflexivity|exact IH]. Qed.
Definition show (p : bytes) (rc : bool) (its : list (header * bytes)) : bytes := concat (map (fun it => if shown p rc (fst it) then headerLineString (fst it) else []) its).
Lemma show_nil p its : (forall it, In it its -> shown p false (fst it) = false) -> show p false its = [].
Proof. unfold show. induction its as [|it its IH]; intros H; [reflexivity|]. cbn [map concat]. rewrite (H it) by (left; reflexivity). apply IH. intros x Hx. apply H. right. exact Hx. Qed.
Lemma show_all p its : show p true its = concat (map (fun it => headerLineString (fst it)) its).
Proof. reflexivity. Qed.
Definition below (cs : list bytes) (t : node) : list (header * bytes) := match t with Dir es => concat (map (fun e => items (cs ++ [fst e]) (snd e)) es) | _ => [] end.
Lemma items_eq cs t : items cs t = (hdr_of cs t, content_of t) :: below cs t.
Proof. destruct t; reflexivity. Qed.
Lemma below_path cs t it : In it (below cs t) -> exists y ys, hd_path (fst it) = path_of (cs ++ y :: ys).
Proof.
  destruct t as [b c|tg|es]; cbn [below]; [intros []|intros []|]. intros H. apply in_concat in H. destruct H as (l & Hl & H). apply in_map_iff in Hl. destruct Hl as (x & <- & _). destruct it as [h c]. apply items_at in H. destruct H as (cs' & n & _ & -> & _). cbn [fst]. rewrite hdr_path, <- app_assoc. cbn [app]. eauto.
Qed.
Lemma join_has_slash y z zs : In slash (join_byte (y :: z :: zs) slash).
Proof. cbn [join_byte]. apply in_app_iff. right. left. reflexivity. Qed.
Lemma shown_slash p h r : hd_path h = p ++ r -> shown p false h = negb (contains_byte r slash).
Proof. intros E. unfold shown. rewrite E, skip_app. reflexivity. Qed.
Lemma show_entry X (cs : list bytes) (y : bytes) t : wf_tree X t -> ~ In slash y -> show (dirp cs) false (items (cs ++ [y]) t) = line_of (cs ++ [y]) t.
Proof.
  intros W N. rewrite items_eq. change (show (dirp cs) false ((hdr_of (cs ++ [y]) t, content_of t) :: below (cs ++ [y]) t)) with
    ((if shown (dirp cs) false (hdr_of (cs ++ [y]) t) then headerLineString (hdr_of (cs ++ [y]) t) else []) ++ show (dirp cs) false (below (cs ++ [y]) t)).
  rewrite (shown_slash _ _ y) by (rewrite hdr_path; apply (dirp_below cs y [])). apply contains_byte_false in N. rewrite N. cbn [negb]. rewrite (line_hdr X _ _ W), show_nil; [apply app_nil_r|].
  intros it Hit. apply below_path in Hit. destruct Hit as (z & zs & E). rewrite <- app_assoc in E. cbn [app] in E. rewrite dirp_below in E. rewrite (shown_slash _ _ _ E).
  replace (contains_byte _ slash) with true; [reflexivity|]. symmetry. apply contains_byte_iff. apply join_has_slash.
Qed.
Lemma show_below X (cs : list bytes) t : wf_tree X t -> show (dirp cs) false (below cs t) = entry_lines cs t.
Proof.
  intros W. destruct W as [x c L|tg T L|es F1 F2 F3]; [reflexivity..|]. cbn [below entry_lines]. clear F2. induction es as [|e es IH]; [reflexivity|]. inversion F1 as [|? ? A1 A2]; subst. inversion F3 as [|? ? B1 B2]; subst.
  cbn [map concat]. unfold show in *. rewrite map_app, concat_app, (IH A2 B2). f_equal. apply (show_entry X); [exact B1|]. apply A1.
Qed.
Lemma show_self X (cs : list bytes) t : cs <> [] -> wf_tree X t -> show (path_of cs) false (items cs t) = line_of cs t.
Proof.
  intros NE W. rewrite items_eq. change (show (path_of cs) false ((hdr_of cs t, content_of t) :: below cs t)) with
    ((if shown (path_of cs) false (hdr_of cs t) then headerLineString (hdr_of cs t) else []) ++ show (path_of cs) false (below cs t)).
  rewrite (shown_slash _ _ []) by (rewrite hdr_path, app_nil_r; reflexivity). cbn [contains_byte existsb negb]. rewrite (line_hdr X _ _ W), show_nil; [apply app_nil_r|].
  intros it Hit. apply below_path in Hit. destruct Hit as (z & zs & E). rewrite dirp_below in E. assert (D : dirp cs = path_of cs ++ bs "/") by (destruct cs; [congruence|reflexivity]). rewrite D, <- app_assoc in E. rewrite (shown_slash _ _ _ E). reflexivity.
Qed.
Lemma clear_wf X t cs n : clear_path t cs n -> wf_tree X t -> wf_tree X n.
Proof. induction 1 as [t|es nm t cs n Hin _ _ IH]; [auto|]. intros W. inversion W as [| |es' _ _ F3]; subst. rewrite Forall_forall in F3. exact (IH (F3 _ Hin)). Qed.
(** p = the path of the node *)
Lemma ls_node X t cs n rc : wf_tree X t -> clear_path t cs n -> ls_text (path_of cs) rc (items [] t) = show (path_of cs) rc (items cs n).
Proof.
  intros W C. destruct (split_items X t cs n C W [] []) as (b & a & E & B & A). cbn [app] in E, B, A. rewrite app_nil_r in B, A. rewrite E, (ls_skip _ _ b _ B), ls_some, (ls_none _ _ a A); [apply app_nil_r|].
  apply Forall_forall. intros [h c] Hit. apply items_at in Hit. destruct Hit as (cs' & n' & _ & -> & _). cbn [fst]. rewrite hdr_path. destruct cs' as [|y ys]; [rewrite app_nil_r; apply has_prefix_iff; exists []; symmetry; apply app_nil_r|].
  rewrite dirp_below. destruct cs as [|x cs]; [apply has_prefix_app|]. unfold dirp. rewrite <- app_assoc. apply has_prefix_app.
Qed.
(** p = the path of the node, and a slash *)
Lemma ls_inside X t cs n rc : wf_tree X t -> clear_path t cs n -> cs <> [] -> ls_text (path_of cs ++ bs "/") rc (items [] t) = show (dirp cs) rc (below cs n).
Proof.
  intros W C NE. assert (D : dirp cs = path_of cs ++ bs "/") by (destruct cs; [congruence|reflexivity]). destruct (split_items X t cs n C W [] (bs "/")) as (b & a & E & B & A). cbn [app] in E, B, A. rewrite <- D in *. rewrite E, (ls_skip _ _ b _ B), items_eq.
  change ((hdr_of cs n, content_of n) :: below cs n) with ([(hdr_of cs n, content_of n)] ++ below cs n). rewrite <- app_assoc, ls_skip, ls_some, (ls_none _ _ a A); [apply app_nil_r| |].
  - apply Forall_forall. intros it Hit. apply below_path in Hit. destruct Hit as (z & zs & ->). rewrite dirp_below. apply has_prefix_app.
  - constructor; [|constructor]. cbn [fst]. rewrite hdr_path, D. split.
    + destruct (has_prefix _ _) eqn:H; [|reflexivity]. apply has_prefix_iff in H. destruct H as (r & H). rewrite <- app_assoc in H. rewrite <- (app_nil_r (path_of cs)) in H at 1. apply app_inv_head in H. discriminate H.
    + unfold blt. rewrite <- (app_nil_r (path_of cs)) at 2. rewrite bcmp_app_common. reflexivity.
Qed.
Lemma lines_below X (cs : list bytes) t : wf_tree X t -> show (dirp cs) true (below cs t) = below_lines cs t.
Proof.
  intros W. rewrite show_all. pose proof (lines_items X t W cs) as H. rewrite items_eq in H. cbn [map concat fst] in H. rewrite (line_hdr X cs t W) in H. assert (L : lines cs t = line_of cs t ++ below_lines cs t) by (destruct t; reflexivity). rewrite L in H. apply app_inv_head in H. exact H.
Qed.

(** * Any path *)
Lemma items_nodes X t : wf_tree X t -> forall cs, items cs t = map (fun x => (hdr_of (fst x) (snd x), content_of (snd x))) (all_nodes cs t) /\ Forall (fun x => wf_tree X (snd x)) (all_nodes cs t).
Proof.
  induction t as [b c|tg|es IH] using node_ind2; intros W cs; cbn [items all_nodes map fst snd content_of]; [split; [reflexivity|constructor; [exact W|constructor]]..|].
  assert (G : concat (map (fun e => items (cs ++ [fst e]) (snd e)) es) = map (fun x => (hdr_of (fst x) (snd x), content_of (snd x))) (concat (map (fun e => all_nodes (cs ++ [fst e]) (snd e)) es)) /\
    Forall (fun x => wf_tree X (snd x)) (concat (map (fun e => all_nodes (cs ++ [fst e]) (snd e)) es))).
  { inversion W as [| |es' F1 F2 F3]; subst. clear F1 F2 W. induction F3 as [|e es H _ IHe]; [split; constructor|]. inversion IH as [|? ? I1 I2]; subst. destruct (I1 H (cs ++ [fst e])) as (A & B). destruct (IHe I2) as (A' & B'). cbn [map concat].
    rewrite A, A', map_app. split; [reflexivity|]. apply Forall_app. auto. }
  destruct G as (-> & G). split; [reflexivity|]. constructor; [exact W|exact G].
Qed.
Lemma shown_asked p rc cs t : has_prefix (path_of cs) p = true -> (shown p rc (hdr_of cs t) = true <-> asked p rc cs).
Proof.
  intros H. apply has_prefix_iff in H. destruct H as (r & H). unfold shown, asked. rewrite hdr_path, H, skip_app. split.
  - intros S. exists r. split; [reflexivity|]. apply orb_prop in S. destruct S as [S|S]; [left; exact S|right]. apply negb_true_iff in S. apply contains_byte_false in S. exact S.
  - intros (r' & E & S). apply app_inv_head in E. subst r'. destruct S as [->|S]; [reflexivity|]. apply contains_byte_false in S. change slash with "/"%byte in S. rewrite S. apply orb_true_r.
Qed.
Lemma ls_text_lists X p rc l : Forall (fun x : list bytes * node => wf_tree X (snd x)) l ->
  exists before after, l = before ++ after /\ ls_lists p rc before (ls_text p rc (map (fun x => (hdr_of (fst x) (snd x), content_of (snd x))) l)) /\
    Forall (fun x => ~ gives_up p (fst x)) before /\ match after with [] => True | x :: _ => gives_up p (fst x) end.
Proof.
  induction 1 as [|[cs t] l W _ (b & a & E & L & B & A)]; [exists [], []; repeat split; constructor|]. cbn [map fst snd ls_text] in *. rewrite hdr_path.
  destruct (has_prefix (path_of cs) p) eqn:H.
  - exists ((cs, t) :: b), a. rewrite E at 1. split; [reflexivity|]. split; [|split; [constructor; [|exact B]|exact A]].
    + destruct (shown p rc (hdr_of cs t)) eqn:S.
      * rewrite (line_hdr X cs t W). apply lists_line; [apply (shown_asked p rc cs t H); exact S|exact L].
      * cbn [app]. apply lists_skip; [|exact L]. intros K. apply (shown_asked p rc cs t H) in K. congruence.
    + cbn [fst]. intros (_ & K). apply K. apply has_prefix_iff in H. exact H.
  - assert (N : ~ starts_with (path_of cs) p) by (intros K; apply has_prefix_iff in K; congruence).
    destruct (blt p (path_of cs)) eqn:G.
    + exists [], ((cs, t) :: l). repeat split; try constructor; assumption.
    + exists ((cs, t) :: b), a. rewrite E at 1. split; [reflexivity|]. split; [|split; [constructor; [|exact B]|exact A]].
      * apply lists_skip; [|exact L]. intros (r & K & _). apply N. exists r. exact K.
      * cbn [fst]. intros (K & _). congruence.
Qed.
