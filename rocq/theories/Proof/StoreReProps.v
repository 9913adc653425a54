(** Proofs about the patterns (C99). *)
From Verif Require Import Base.Bytes Base.BytesFacts Model.GoStd Model.Nixbase32 Model.Storepath Model.StoreRe Spec.StorePathSpec Proof.StorePathProps.
Ltac Zify.zify_post_hook ::= idtac.

Lemma class_star l pre m post g : rmatch (RStar (RClass l)) pre m post g -> Forall (fun c => In c l) m /\ g = [].
Proof.
  intros H. remember (RStar (RClass l)) as r eqn:E. induction H; try discriminate E.
  - split; [constructor|reflexivity].
  - assert (a = RClass l) by congruence. subst a. destruct (IHrmatch2 eq_refl) as (F & ->). inversion H; subst. split; [constructor; assumption|reflexivity].
Qed.
Lemma star_class l m : Forall (fun c => In c l) m -> forall pre post, rmatch (RStar (RClass l)) pre m post [].
Proof. induction 1 as [|c m C _ IH]; intros pre post; [constructor|]. apply (m_star (RClass l) pre [c] m post [] []); [constructor; exact C|apply IH]. Qed.
Lemma class_rep n l : forall pre m post g, rmatch (RRep n (RClass l)) pre m post g -> length m = n /\ Forall (fun c => In c l) m /\ g = [].
Proof.
  induction n as [|n IH]; intros pre m post g H; inversion H; subst; [repeat split; constructor|].
  match goal with K : rmatch (RClass _) _ _ _ _ |- _ => inversion K; subst end.
  match goal with K : rmatch (RRep _ _) _ _ _ _ |- _ => destruct (IH _ _ _ _ K) as (L & F & ->) end.
  split; [cbn [app length]; congruence|]. split; [constructor; assumption|reflexivity].
Qed.
Lemma rep_class n l m : length m = n -> Forall (fun c => In c l) m -> forall pre post, rmatch (RRep n (RClass l)) pre m post [].
Proof.
  revert m. induction n as [|n IH]; intros m L F pre post; (destruct m as [|c m]; try discriminate L); [constructor|]. inversion F as [|? ? C F']; subst.
  apply (m_rep n (RClass l) pre [c] m post [] []); [constructor; exact C|]. apply IH; [cbn [length] in L; lia|exact F'].
Qed.
Lemma name_match pre m post g : rmatch NameRe pre m post g <-> (exists c n, m = c :: n /\ In c re_first /\ Forall (fun x => In x ("."%byte :: re_first)) n) /\ g = [].
Proof.
  split.
  - intros H. inversion H; subst. match goal with K : rmatch (RClass _) _ _ _ _ |- _ => inversion K; subst end.
    match goal with K : rmatch (RStar _) _ _ _ _ |- _ => destruct (class_star _ _ _ _ _ K) as (F & ->) end. split; [|reflexivity]. cbn [app]. eauto.
  - intros ((c & n & -> & C & F) & ->). apply (m_seq _ _ pre [c] n post [] []); [constructor; exact C|apply star_class; exact F].
Qed.
Lemma first_alphabet c : In c re_first <-> In c name_alphabet /\ c <> "."%byte.
Proof.
  rewrite <- !contains_byte_iff. unfold contains_byte. split.
  - intros H. assert (A : forallb (fun x => existsb (byte_eqb x) name_alphabet && negb (byte_eqb x "."%byte)) re_first = true) by (vm_compute; reflexivity).
    rewrite forallb_forall in A. specialize (A c). apply contains_byte_iff in H. specialize (A H). apply andb_prop in A. destruct A as (A & B). split.
    + apply contains_byte_iff. apply existsb_exists in A. destruct A as (y & Y & E). apply byte_eqb_eq in E. subst y. exact Y.
    + apply negb_true_iff in B. apply byte_eqb_neq in B. exact B.
  - intros (H & N). assert (A : forallb (fun x => byte_eqb x "."%byte || existsb (byte_eqb x) re_first) name_alphabet = true) by (vm_compute; reflexivity).
    rewrite forallb_forall in A. apply contains_byte_iff in H. specialize (A c H). apply orb_prop in A. destruct A as [A|A]; [apply byte_eqb_eq in A; contradiction|].
    apply existsb_exists in A. destruct A as (y & Y & E). apply byte_eqb_eq in E. subst y. apply contains_byte_iff. exact Y.
Qed.
Lemma rest_alphabet c : In c ("."%byte :: re_first) <-> In c name_alphabet.
Proof.
  split.
  - intros [<-|H]; [vm_compute; tauto|]. apply first_alphabet in H. apply H.
  - intros H. destruct (byte_dec c "."%byte) as [->|N]; [left; reflexivity|right]. apply first_alphabet. auto.
Qed.
Lemma name_valid c n : In c re_first /\ Forall (fun x => In x ("."%byte :: re_first)) n <-> valid_name (c :: n) /\ c <> "."%byte.
Proof.
  unfold valid_name. split.
  - intros (C & F). apply first_alphabet in C. destruct C as (C & N). split; [|exact N]. split; [discriminate|]. constructor; [exact C|]. eapply Forall_impl; [|exact F]. intros x X. apply rest_alphabet. exact X.
  - intros ((_ & F) & N). inversion F as [|? ? C F']; subst. split; [apply first_alphabet; auto|]. eapply Forall_impl; [|exact F']. intros x X. apply rest_alphabet. exact X.
Qed.
Ltac inv_m := match goal with
  | H : rmatch (RSeq _ _) _ _ _ _ |- _ => inversion H; subst; clear H
  | H : rmatch (RStr _) _ _ _ _ |- _ => inversion H; subst; clear H
  | H : rmatch RBegin _ _ _ _ |- _ => inversion H; subst; clear H
  | H : rmatch REnd _ _ _ _ |- _ => inversion H; subst; clear H
  | H : rmatch (RGroup _ _) _ _ _ _ |- _ => inversion H; subst; clear H
  end.
Lemma path_groups s g : Submatches PathRe s g <->
  exists h n, s = bs "/nix/store/" ++ h ++ bs "-" ++ n /\ hash_part h /\ valid_name n /\ hd x00 n <> "."%byte /\ g = [(1, h); (2, n)].
Proof.
  split.
  - intros (pre & m & post & -> & H). unfold PathRe in H. 
    inversion H as [| |a1 b1 p1 z1 m2 q1 y1 g2 H1 H2| | | | | | |]; subst; clear H. inversion H1; subst; clear H1.
    inversion H2 as [| |a2 b2 p2 z2 m3 q2 y2 g3 H1 H3| | | | | | |]; subst; clear H2. inversion H1; subst; clear H1.
    inversion H3 as [| |a3 b3 p3 z3 m4 q3 y3 g4 H1 H4| | | | | | |]; subst; clear H3. inversion H1; subst; clear H1.
    inversion H4 as [| |a4 b4 p4 z4 m5 q4 y4 g5 H1 H5| | | | | | |]; subst; clear H4. inversion H1 as [| | | | | | |i4 aa4 pp4 h qq4 g HH| |]; subst; clear H1.
    inversion H5 as [| |a5 b5 p5 z5 m6 q5 y5 g6 H1 H6| | | | | | |]; subst; clear H5. inversion H1; subst; clear H1.
    inversion H6 as [| |a6 b6 p6 z6 m7 q6 y6 g7 H1 H7| | | | | | |]; subst; clear H6. inversion H1 as [| | | | | | |i6 aa6 pp6 n qq6 g' HN| |]; subst; clear H1.
    inversion H7; subst; clear H7.
    apply class_rep in HH. destruct HH as (L & F & ->). apply name_match in HN. destruct HN as ((c & n' & -> & N) & ->). apply name_valid in N. destruct N as (V & D).
    exists z4, (c :: n'). split; [rewrite !app_nil_r; reflexivity|]. split; [split; [exact L|exact F]|]. split; [exact V|]. split; [exact D|reflexivity].
  - intros (h & n & -> & (L & F) & V & D & ->). exists [], (bs "/nix/store/" ++ h ++ bs "-" ++ n), []. split; [rewrite app_nil_r; reflexivity|].
    destruct n as [|c n]; [destruct V as (V & _); congruence|]. destruct (proj2 (name_valid c n) (conj V D)) as (C1 & C2).
    apply (m_seq RBegin _ [] [] (bs "/nix/store/" ++ h ++ bs "-" ++ c :: n) [] []); [constructor|].
    apply (m_seq _ _ [] StoreDir (bs "/" ++ h ++ bs "-" ++ c :: n) [] []); [constructor|].
    apply (m_seq _ _ _ (bs "/") (h ++ bs "-" ++ c :: n) [] []); [constructor|].
    apply (m_seq _ _ _ h (bs "-" ++ c :: n) [] [(1, h)]); [apply (m_group 1 _ _ h _ []); apply rep_class; [exact L|exact F]|].
    apply (m_seq _ _ _ (bs "-") (c :: n) [] [] [(2, c :: n)]); [constructor|].
    change [(2, c :: n)] with ([(2, c :: n)] ++ []). rewrite <- (app_nil_r (c :: n)) at 1. apply m_seq; [|constructor].
    apply (m_group 2 _ _ (c :: n) _ []). apply name_match. split; [exists c, n; auto|reflexivity].
Qed.
Lemma name_found s : MatchString NameRe s <-> exists c, In c s /\ In c name_alphabet /\ c <> "."%byte.
Proof.
  split.
  - intros (pre & m & post & g & -> & H). apply name_match in H. destruct H as ((c & n & -> & C & _) & _). apply first_alphabet in C. exists c. split; [|exact C]. apply in_app_iff. right. left. reflexivity.
  - intros (c & H & C). apply first_alphabet in C. apply in_split in H. destruct H as (a & b & ->). exists a, [c], b, []. split; [reflexivity|]. apply name_match. split; [exists c, []; auto|reflexivity].
Qed.
