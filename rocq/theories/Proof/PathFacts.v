(** path.Clean and path.Join on rooted paths. *)
From Verif Require Import Base.Bytes Base.BytesFacts Model.GoStd.

Definition csum (l : list bytes) : nat := fold_right (fun c n => S (length c + n)) 0 l.
Lemma csum_app a b : csum (a ++ b) = csum a + csum b.
Proof. induction a as [|x a IH]; cbn [app csum fold_right]; [reflexivity|]. fold (csum (a ++ b)). fold (csum a). rewrite IH. lia. Qed.
Lemma csum_rev l : csum (rev l) = csum l.
Proof. induction l as [|x l IH]; [reflexivity|]. cbn [rev]. rewrite csum_app, IH. cbn. fold (csum l). lia. Qed.
Lemma join_csum l c : l <> [] -> S (length (join_byte l c)) = csum l.
Proof.
  induction l as [|x l IH]; [congruence|]. intros _. destruct l as [|y l].
  - cbn. lia.
  - change (join_byte (x :: y :: l) c) with (x ++ c :: join_byte (y :: l) c).
    rewrite app_length. cbn [length]. rewrite IH by discriminate. reflexivity.
Qed.
Lemma clean_go_csum r l : forall acc, csum (clean_go r acc l) <= csum acc + csum l.
Proof.
  induction l as [|c l IH]; intros acc; cbn [clean_go].
  - rewrite csum_rev. cbn. lia.
  - change (csum (c :: l)) with (S (length c + csum l)).
    destruct (beq c [] || beq c dot); [specialize (IH acc); lia|].
    destruct (beq c dotdot).
    + destruct acc as [|x acc].
      * destruct r; [specialize (IH []); cbn in *; lia|]. specialize (IH [c]). cbn in *. lia.
      * change (csum (x :: acc)) with (S (length x + csum acc)).
        destruct (beq x dotdot); [|specialize (IH acc); lia].
        specialize (IH (c :: x :: acc)). change (csum (c :: x :: acc)) with (S (length c + S (length x + csum acc))) in IH. lia.
    + specialize (IH (c :: acc)). change (csum (c :: acc)) with (S (length c + csum acc)) in IH. lia.
Qed.
Lemma is_rooted_cons p : is_rooted (slash :: p) = true.
Proof. reflexivity. Qed.
Lemma clean_comps_rooted p : clean_comps (slash :: p) = clean_go true [] (split_byte p slash).
Proof. unfold clean_comps. rewrite is_rooted_cons. cbn [split_byte]. rewrite byte_eqb_refl. reflexivity. Qed.
Lemma Clean_rooted p : Clean (slash :: p) = slash :: join_byte (clean_go true [] (split_byte p slash)) slash.
Proof. unfold Clean. rewrite is_rooted_cons, clean_comps_rooted. reflexivity. Qed.
Lemma Clean_rooted_length p : length (Clean (slash :: p)) <= length (slash :: p).
Proof.
  rewrite Clean_rooted. cbn [length].
  pose proof (clean_go_csum true (split_byte p slash) []) as H. cbn [csum fold_right] in H.
  pose proof (join_csum (split_byte p slash) slash (split_byte_nonnil p slash)) as H1.
  rewrite split_join in H1.
  destruct (clean_go true [] (split_byte p slash)) as [|x l] eqn:E; [cbn; lia|].
  pose proof (join_csum (x :: l) slash ltac:(discriminate)) as H2. cbn in *. lia.
Qed.

(** Ordinary components stay. *)
Definition plain (c : bytes) : Prop := c <> [] /\ c <> dot /\ c <> dotdot.
Lemma clean_go_plain r l : forall acc, Forall plain l -> clean_go r acc l = rev acc ++ l.
Proof.
  induction l as [|c l IH]; intros acc H; cbn [clean_go]; [rewrite app_nil_r; reflexivity|].
  inversion H as [|? ? Hp Hl]; subst. destruct Hp as (P1 & P2 & P3).
  apply beq_neq in P1, P2, P3. rewrite P1, P2, P3. cbn [orb].
  rewrite IH by exact Hl. cbn [rev]. rewrite <- app_assoc. reflexivity.
Qed.
Lemma Clean_plain l : Forall plain l -> Forall (fun x => ~ In slash x) l ->
  Clean (slash :: join_byte l slash) = slash :: join_byte l slash.
Proof.
  intros H1 H2. rewrite Clean_rooted. destruct l as [|x l]; [reflexivity|].
  rewrite join_split by (auto; discriminate). rewrite clean_go_plain by exact H1. reflexivity.
Qed.
