(** C90: exactly which derivations JSON does not tell apart. *)
From Coq Require Import Permutation.
From Verif Require Import Base.Bytes Base.BytesFacts Model.GoIO Model.GoStd Model.Derivation Model.Cmd Model.Json Spec.DerivationSpec Spec.JsonSpec Spec.JsonAlikeSpec
  Proof.JsonUtf8 Proof.JsonStr Proof.JsonVal Proof.JsonEnc Proof.JsonDrv Proof.DrvEncode Proof.DrvRound Proof.DrvHash Proof.DrvText Proof.DrvValidate Proof.CmdProps Proof.JsonAlike Props.DerivationP Props.JsonP.
Ltac Zify.zify_post_hook ::= idtac.

Lemma prints_value short d t : wf_maps d -> prints short full d t -> exists v, jrepaired (drv_json full d) v /\ jtext false v t /\ (N.of_nat (nesting v) <= 10000)%N.
Proof.
  intros W (get & p & format & pretty & w & w' & F & G & H & S & O). destruct (show_json short full get p format pretty d w F G W) as (u & e & w1 & S1 & WR & T). destruct W as (N1 & N2 & N3). pose proof (drv_ok full d N1 N2 N3) as J.
  destruct (written short _ (drv_nums _ _ J)) as (v & R & V1 & V2). exists v. split; [exact R|]. split.
  - exists [], u, [x0a]. split; [constructor|]. split; [rewrite T; destruct pretty; [apply V2|exact V1]|]. split; [constructor; [cbn [In]; auto|constructor]|].
    destruct (wwrite_cases (u ++ [x0a]) w) as (e1 & w2 & WR1 & _ & [(-> & O1)|(_ & (k & K) & _)]); [|rewrite Forall_forall in H; discriminate (H _ K)].
    assert (w' = w2) by congruence. subst w'. rewrite O in O1. apply app_inv_head in O1. exact O1.
  - rewrite (jrepaired_nest _ _ R). pose proof (drv_nest _ _ J). lia.
Qed.
(** What JSON prints for two derivations, with no field nil, in whichever format and
    by whichever release of Go, has the same value exactly if they are equal in every
    field, the lists and the maps in key order, but for bytes that start no character
    (and for characters U+FFFD). *)
Theorem C90_exact : forall short short' d d' t t', wf_maps d -> wf_maps d' -> prints short full d t -> prints short' full d' t' ->
  (exists lax lax' v, jtext lax v t /\ jtext lax' v t' /\ (N.of_nat (nesting v) <= 10000)%N) <-> alike_fields d d'.
Proof.
  intros short short' d d' t t' W W' P P'. destruct (prints_value _ _ _ W P) as (v & R & J & N). destruct (prints_value _ _ _ W' P') as (v' & R' & J' & N'). rewrite <- (jalike_drv d d' W W'). split.
  - intros (lax & lax' & x & X & X' & NX). exists x. split.
    + rewrite (jtext_fun lax false x v t X J NX N). exact R.
    + rewrite (jtext_fun lax' false x v' t' X' J' NX N'). exact R'.
  - intros (c & C & C'). exists false, false, v. split; [exact J|]. split; [|exact N]. rewrite (jrepaired_fun _ _ _ R C). rewrite <- (jrepaired_fun _ _ _ R' C'). exact J'.
Qed.
Print Assumptions C90_exact.
(** Strings that are alike are equal if they are UTF-8. *)
Theorem C90_alike : forall s s', (is_utf8 s -> is_utf8 s' -> alike s s' <-> s = s') /\ (alike s [] <-> s = []) /\ alike s s /\ (alike s s' -> alike s' s) /\
  forall x, alike s s' -> alike s' x -> alike s x.
Proof.
  intros s s'. split; [|split; [|split; [apply alike_refl|split; [apply alike_sym|]]]].
  - intros U U'. split; [apply alike_utf8; assumption|intros ->; apply alike_refl].
  - split; [intros A; apply alike_sym, alike_nil in A; exact A|intros ->; apply alike_refl].
  - intros x (t & A & B) (u & B' & C). rewrite (repaired_fun _ _ _ B' B) in C. exists t. auto.
Qed.
Print Assumptions C90_alike.
Example C90_exact_nonvacuous : wf_maps (latin1 xe8) /\ wf_maps (latin1 xe9) /\ alike_fields (latin1 xe8) (latin1 xe9) /\ latin1 xe8 <> latin1 xe9 /\
  prints false full (latin1 xe8) (compact false (drv_json full (latin1 xe8)) ++ [x0a]) /\ prints true full (latin1 xe9) (laid_out (enc_string true) 0 (drv_json full (latin1 xe9)) ++ [x0a]) /\
  ~ alike_fields (latin1 x41) (latin1 x42).
Proof.
  assert (W : forall c, wf_maps (latin1 c)) by (intros c; repeat split; apply nodup_dec; vm_compute; reflexivity).
  assert (P : forall c, prints false full (latin1 c) (compact false (drv_json full (latin1 c)) ++ [x0a])).
  { intros c. exists (fun _ => Ok (latin1 c)), [], (bs "json"), false, good_sink. eexists. split; [left; auto|]. split; [reflexivity|]. split; [constructor|]. split; reflexivity. }
  split; [apply W|]. split; [apply W|]. split; [|split; [|split; [|split]]].
  - apply (C90_exact false false _ _ _ _ (W xe8) (W xe9) (P xe8) (P xe9)). destruct (prints_value _ _ _ (W xe8) (P xe8)) as (v & _ & J & N). exists false, false, v. split; [exact J|]. split; [|exact N].
    replace (compact false (drv_json full (latin1 xe9))) with (compact false (drv_json full (latin1 xe8))) by (vm_compute; reflexivity). exact J.
  - intros E. apply (f_equal d_env) in E. vm_compute in E. discriminate E.
  - apply P.
  - exists (fun _ => Ok (latin1 xe9)), [], (bs "json-pretty"), true, good_sink. eexists. split; [right; auto|]. split; [reflexivity|]. split; [constructor|]. split; vm_compute; reflexivity.
  - intros (_ & _ & _ & _ & _ & _ & E). assert (O : forall c, in_order (d_env (latin1 c)) (d_env (latin1 c))).
    { intros c. split; [reflexivity|]. cbn. repeat constructor. }
    apply (alike_map_in _ _ _ _ _ (O x41) (O x42)) in E. inversion E as [|? ? ? ? _ E1]; subst. inversion E1 as [|? ? ? ? (_ & A) _]; subst. cbn [snd] in A. apply alike_utf8 in A; [discriminate A|apply utf8_literal; reflexivity..].
Qed.
