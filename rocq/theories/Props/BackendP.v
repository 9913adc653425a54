(** C65, C71: where the file and HTTP stores look, and what they report. *)
From Verif Require Import Base.Bytes Base.BytesFacts Model.GoIO Model.GoStd Model.Storepath Model.Derivation Model.DrvParser Model.StoreBackends
  Spec.StorePathSpec Spec.DerivationSpec Spec.BackendSpec Proof.PathFacts Proof.StorePathProps Proof.BackendProps Props.DerivationP.
Ltac Zify.zify_post_hook ::= idtac.

(** * C65: the path looked at is a direct child of the directory *)
Theorem C65_fs_child_partial : forall dir p b, dir <> [] -> last_component p b -> b <> bs "." -> b <> bs ".." ->
  getFilepath dir p = child (Clean dir) b /\ getURL_path dir p = child (Clean dir) b.
Proof.
  intros dir p b D L B1 B2. pose proof L as (pre & n & _ & _ & B3 & B4). unfold getFilepath, getURL_path. rewrite (Base_last p b L).
  rewrite (Join_child dir b D); [auto|]. repeat split; assumption.
Qed.
Print Assumptions C65_fs_child_partial.
(** In particular for every derivation path: the entry is what follows "/nix/store/". *)
Theorem C65_store_path_partial : forall dir p, dir <> [] -> wf_store_path p -> exists b, p = bs "/nix/store/" ++ b /\ entry_name b /\
  getFilepath dir p = child (Clean dir) b /\ getURL_path dir p = child (Clean dir) b.
Proof.
  intros dir p D W. destruct (store_path_last p W) as (b & E & EN & L). exists b. split; [exact E|]. split; [exact EN|]. destruct EN as (_ & B1 & B2 & _). exact (C65_fs_child_partial dir p b D L B1 B2).
Qed.
Print Assumptions C65_store_path_partial.
(** With an empty directory the store uses /nix/store. *)
Theorem C65_default_dir : NewFSStore [] = bs "/nix/store" /\ forall dir, dir <> [] -> NewFSStore dir = dir.
Proof. split; [reflexivity|]. intros [|x dir] H; [congruence|reflexivity]. Qed.
Print Assumptions C65_default_dir.
Example C65_nonvacuous : wf_store_path (bs "/nix/store/00000000000000000000000000000000-a.drv") /\
  getFilepath (bs "/srv//drvs/") (bs "/nix/store/00000000000000000000000000000000-a.drv") = bs "/srv/drvs/00000000000000000000000000000000-a.drv" /\
  last_component (bs "../../etc/passwd") (bs "passwd") /\ getFilepath (bs "/srv") (bs "../../etc/passwd") = bs "/srv/passwd".
Proof.
  split; [|split; [vm_compute; reflexivity|split; [|vm_compute; reflexivity]]].
  - exists (repeat "0"%byte 32), (bs "a.drv"). split; [reflexivity|]. split; [split; [reflexivity|]|split; [discriminate|]].
    + apply Forall_forall. intros c Hc. apply repeat_spec in Hc. subst c. left. reflexivity.
    + repeat (constructor; [vm_compute; tauto|]). constructor.
  - exists (bs "../../etc/"), 0. split; [reflexivity|]. split; [right; exists (bs "../../etc"); reflexivity|]. split; [discriminate|]. vm_compute. intros X. repeat (destruct X as [X|X]; [discriminate X|]). destruct X.
Qed.
(** Not for every argument: ".." names the parent of the directory, "" and "/" the directory itself. *)
Theorem C65_escape_refuted : getFilepath (bs "/nix/store") (bs "..") = bs "/nix" /\ getFilepath (bs "/nix/store") (bs "x/..") = bs "/nix" /\
  getFilepath (bs "/nix/store") [] = bs "/nix/store" /\ getFilepath (bs "/nix/store") (bs "/") = bs "/nix/store".
Proof. repeat split; vm_compute; reflexivity. Qed.
Print Assumptions C65_escape_refuted.

(** * C65: what Has and Get report *)
Theorem C65_fs_has : forall o dir p,
  (fs_Has o dir p = Ok true <-> os_lstat o (getFilepath dir p) = LKind KRegular) /\
  (fs_Has o dir p = Ok false <-> os_lstat o (getFilepath dir p) = LNotExist) /\
  is_panic (fs_Has o dir p) = false.
Proof.
  intros o dir p. unfold fs_Has. destruct (os_lstat o (getFilepath dir p)) as [|e|[| | |]]; cbn; split; [|split| |split| |split| |split| |split| |split]; try reflexivity;
    split; intros H; try discriminate H; try reflexivity; congruence.
Qed.
Print Assumptions C65_fs_has.
(** Get returns exactly the derivation written in the file, or an error. *)
Theorem C65_fs_get : forall json o dir p d,
  fs_Get json o dir p = Ok d <-> exists f, os_open o (getFilepath dir p) = Ok f /\ ReadDerivation json f = Ok d.
Proof.
  intros json o dir p d. unfold fs_Get, rbind. destruct (os_open o (getFilepath dir p)) as [f|e|w].
  - destruct (ReadDerivation json f) as [x|e|w] eqn:R; split; intros H.
    + exists f. rewrite R. auto.
    + destruct H as (f' & E & H). injection E as <-. rewrite R in H. exact H.
    + discriminate H.
    + destruct H as (f' & E & H). injection E as <-. rewrite R in H. discriminate H.
    + discriminate H.
    + destruct H as (f' & E & H). injection E as <-. rewrite R in H. discriminate H.
  - split; intros H; [discriminate H|]. destruct H as (f' & E & H). discriminate E.
  - split; intros H; [discriminate H|]. destruct H as (f' & E & H). discriminate E.
Qed.
Print Assumptions C65_fs_get.
(** HTTP: 404 is absent, 2xx is present, everything else is an error. *)
Theorem C65_http_has : forall ask base p, (forall u, is_panic (ask u) = false) ->
  match ask (getURL_path base p) with
  | Ok r => (http_Has ask base p = Ok true <-> (200 <= r_status r < 300)%N) /\ (http_Has ask base p = Ok false <-> r_status r = 404%N) /\ is_panic (http_Has ask base p) = false
  | _ => is_err (http_Has ask base p) = true
  end.
Proof.
  intros ask base p N. specialize (N (getURL_path base p)). unfold http_Has. destruct (ask (getURL_path base p)) as [r|e|w]; [|reflexivity|discriminate N].
  destruct (N.eqb_spec (r_status r) 404) as [E|E].
  - rewrite E. split; [|split; [|reflexivity]]; split; intros H; try discriminate H; try reflexivity. lia.
  - destruct (N.leb_spec 200 (r_status r)); destruct (N.ltb_spec (r_status r) 300); cbn [andb]; (split; [|split; [|reflexivity]]); split; intros X; try discriminate X; try reflexivity; try lia; contradiction.
Qed.
Print Assumptions C65_http_has.
Theorem C65_http_get : forall json ask base p d,
  http_Get json ask base p = Ok d <-> exists r, ask (getURL_path base p) = Ok r /\ (200 <= r_status r < 300)%N /\ ReadDerivation json (r_body r) = Ok d.
Proof.
  intros json ask base p d. unfold http_Get. destruct (ask (getURL_path base p)) as [r|e|w]; [|split; [discriminate|intros (r & E & _); discriminate E]..].
  assert (RD : forall b, ReadAll (r_body r) = Ok b -> ReadDerivation json (Src [b] EEOF false) = ReadDerivation json (r_body r)).
  { intros b Hb. unfold ReadDerivation. rewrite Hb. unfold ReadAll at 1. cbn [fin src_data chunks]. unfold src_data. cbn [chunks concat]. rewrite app_nil_r. reflexivity. }
  assert (RP : forall w, ReadAll (r_body r) <> Panic w) by (intros w; unfold ReadAll; destruct (fin (r_body r)); discriminate).
  destruct (N.ltb_spec (r_status r) 200); destruct (N.leb_spec 300 (r_status r)); cbn [orb]; try (split; [discriminate|]; intros (r' & E & B & _); injection E as <-; lia).
  destruct (ReadAll (r_body r)) as [b|e|w] eqn:RA.
  - specialize (RD b eq_refl). rewrite RD. destruct (ReadDerivation json (r_body r)) as [x|e|w] eqn:R; split; intros X; try discriminate X.
    + exists r. rewrite R. split; [reflexivity|]. split; [lia|exact X].
    + destruct X as (r' & E & _ & X). injection E as <-. rewrite R in X. exact X.
    + destruct X as (r' & E & _ & X). injection E as <-. rewrite R in X. discriminate X.
    + destruct X as (r' & E & _ & X). injection E as <-. rewrite R in X. discriminate X.
  - split; [discriminate|]. intros (r' & E & _ & X). injection E as <-. unfold ReadDerivation in X. rewrite RA in X. discriminate X.
  - exfalso. exact (RP w eq_refl).
Qed.
Print Assumptions C65_http_get.
(** The file store's Has and Get disagree on symlinks: Has is an error (Lstat), Get follows the link. *)
Theorem C65_symlink_refuted : exists (o : os) dir p d, is_err (fs_Has o dir p) = true /\ forall json, fs_Get json o dir p = Ok d.
Proof.
  exists (Os (fun _ => LKind KSymlink) (fun _ => Ok (src1 (text_of sample)))), (bs "/nix/store"), (bs "/nix/store/00000000000000000000000000000000-a.drv"), sample_sorted.
  split; [reflexivity|]. intros json. unfold fs_Get. cbn [os_open rbind]. replace (ReadDerivation json (src1 (text_of sample))) with (@Ok drv sample_sorted); [reflexivity|]. symmetry. vm_compute. reflexivity.
Qed.
Print Assumptions C65_symlink_refuted.
(** The two read-only stores refuse every derivation: Put never returns a path that Get would not know. *)
Theorem C65_put_refused : forall dir d, (forall p, fs_Put dir d <> Ok p) /\ (forall p, http_Put d <> Ok p) /\
  is_err (fs_Put dir d) = true /\ is_err (http_Put d) = true.
Proof. intros dir d. repeat split; discriminate. Qed.
Print Assumptions C65_put_refused.

(** * C71: NewFromURI *)
Theorem C71_documented_partial : forall u k, u_scheme u <> bs "badger" -> NewFromURI u = Ok k <-> documented u k.
Proof.
  intros u k NB. split.
  - unfold NewFromURI, NewFSStore. destruct (beq_spec (u_scheme u) []) as [S|S0].
    { intros E. destruct (u_path u) as [|x p] eqn:P; injection E as <-; [apply doc_default; auto|rewrite <- P; apply doc_none; [exact S|congruence]]. }
    destruct (beq_spec (u_scheme u) (bs "badger")) as [S|_]; [contradiction|]. destruct (beq_spec (u_scheme u) (bs "file")) as [S|S1].
    { intros E. destruct (u_path u) as [|x p] eqn:P; injection E as <-; [apply doc_default; auto|rewrite <- P; apply doc_file; [exact S|congruence]]. }
    destruct (beq_spec (u_scheme u) (bs "http")) as [S|S2]; [intros E; injection E as <-; apply doc_http; auto|].
    destruct (beq_spec (u_scheme u) (bs "https")) as [S|S3]; [intros E; injection E as <-; apply doc_http; auto|discriminate].
  - intros D. destruct D as [u S P|u S P|u S P|u S|u S P]; unfold NewFromURI, NewFSStore.
    + rewrite S. destruct (u_path u); [congruence|reflexivity].
    + rewrite S. destruct (u_path u); [congruence|reflexivity].
    + destruct S as [S|S]; rewrite S, P; reflexivity.
    + destruct S as [S|S]; rewrite S; reflexivity.
    + contradiction.
Qed.
Print Assumptions C71_documented_partial.
Example C71_nonvacuous : NewFromURI (Url [] []) = Ok (SFS (bs "/nix/store")) /\ NewFromURI (Url (bs "file") (bs "/srv")) = Ok (SFS (bs "/srv")) /\
  documented (Url (bs "https") []) (SHTTP (Url (bs "https") [])) /\ is_err (NewFromURI (Url (bs "ftp") [])) = true.
Proof. repeat split; try reflexivity. apply doc_http. right. reflexivity. Qed.
(** badger:///path opens the database at "" (badger's in-memory mode is off), whatever the path. *)
Theorem C71_badger_refuted : exists u k, documented u k /\ u_scheme u = bs "badger" /\ NewFromURI u <> Ok k /\
  forall u', u_scheme u' = bs "badger" -> NewFromURI u' = Ok (SBadger []).
Proof.
  exists (Url (bs "badger") (bs "/path")), (SBadger (bs "/path")). split; [apply doc_badger; [reflexivity|discriminate]|]. split; [reflexivity|]. split; [discriminate|].
  intros u' E. unfold NewFromURI. rewrite E. reflexivity.
Qed.
Print Assumptions C71_badger_refuted.
