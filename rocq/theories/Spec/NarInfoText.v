(** A .narinfo text and its value without reference to any parser (C42, C45):
    [reads] of Spec/NarInfoSpec.v with the hashes, numbers and signatures spelt
    out. *)
From Verif Require Import Base.Bytes Model.Nixhash Model.Signature Model.NarInfo Spec.HashTextSpec Spec.SignatureSpec Spec.NarInfoSpec Spec.JsonSpec.

(** "<name>:<base64>" for [size] bytes: signatures and keys. *)
Definition key_text (size : nat) (s name data : bytes) : Prop :=
  key_name name /\ length data = size /\ exists t, s = name ++ ":"%byte :: t /\ b64_text t data.
(** A number in decimal digits that fits in 64 bits. *)
Definition size_text (v : bytes) (x : N) : Prop := decimal v x /\ (x < 2 ^ 64)%N.

Definition narinfo_text (text : bytes) (n : narinfo) : Prop :=
  exists kvs,
    Forall2 (fun l kv => key_value l (fst kv) (snd kv)) (text_lines text) kvs /\
    Forall (fun kv => In (fst kv) known_keys) kvs /\
    ni_StorePath n = last (values "StorePath" kvs) [] /\
    ni_URL n = last (values "URL" kvs) [] /\
    ni_Compression n = match last (values "Compression" kvs) [] with [] => bs "bzip2" | c => c end /\
    (exists hs, Forall2 (fun v h => hash_says v None h) (values "FileHash" kvs) hs /\ ni_FileHash n = last (map Some hs) None) /\
    (exists xs, Forall2 size_text (values "FileSize" kvs) xs /\ ni_FileSize n = last xs 0%N) /\
    (exists hs, Forall2 (fun v h => hash_says v None h) (values "NarHash" kvs) hs /\ ni_NarHash n = last (map Some hs) None) /\
    (exists xs, Forall2 size_text (values "NarSize" kvs) xs /\ ni_NarSize n = last xs 0%N) /\
    ni_References n = concat (map (fun v => match v with [] => [] | _ => split_byte v " "%byte end) (values "References" kvs)) /\
    ni_Deriver n = last (filter (fun v => negb (beq v (bs "unknown-deriver"))) (values "Deriver" kvs)) [] /\
    ni_System n = last (values "System" kvs) [] /\
    Forall2 (fun v s => key_text 64 v (sig_name s) (sig_data s)) (values "Sig" kvs) (ni_Signatures n) /\
    ni_CA n = last (values "CA" kvs) [].
