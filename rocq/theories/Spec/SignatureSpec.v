(** Vocabulary for C45-C48. *)
From Verif Require Import Base.Bytes Model.GoStd Model.Signature.

(** Key names: non-empty, without the separator. *)
Definition key_name (n : bytes) : Prop := n <> [] /\ ~ In ":"%byte n.

(** What is assumed of ed25519: key and signature sizes, and that a signature
    made with a seed's key verifies under the seed's public key. *)
Definition ed25519_correct (ed_pub : bytes -> bytes) (ed_sign : bytes -> bytes -> bytes)
    (ed_verify : bytes -> bytes -> bytes -> bool) : Prop :=
  (forall seed, length seed = 32 -> length (ed_pub seed) = 32) /\
  (forall key msg, length (ed_sign key msg) = 64) /\
  (forall seed msg, length seed = 32 ->
     ed_verify (ed_pub seed) msg (ed_sign (seed ++ ed_pub seed) msg) = true).

(** [sig] verifies the message under [key] and bears its name. *)
Definition genuine (ed_verify : bytes -> bytes -> bytes -> bool) (msg : bytes) (s : signature) (k : pubkey) : Prop :=
  sig_name s = pk_name k /\ length (sig_data s) = 64 /\ length (pk_data k) = 32 /\
  ed_verify (pk_data k) msg (sig_data s) = true.
