(** Model of /repo/pkg/narinfo/signature.  crypto/ed25519 is a parameter:
    [ed_pub seed] is the public key of a seed, [ed_sign] and [ed_verify] the raw
    operations on keys of the right size. *)
From Verif Require Import Base.Bytes Model.GoStd.

(** public_key.go:30-37 (crypto/ed25519). *)
Definition PublicKeySize : nat := 32.
(** secret_key.go:35-42 (crypto/ed25519). *)
Definition PrivateKeySize : nat := 64.
(** signature.go:21-28 (crypto/ed25519). *)
Definition SignatureSize : nat := 64.
(** secret_key.go:14-21 (crypto/ed25519). *)
Definition SeedSize : nat := 32.

(** util.go:13-43 decode. *)
Definition decode (s : bytes) (dataSize : nat) : res (bytes * bytes) :=
  match split2 s ":"%byte with
  | (_, None) => Err (EMsg "invalid number of fields")
  | (name, Some dataStr) =>
      match name, dataStr with
      | [], _ => Err (EMsg "name is missing")
      | _, [] => Err (EMsg "data is missing")
      | _, _ =>
          let* data := b64_decode dataStr in
          if negb (Nat.eqb (length data) dataSize) then Err (EMsg "data is not the right size")
          else Ok (name, data)
      end
  end.
(** util.go:47-49 encode. *)
Definition encode (name data : bytes) : bytes := name ++ bs ":" ++ b64_encode data.

(** signature.go:9-12, public_key.go:9-12, secret_key.go:24-27. *)
Record signature := Sig { sig_name : bytes; sig_data : bytes }.
(** public_key.go:9-12. *)
Record pubkey := PK { pk_name : bytes; pk_data : bytes }.
(** secret_key.go:24-27. *)
Record seckey := SK { sk_name : bytes; sk_data : bytes }.

(** signature.go:15-17, public_key.go:15-17, secret_key.go:30-32 String. *)
Definition sig_String (s : signature) : bytes := encode (sig_name s) (sig_data s).
(** public_key.go:15-17. *)
Definition pk_String (k : pubkey) : bytes := encode (pk_name k) (pk_data k).
(** secret_key.go:30-32. *)
Definition sk_String (k : seckey) : bytes := encode (sk_name k) (sk_data k).

(** signature.go:21-28 ParseSignature. *)
Definition ParseSignature (s : bytes) : res signature :=
  let* r := decode s SignatureSize in Ok (Sig (fst r) (snd r)).
(** public_key.go:30-37 ParsePublicKey. *)
Definition ParsePublicKey (s : bytes) : res pubkey :=
  let* r := decode s PublicKeySize in Ok (PK (fst r) (snd r)).
(** secret_key.go:35-42 LoadSecretKey. *)
Definition LoadSecretKey (s : bytes) : res seckey :=
  let* r := decode s PrivateKeySize in Ok (SK (fst r) (snd r)).

Section Ed25519.
Variable ed_pub : bytes -> bytes.
Variable ed_sign : bytes -> bytes -> bytes.
Variable ed_verify : bytes -> bytes -> bytes -> bool.

(** ed25519.Verify: panics on a public key of the wrong size, false for a
    signature of the wrong size.  public_key.go:21-27. *)
Definition ed25519_Verify (pub msg sig : bytes) : res bool :=
  if negb (Nat.eqb (length pub) PublicKeySize) then Panic "ed25519: bad public key length"
  else if negb (Nat.eqb (length sig) SignatureSize) then Ok false
  else Ok (ed_verify pub msg sig).

(** public_key.go:21-27 Verify. *)
Definition pk_Verify (k : pubkey) (fingerprint : bytes) (s : signature) : res bool :=
  if negb (beq (pk_name k) (sig_name s)) then Ok false
  else ed25519_Verify (pk_data k) fingerprint (sig_data s).

(** signature.go:32-42 VerifyFirst: the inner loop over the signatures, the
    outer one over the keys. *)
Fixpoint verify_sigs (k : pubkey) (fingerprint : bytes) (sigs : list signature) : option (res bool) :=
  match sigs with
  | [] => None
  | s :: sigs' => if beq (pk_name k) (sig_name s) then Some (pk_Verify k fingerprint s)
                  else verify_sigs k fingerprint sigs'
  end.
(** signature.go:32-42. *)
Fixpoint VerifyFirst (fingerprint : bytes) (sigs : list signature) (keys : list pubkey) : res bool :=
  match keys with
  | [] => Ok false
  | k :: keys' => match verify_sigs k fingerprint sigs with
                  | Some r => r
                  | None => VerifyFirst fingerprint sigs keys'
                  end
  end.

(** secret_key.go:14-21 GenerateKeypair; [seed] is what io.ReadFull(rand, seed)
    gives.  ed25519.GenerateKey returns seed ++ public key. *)
Definition GenerateKeypair (name : bytes) (seed : res bytes) : res (seckey * pubkey) :=
  let* sd := seed in
  Ok (SK name (sd ++ ed_pub sd), PK name (ed_pub sd)).

(** secret_key.go:45-49 ToPublicKey: PrivateKey.Public copies priv[32:] into 32
    zero bytes. *)
Definition ToPublicKey (k : seckey) : res pubkey :=
  if length (sk_data k) <? 32 then Panic "slice bounds out of range"
  else let p := firstn 32 (skipn 32 (sk_data k)) in
       Ok (PK (sk_name k) (p ++ repeat x00 (32 - length p))).

(** secret_key.go:53-62 Sign; rand is not used by ed25519. *)
Definition sk_Sign (k : seckey) (fingerprint : bytes) : res signature :=
  if negb (Nat.eqb (length (sk_data k)) PrivateKeySize) then Panic "ed25519: bad private key length"
  else Ok (Sig (sk_name k) (ed_sign (sk_data k) fingerprint)).
End Ed25519.
