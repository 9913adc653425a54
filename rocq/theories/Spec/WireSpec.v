(** Independent specification of the Nix wire format fields: what the bytes of
    a uint64, a bool and a string field are. *)
From Verif Require Import Base.Bytes Model.GoIO.

(** The 8 bytes of a number, least significant first: byte i is the i-th
    base-256 digit. *)
Definition le8 (n : N) : bytes :=
  map (fun i => n2b (n / 256 ^ N.of_nat i)) (seq 0 8).

(** The least number of bytes that brings [n] up to a multiple of 8
    ([pad_len_least] in Proof/WireFacts.v). *)
Definition pad_len (n : nat) : nat := (8 - n mod 8) mod 8.

(** A string field. *)
Definition field (c : bytes) : bytes :=
  le8 (lenN c) ++ c ++ repeat x00 (pad_len (length c)).

(** A uint64 and a bool field. *)
Definition uint_field (n : N) : bytes := le8 n.
Definition bool_field (b : bool) : bytes := le8 (if b then 1 else 0).

(** The error of a read that wanted more bytes than the stream [d], ending in
    error [e], still has: io.EOF if nothing at all was there, else
    io.ErrUnexpectedEOF; any other error is passed on. *)
Definition short_error (d : bytes) (e : error) : error :=
  match e with
  | EEOF => match d with [] => EEOF | _ => EUnexpectedEOF end
  | _ => e
  end.

(** A reader that, if it hands out its terminal error together with the last
    bytes at all, does so only for io.EOF. *)
Definition polite (s : src) : Prop := eager s = false \/ fin s = EEOF.

(** The first n bytes, and the rest. *)
Definition ntake (n : N) (d : bytes) : bytes := firstn (N.to_nat n) d.
Definition ndrop (n : N) (d : bytes) : bytes := skipn (N.to_nat n) d.

(** Two runs of a reading function give the same value or error, and leave
    streams that hold the same remaining bytes and terminal error. *)
Definition same_result {A} (r1 r2 : res A * src) : Prop :=
  fst r1 = fst r2 /\ flat (snd r1) = flat (snd r2).
