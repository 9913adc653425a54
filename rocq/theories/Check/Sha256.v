(** SHA-256 (FIPS 180-4), to run the model of the derivation hashes on the fixtures
    of /repo.  The theorems do not use it: there the hash is a parameter. *)
From Verif Require Import Base.Bytes.

Definition w32 (n : N) : N := N.land n 4294967295.
Definition add32 (a b : N) : N := w32 (a + b).
Definition rotr (k x : N) : N := N.lor (N.shiftr x k) (w32 (N.shiftl x (32 - k))).
Definition bsig0 x := N.lxor (rotr 2 x) (N.lxor (rotr 13 x) (rotr 22 x)).
Definition bsig1 x := N.lxor (rotr 6 x) (N.lxor (rotr 11 x) (rotr 25 x)).
Definition ssig0 x := N.lxor (rotr 7 x) (N.lxor (rotr 18 x) (N.shiftr x 3)).
Definition ssig1 x := N.lxor (rotr 17 x) (N.lxor (rotr 19 x) (N.shiftr x 10)).
Definition ch x y z := N.lxor (N.land x y) (N.land (N.lxor x 4294967295) z).
Definition maj x y z := N.lxor (N.land x y) (N.lxor (N.land x z) (N.land y z)).
Definition K256 : list N := [1116352408; 1899447441; 3049323471; 3921009573; 961987163; 1508970993; 2453635748; 2870763221; 3624381080; 310598401; 607225278; 1426881987; 1925078388; 2162078206; 2614888103; 3248222580; 3835390401; 4022224774; 264347078; 604807628; 770255983; 1249150122; 1555081692; 1996064986; 2554220882; 2821834349; 2952996808; 3210313671; 3336571891; 3584528711; 113926993; 338241895; 666307205; 773529912; 1294757372; 1396182291; 1695183700; 1986661051; 2177026350; 2456956037; 2730485921; 2820302411; 3259730800; 3345764771; 3516065817; 3600352804; 4094571909; 275423344; 430227734; 506948616; 659060556; 883997877; 958139571; 1322822218; 1537002063; 1747873779; 1955562222; 2024104815; 2227730452; 2361852424; 2428436474; 2756734187; 3204031479; 3329325298]%N.
Definition H256 : list N := [1779033703; 3144134277; 1013904242; 2773480762; 1359893119; 2600822924; 528734635; 1541459225]%N.

Definition be32 (l : bytes) : N := fold_left (fun acc b => acc * 256 + b2n b)%N l 0%N.
Fixpoint be_bytes (k : nat) (n : N) : bytes := match k with O => [] | S k' => be_bytes k' (n / 256) ++ [n2b n] end.
Fixpoint words (k : nat) (l : bytes) : list N := match k with O => [] | S k' => be32 (firstn 4 l) :: words k' (skipn 4 l) end.
(** The message schedule, newest word first. *)
Fixpoint schedule (k : nat) (w : list N) : list N :=
  match k with
  | O => w
  | S k' => schedule k' (add32 (add32 (ssig1 (nth 1 w 0%N)) (nth 6 w 0%N)) (add32 (ssig0 (nth 14 w 0%N)) (nth 15 w 0%N)) :: w)
  end.
Fixpoint rounds (k w : list N) (st : list N) : list N :=
  match k, w, st with
  | ki :: k', wi :: w', [a; b; c; d; e; f; g; h] =>
      let t1 := add32 (add32 (add32 h (bsig1 e)) (add32 (ch e f g) ki)) wi in
      let t2 := add32 (bsig0 a) (maj a b c) in
      rounds k' w' [add32 t1 t2; a; b; c; add32 d t1; e; f; g]
  | _, _, _ => st
  end.
Definition block (st : list N) (b : bytes) : list N :=
  let w := rev (schedule 48 (rev (words 16 b))) in
  map (fun '(x, y) => add32 x y) (combine st (rounds K256 w st)).
Fixpoint blocks (fuel : nat) (st : list N) (b : bytes) : list N :=
  match fuel, b with
  | S f, _ :: _ => blocks f (block st (firstn 64 b)) (skipn 64 b)
  | _, _ => st
  end.
Definition pad (m : bytes) : bytes :=
  let n := length m in
  m ++ [x80] ++ repeat x00 ((119 - n mod 64) mod 64) ++ be_bytes 8 (8 * N.of_nat n).
Definition sha256 (m : bytes) : bytes :=
  let p := pad m in concat (map (be_bytes 4) (blocks (length p) H256 p)).
