(** Model of bufio.Scanner (Go standard library) with the ScanLines split
    function and scanner.Buffer(make([]byte, limit), limit), as narinfo/parser.go
    uses it.  Not code of /repo. *)
From Verif Require Import Base.Bytes Model.GoIO.

(** dropCR.  narinfo/parser.go:18-29 (Go library). *)
Definition drop_cr (l : bytes) : bytes :=
  match rev l with
  | c :: r => if byte_eqb c x0d then rev r else l
  | [] => []
  end.

(** The inner read loop: at most 100 consecutive empty reads are tolerated.
    narinfo/parser.go:18-29 (Go library). *)
Fixpoint scan_read (tries : nat) (room : N) (s : src) : bytes * option error * src :=
  let '(b, e, s') := src_read room s in
  match e, b with
  | None, [] => match tries with
                | O => ([], Some (EMsg "io.ErrNoProgress"), s')
                | S t => scan_read t room s'
                end
  | _, _ => (b, e, s')
  end.

(** All tokens and the final Err().  [h]: the bytes held but not consumed,
    [err]: the sticky error.  The held bytes are always at the start of the
    buffer here; in Go they may sit further right, which makes some reads
    smaller - another fragmentation of the same stream.
    narinfo/parser.go:18-29 (Go library). *)
Fixpoint scan_all (fuel : nat) (limit : N) (h : bytes) (err : option error) (s : src) : list bytes * option error :=
  match fuel with
  | O => ([], Some (EMsg "out of fuel"))
  | S f =>
      match index_byte h x0a with
      | Some i =>
          let '(ts, e) := scan_all f limit (skipn (S i) h) err s in (drop_cr (firstn i h) :: ts, e)
      | None =>
          match err with
          | Some er =>
              (match h with [] => [] | _ => [drop_cr h] end,
               match er with EEOF => None | _ => Some er end)
          | None =>
              if (limit <=? lenN h)%N then ([], Some (EMsg "bufio.Scanner: token too long"))
              else let '(b, e, s') := scan_read 100 (limit - lenN h) s in
                   scan_all f limit (h ++ b) e s'
          end
      end
  end.
(** narinfo/parser.go:18-29 (Go library). *)
Definition scan_lines (limit : N) (s : src) : list bytes * option error :=
  scan_all (3 + 2 * src_size s) limit [] None s.
