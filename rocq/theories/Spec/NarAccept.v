(** The byte sequences the nar Reader takes for an archive, and the nodes it
    reports for them (C110).  This is the format of Spec/NarSpec.v with
    everything the Reader lets pass. *)
From Verif Require Import Base.Bytes Model.GoStd Model.Nar Spec.WireSpec.

(** [takes x d d']: the string [x] at the front of [d], followed by [d'].  The
    padding is skipped without looking at it, and some of it may be missing at
    the end of the data. *)
Definition takes (x d d' : bytes) : Prop :=
  exists tail, d = le8 (lenN x) ++ x ++ tail /\ d' = skipn (pad_len (length x)) tail.
Fixpoint takes_all (xs : list bytes) (d d' : bytes) : Prop :=
  match xs with
  | [] => d = d'
  | x :: xs' => exists d1, takes x d d1 /\ takes_all xs' d1 d'
  end.
Definition toks (l : list string) : list bytes := map bs l.

(** [node_read p its d d']: a node at the front of [d], followed by [d']; with
    the node at path [p] it stands for the headers and contents [its].
    [entries_read p its d d']: the same for the rest of the directory [p]. *)
Inductive node_read : bytes -> list (header * bytes) -> bytes -> bytes -> Prop :=
| nr_blank p d d' : (* no type at all: nothing is reported *)
    takes_all (toks ["("; "type"; ")"]%string) d d' -> node_read p [] d d'
| nr_sym p t d d' :
    (lenN t <= 4095)%N ->
    takes_all (toks ["("; "type"; "symlink"; "target"]%string ++ [t] ++ toks [")"]%string) d d' ->
    node_read p [(Header p (bs "symlink") t 0 false, [])] d d'
| nr_reg p x c d d1 d' : (* the padding of a file's content must be there, and zero *)
    (lenN c < 2 ^ 63)%N ->
    takes_all (toks ["("; "type"; "regular"]%string ++ (if x : bool then toks ["executable"; ""]%string else []) ++
      toks ["contents"]%string)
      d (field c ++ d1) ->
    takes (bs ")") d1 d' ->
    node_read p [(Header p (bs "regular") [] (Z.of_nat (length c)) x, c)] d d'
| nr_dir p its d d1 d' :
    takes_all (toks ["("; "type"; "directory"]%string) d d1 -> entries_read p its d1 d' ->
    node_read p ((Header p (bs "directory") [] 0 false, []) :: its) d d'
with entries_read : bytes -> list (header * bytes) -> bytes -> bytes -> Prop :=
| er_close p d d' : takes (bs ")") d d' -> entries_read p [] d d'
| er_junk p x its d d1 d' : (* any other short token is ignored *)
    x <> bs "entry" -> x <> bs ")" -> (lenN x <= 32)%N -> takes x d d1 ->
    entries_read p its d1 d' -> entries_read p its d d'
| er_entry p n its1 its2 d d1 d2 d3 d' :
    ~ In "/"%byte n -> ~ In x00 n -> (lenN n <= 255)%N -> n <> bs ")" ->
    takes_all (toks ["entry"; "("; "name"]%string ++ [n] ++ toks ["node"]%string) d d1 ->
    node_read (Join2 p n) its1 d1 d2 -> takes (bs ")") d2 d3 -> entries_read p its2 d3 d' ->
    entries_read p (its1 ++ its2) d d'
| er_last p its d d1 d2 d' : (* an entry called ")" ends the directory *)
    takes_all (toks ["entry"; "("; "name"; ")"; "node"]%string) d d1 ->
    node_read (Join2 p (bs ")")) its d1 d2 -> takes (bs ")") d2 d' ->
    entries_read p its d d'.

(** [archive_read its d d']: an archive at the front of [d]. *)
Definition archive_read (its : list (header * bytes)) (d d' : bytes) : Prop :=
  exists d1, takes (bs "nix-archive-1") d d1 /\ node_read (bs "/") its d1 d'.
