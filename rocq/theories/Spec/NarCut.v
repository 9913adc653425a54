(** Cut archives (C30): which cuts of an archive go-nix's Reader takes for the end.

    An archive is a row of wire strings.  The Reader knows what the [Fixed] ones must be and calls the
    end of the stream unexpected there; for the [Free] ones and for a file's contents ([Body]) it
    passes the end of the stream on as io.EOF. *)
From Verif Require Import Base.Bytes Model.GoStd Model.Nar Spec.WireSpec Spec.NarSpec.

Inductive piece := Fixed (x : bytes) | Free (x : bytes) | Body (c : bytes).
Definition piece_bytes (p : piece) : bytes := match p with Fixed x => field x | Free x => field x | Body x => field x end.
Fixpoint pieces (t : node) : list piece :=
  Fixed (bs "(") :: Fixed (bs "type") ::
  match t with
  | Reg exec c =>
      Free (bs "regular") :: (if exec then [Free (bs "executable"); Fixed []] else []) ++
      [Free (bs "contents"); Body c; Free (bs ")")]
  | Sym target => [Free (bs "symlink"); Fixed (bs "target"); Free target; Free (bs ")")]
  | Dir es =>
      Free (bs "directory") ::
      concat (map (fun e => [Free (bs "entry"); Fixed (bs "("); Fixed (bs "name"); Free (fst e); Fixed (bs "node")] ++
                            pieces (snd e) ++ [Fixed (bs ")")]) es) ++ [Free (bs ")")]
  end.
Definition nar_pieces (t : node) : list piece := Fixed (bs "nix-archive-1") :: pieces t.

(** [looks_complete e ps k]: the first [k] bytes of the pieces [ps], on a stream that then gives the error
    [e], end in what the Reader reports as io.EOF: either the bytes reach the last piece's padding, or
    [e] is io.EOF and the cut falls
    - in front of a free string or right behind its length field, or
    - in front of a file's length field, or anywhere in its contents.
    Missing padding of a string (not of a file) goes unnoticed. *)
Fixpoint looks_complete (e : error) (ps : list piece) (k : nat) : Prop :=
  match ps with
  | [] => True
  | Fixed x :: ps' => 8 + length x <= k /\ looks_complete e ps' (k - length (field x))
  | Free x :: ps' =>
      (e = EEOF /\ (k = 0 \/ (k = 8 /\ x <> []))) \/
      (8 + length x <= k /\ looks_complete e ps' (k - length (field x)))
  | Body c :: ps' =>
      (e = EEOF /\ (k = 0 \/ 8 <= k <= 8 + length c)) \/
      (length (field c) <= k /\ looks_complete e ps' (k - length (field c)))
  end.
