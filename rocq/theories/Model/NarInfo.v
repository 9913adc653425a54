(** Model of /repo/pkg/narinfo. *)
From Verif Require Import Base.Bytes Model.GoIO Model.GoStd Model.Scanner Model.Nixhash Model.Storepath Model.Signature.

(** types.go:12-42; the hashes are pointers, [None] is nil. *)
Record narinfo := NarInfo {
  ni_StorePath : bytes; ni_URL : bytes; ni_Compression : bytes;
  ni_FileHash : option hash_enc; ni_FileSize : N;
  ni_NarHash : option hash_enc; ni_NarSize : N;
  ni_References : list bytes; ni_Deriver : bytes; ni_System : bytes;
  ni_Signatures : list signature; ni_CA : bytes
}.
(** parser.go:17. *)
Definition ni_empty : narinfo := NarInfo [] [] [] None 0 None 0 [] [] [] [] [].

(** types.go:44-90 String. *)
Definition nl : bytes := [x0a].
(** types.go:44-90. *)
Definition ni_String (n : narinfo) : res bytes :=
  let* file :=
    match ni_FileHash n with
    | Some h =>
        if N.eqb (ni_FileSize n) 0 then Ok []
        else let* s := he_String h in
             Ok (bs "FileHash: " ++ s ++ nl ++ bs "FileSize: " ++ FormatUint (ni_FileSize n) ++ nl)
    | None => Ok []
    end in
  let* nh := match ni_NarHash n with
             | Some h => he_String h
             | None => Panic "nil pointer dereference"
             end in
  Ok (bs "StorePath: " ++ ni_StorePath n ++ nl ++
      bs "URL: " ++ ni_URL n ++ nl ++
      bs "Compression: " ++ ni_Compression n ++ nl ++
      file ++
      bs "NarHash: " ++ nh ++ nl ++
      bs "NarSize: " ++ FormatUint (ni_NarSize n) ++ nl ++
      bs "References:" ++
      (match ni_References n with
       | [] => bs " "
       | rs => concat (map (fun r => bs " " ++ r) rs)
       end) ++ nl ++
      (match ni_Deriver n with [] => [] | d => bs "Deriver: " ++ d ++ nl end) ++
      (match ni_System n with [] => [] | d => bs "System: " ++ d ++ nl end) ++
      concat (map (fun s => bs "Sig: " ++ sig_String s ++ nl) (ni_Signatures n)) ++
      (match ni_CA n with [] => [] | d => bs "CA: " ++ d ++ nl end)).

(** parser.go:111-122 splitOnce. *)
Definition splitOnce (s sep : bytes) : res (bytes * bytes) :=
  match index_sub s sep with
  | None => Err (EMsg "unable to find separator")
  | Some idx =>
      if contains_sub (skipn (idx + 1) s) sep then Err (EMsg "found separator twice or more")
      else Ok (firstn idx s, skipn (idx + length sep) s)
  end.

(** parser.go:41-91: one line. *)
Definition parse_line (n : narinfo) (line : bytes) : res narinfo :=
  let '(NarInfo sp url co fh fs nh ns refs der sys sigs ca) := n in
  match line with
  | [] => Ok n
  | _ =>
      let* kv := splitOnce line (bs ": ") in
      let '(k, v) := kv in
      if beq k (bs "StorePath") then Ok (NarInfo v url co fh fs nh ns refs der sys sigs ca)
      else if beq k (bs "URL") then Ok (NarInfo sp v co fh fs nh ns refs der sys sigs ca)
      else if beq k (bs "Compression") then Ok (NarInfo sp url v fh fs nh ns refs der sys sigs ca)
      else if beq k (bs "FileHash") then
        let* h := ParseAny v None in Ok (NarInfo sp url co (Some h) fs nh ns refs der sys sigs ca)
      else if beq k (bs "FileSize") then
        let* x := ParseUint v in Ok (NarInfo sp url co fh x nh ns refs der sys sigs ca)
      else if beq k (bs "NarHash") then
        let* h := ParseAny v None in Ok (NarInfo sp url co fh fs (Some h) ns refs der sys sigs ca)
      else if beq k (bs "NarSize") then
        let* x := ParseUint v in Ok (NarInfo sp url co fh fs nh x refs der sys sigs ca)
      else if beq k (bs "References") then
        match v with
        | [] => Ok n
        | _ => Ok (NarInfo sp url co fh fs nh ns (refs ++ split_byte v " "%byte) der sys sigs ca)
        end
      else if beq k (bs "Deriver") then
        if negb (beq v (bs "unknown-deriver")) then Ok (NarInfo sp url co fh fs nh ns refs v sys sigs ca) else Ok n
      else if beq k (bs "System") then Ok (NarInfo sp url co fh fs nh ns refs der v sigs ca)
      else if beq k (bs "Sig") then
        let* s := ParseSignature v in Ok (NarInfo sp url co fh fs nh ns refs der sys (sigs ++ [s]) ca)
      else if beq k (bs "CA") then Ok (NarInfo sp url co fh fs nh ns refs der sys sigs v)
      else Err (EMsg "unknown key")
  end.

(** parser.go:16-108. *)
Fixpoint parse_lines (n : narinfo) (l : list bytes) : res narinfo :=
  match l with
  | [] => Ok n
  | x :: l' => let* n := parse_line n x in parse_lines n l'
  end.

(** parser.go:16-108 Parse. *)
Definition maxCapacity : N := 1048576.
(** parser.go:16-108. *)
Definition Parse (r : src) : res narinfo :=
  let '(ls, e) := scan_lines maxCapacity r in
  let* n := parse_lines ni_empty ls in
  match e with
  | Some e => Err e
  | None =>
      let '(NarInfo sp url co fh fs nh ns refs der sys sigs ca) := n in
      Ok (NarInfo sp url (match co with [] => bs "bzip2" | _ => co end) fh fs nh ns refs der sys sigs ca)
  end.

(** fingerprint.go:12-27 Fingerprint. *)
Definition Fingerprint (n : narinfo) : res bytes :=
  let* h := match ni_NarHash n with
            | Some h => Format (he_hash h) NixBase32 true
            | None => Panic "nil pointer dereference"
            end in
  let f := bs "1;" ++ ni_StorePath n ++ bs ";" ++ h ++ bs ";" ++ FormatUint (ni_NarSize n) ++ bs ";" in
  match ni_References n with
  | [] => Ok f
  | refs =>
      let f := f ++ concat (map (fun ref => StoreDir ++ bs "/" ++ ref ++ bs ",") refs) in
      Ok (firstn (length f - 1) f)
  end.

(** check.go:16-57 Check. *)
Fixpoint check_refs (l : list bytes) : res unit :=
  match l with
  | [] => Ok tt
  | r :: l' => match FromString r with
               | Ok _ => check_refs l'
               | Err _ => Err (EMsg "invalid Reference")
               | Panic w => Panic w
               end
  end.
(** check.go:16-57. *)
Definition Check (n : narinfo) : res unit :=
  match FromAbsolutePath (ni_StorePath n) with
  | Panic w => Panic w
  | Err _ => Err (EMsg "invalid StorePath")
  | Ok _ =>
      let* _ := check_refs (ni_References n) in
      let* _ := match ni_Deriver n with
                | [] => Ok tt
                | d => match FromString d with
                       | Ok _ => Ok tt
                       | Err _ => Err (EMsg "invalid Deriver")
                       | Panic w => Panic w
                       end
                end in
      if negb (beq (ni_Compression n) (bs "none")) then Ok tt
      else if (0 <? ni_FileSize n)%N && negb (N.eqb (ni_FileSize n) (ni_NarSize n))
      then Err (EMsg "FileSize/NarSize differs")
      else match ni_FileHash n, ni_NarHash n with
           | Some fh, Some nh =>
               if negb (algo_eqb (h_algo (he_hash fh)) (h_algo (he_hash nh))) then
                 (* the message prints both algorithms: String panics on an unknown one *)
                 let* _ := algo_String (h_algo (he_hash fh)) in
                 let* _ := algo_String (h_algo (he_hash nh)) in
                 Err (EMsg "FileHash/NarHash type differ")
               else if negb (beq (h_digest (he_hash fh)) (h_digest (he_hash nh)))
               then Err (EMsg "FileHash/NarHash differs")
               else Ok tt
           | _, _ => Ok tt
           end
  end.
