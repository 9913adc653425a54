(** net/url (Go library) as far as /repo/pkg/derivation/store uses it: Parse
    (uri.go:17, and http.go:64 through http.NewRequestWithContext) and URL.String
    (http.go:64).

    The authority (user, host, port) is a parameter here and written out in
    GoUrlAuth.v: [authority a] is what
    Parse makes of the text [a] between "//" and the next "/", given as the text
    String prints for the user (if there is one) and for the host. *)
From Verif Require Import Base.Bytes Model.GoStd Model.StoreBackends.

(** (url.URL.String, called at http.go:64.) *)
Definition percent : byte := "%"%byte.
(** Two of the library's encoding modes.  (url.URL.String, called at http.go:64.) *)
Inductive umode := UPath | UFragment.
(** (url.URL.String, called at http.go:64.) *)
Definition is_alnum (c : byte) : bool :=
  let n := b2n c in
  ((48 <=? n) && (n <=? 57) || (65 <=? n) && (n <=? 90) || (97 <=? n) && (n <=? 122))%N.
(** shouldEscape for these modes.  (url.URL.String, called at http.go:64.) *)
Definition shouldEscape (m : umode) (c : byte) : bool :=
  if is_alnum c || contains_byte (bs "-_.~") c then false
  else if contains_byte (bs "$&+,/:;=?@") c then
    match m with UPath => byte_eqb c "?"%byte | UFragment => false end
  else match m with UFragment => negb (contains_byte (bs "!()*") c) | UPath => true end.
(** (url.URL.String, called at http.go:64.) *)
Definition upper_hex (n : N) : byte := nth (N.to_nat n) (bs "0123456789ABCDEF") x00.
(** escape.  (url.URL.String, called at http.go:64.) *)
Definition escape_byte (m : umode) (c : byte) : bytes :=
  if shouldEscape m c then [percent; upper_hex (b2n c / 16); upper_hex (b2n c mod 16)] else [c].
(** (url.URL.String, called at http.go:64.) *)
Definition url_escape (m : umode) (s : bytes) : bytes := concat (map (escape_byte m) s).
(** unescape for these modes.  (url.Parse, called at uri.go:17 and http.go:64.) *)
Fixpoint url_unescape (s : bytes) : res bytes :=
  match s with
  | [] => Ok []
  | c :: s' =>
      if byte_eqb c percent then
        match s' with
        | h1 :: h2 :: s'' =>
            match hex_val h1, hex_val h2 with
            | Some a, Some b => let* r := url_unescape s'' in Ok (n2b (16 * a + b) :: r)
            | _, _ => Err (EMsg "invalid URL escape")
            end
        | _ => Err (EMsg "invalid URL escape")
        end
      else let* r := url_unescape s' in Ok (c :: r)
  end.
(** validEncoded for these modes.  (url.URL.String, called at http.go:64.) *)
Definition validEncoded (m : umode) (s : bytes) : bool :=
  forallb (fun c => contains_byte (bs "!$&'()*+,;=:@[]%") c || negb (shouldEscape m c)) s.

(** URL. [g_user] and [g_host] are the printed forms.
    (url.Parse, called at uri.go:17 and http.go:64.) *)
Record gourl := GoUrl {
  g_scheme : bytes;
  g_opaque : bytes;
  g_user : option bytes;
  g_host : bytes;
  g_path : bytes;
  g_rawpath : bytes;
  g_omithost : bool;
  g_force : bool;
  g_query : bytes;
  g_fragment : bytes;
  g_rawfragment : bytes
}.
(** The default text is not kept in RawPath / RawFragment (setPath, setFragment).
    (url.Parse, called at uri.go:17 and http.go:64.) *)
Definition raw_of (m : umode) (text value : bytes) : bytes := if beq text (url_escape m value) then [] else text.

(** stringContainsCTLByte.  (url.Parse, called at uri.go:17 and http.go:64.) *)
Definition is_ctl (c : byte) : bool := (b2n c <? 32)%N || (b2n c =? 127)%N.
(** getScheme: the scheme and the rest.
    (url.Parse, called at uri.go:17 and http.go:64.) *)
Fixpoint scheme_end (s : bytes) (first : bool) (i : nat) : res (option nat) :=
  match s with
  | [] => Ok None
  | c :: s' =>
      let n := b2n c in
      if ((97 <=? n) && (n <=? 122) || (65 <=? n) && (n <=? 90))%N then scheme_end s' false (S i)
      else if ((48 <=? n) && (n <=? 57))%N || contains_byte (bs "+-.") c then
        if first then Ok None else scheme_end s' false (S i)
      else if byte_eqb c ":"%byte then if first then Err (EMsg "missing protocol scheme") else Ok (Some i)
      else Ok None
  end.
(** (url.Parse, called at uri.go:17 and http.go:64.) *)
Definition getScheme (s : bytes) : res (bytes * bytes) :=
  let* i := scheme_end s true 0 in
  match i with Some i => Ok (firstn i s, skipn (S i) s) | None => Ok ([], s) end.
(** (url.Parse, called at uri.go:17 and http.go:64.) *)
Definition lower_byte (c : byte) : byte := if ((65 <=? b2n c) && (b2n c <=? 90))%N then n2b (b2n c + 32) else c.
(** (url.Parse, called at uri.go:17 and http.go:64.) *)
Definition count_byte (c : byte) (s : bytes) : nat := length (filter (byte_eqb c) s).

Section Authority.
Variable authority : bytes -> res (option bytes * bytes).

(** parse, with viaRequest false.  (url.Parse, called at uri.go:17 and http.go:64.) *)
Definition url_parse (raw : bytes) : res gourl :=
  if existsb is_ctl raw then Err (EMsg "invalid control character in URL")
  else if beq raw (bs "*") then Ok (GoUrl [] [] None [] (bs "*") [] false false [] [] [])
  else
    let* sr := getScheme raw in
    let scheme := map lower_byte (fst sr) in
    let rest := snd sr in
    let '(rest, force, query) :=
      if byte_eqb (last rest x00) "?"%byte && Nat.eqb (count_byte "?"%byte rest) 1
      then (removelast rest, true, [])
      else (fst (split2 rest "?"%byte), false, match snd (split2 rest "?"%byte) with Some q => q | None => [] end) in
    let path_part auth omit rest :=
      let* p := url_unescape rest in
      Ok (GoUrl scheme [] (fst auth) (snd auth) p (raw_of UPath rest p) omit force query [] []) in
    if negb (has_prefix rest (bs "/")) && negb (beq scheme []) then
      Ok (GoUrl scheme rest None [] [] [] false force query [] [])
    else if negb (has_prefix rest (bs "/")) && contains_byte (fst (split2 rest "/"%byte)) ":"%byte then
      Err (EMsg "first path segment in URL cannot contain colon")
    else if (negb (beq scheme []) || negb (has_prefix rest (bs "///"))) && has_prefix rest (bs "//") then
      let a := skipn 2 rest in
      let '(a, rest) := match index_byte a "/"%byte with Some i => (firstn i a, skipn i a) | None => (a, []) end in
      let* auth := authority a in
      path_part auth false rest
    else path_part (None, []) (negb (beq scheme []) && has_prefix rest (bs "/")) rest.

(** Parse.  (url.Parse, called at uri.go:17 and http.go:64.) *)
Definition url_Parse (raw : bytes) : res gourl :=
  let '(u, frag) := split2 raw "#"%byte in
  let* g := url_parse u in
  match frag with
  | None | Some [] => Ok g
  | Some f =>
      let* fr := url_unescape f in
      Ok (GoUrl (g_scheme g) (g_opaque g) (g_user g) (g_host g) (g_path g) (g_rawpath g) (g_omithost g) (g_force g)
                (g_query g) fr (raw_of UFragment f fr))
  end.

(** EscapedPath, EscapedFragment.  (url.URL.String, called at http.go:64.) *)
Definition keeps_raw (m : umode) (raw value : bytes) : bool :=
  negb (beq raw []) && validEncoded m raw && match url_unescape raw with Ok v => beq v value | _ => false end.
(** (url.URL.String, called at http.go:64.) *)
Definition EscapedPath (u : gourl) : bytes :=
  if keeps_raw UPath (g_rawpath u) (g_path u) then g_rawpath u
  else if beq (g_path u) (bs "*") then bs "*" else url_escape UPath (g_path u).
(** (url.URL.String, called at http.go:64.) *)
Definition EscapedFragment (u : gourl) : bytes :=
  if keeps_raw UFragment (g_rawfragment u) (g_fragment u) then g_rawfragment u else url_escape UFragment (g_fragment u).
(** String.  (The "./" before a first segment with a colon concerns URLs without scheme and host only; it is left out: the
    stores print URLs with a scheme.)  (url.URL.String, called at http.go:64.) *)
Definition url_String (u : gourl) : bytes :=
  (match g_scheme u with [] => [] | s => s ++ bs ":" end) ++
  (match g_opaque u with
   | _ :: _ => g_opaque u
   | [] =>
       let no_user := match g_user u with None => true | Some _ => false end in
       let no_host := beq (g_host u) [] in
       (if (negb (beq (g_scheme u) []) || negb no_host || negb no_user) && negb (g_omithost u && no_host && no_user) then
          (if negb no_host || negb (beq (g_path u) []) || negb no_user then bs "//" else []) ++
          (match g_user u with Some x => x ++ bs "@" | None => [] end) ++ g_host u
        else []) ++
       (if negb (beq (EscapedPath u) []) && negb (has_prefix (EscapedPath u) (bs "/")) && negb no_host then bs "/" else []) ++
       EscapedPath u
   end) ++
  (if g_force u || negb (beq (g_query u) []) then bs "?" ++ g_query u else []) ++
  (if beq (g_fragment u) [] then [] else bs "#" ++ EscapedFragment u).

(** uri.go:16-36 NewFromURI. *)
Definition NewFromURI_text (uri : bytes) : res store_kind :=
  let* u := url_Parse uri in NewFromURI (Url (g_scheme u) (g_path u)).
(** http.go:47-53 getURL. *)
Definition getURL (b : gourl) (p : bytes) : gourl :=
  GoUrl (g_scheme b) (g_opaque b) (g_user b) (g_host b) (Join2 (g_path b) (Base p)) (g_rawpath b) (g_omithost b) (g_force b)
        (g_query b) (g_fragment b) (g_rawfragment b).
(** http.go:56-70 constructRequest: http.NewRequestWithContext parses the text again. *)
Definition constructRequest (b : gourl) (p : bytes) : res gourl := url_Parse (url_String (getURL b p)).
End Authority.
