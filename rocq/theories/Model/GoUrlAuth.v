(** net/url (Go 1.20): what Parse makes of the text between "//" and the next "/", and how String prints it. *)
From Verif Require Import Base.Bytes Model.GoStd Model.GoUrl.

(** shouldEscape with encodeHost (encodeZone is the same).
    (url.Parse, called at uri.go:17 and http.go:64.) *)
Definition host_escape (c : byte) : bool :=
  negb (is_alnum c || contains_byte (bs "!$&'()*+,;=:[]<>""") c || contains_byte (bs "-_.~") c).
(** shouldEscape with encodeUserPassword.
    (url.Parse, called at uri.go:17 and http.go:64.) *)
Definition user_escape (c : byte) : bool :=
  if is_alnum c || contains_byte (bs "-_.~") c then false
  else if contains_byte (bs "$&+,/:;=?@") c then contains_byte (bs "@/?:") c
  else true.
(** (url.Parse, called at uri.go:17 and http.go:64.) *)
Definition escape_with (should : byte -> bool) (s : bytes) : bytes :=
  concat (map (fun c => if should c then [percent; upper_hex (b2n c / 16); upper_hex (b2n c mod 16)] else [c]) s).
(** unescape with encodeHost or (inside [], from the first %25 on) encodeZone.
    (url.Parse, called at uri.go:17 and http.go:64.) *)
Fixpoint unescape_host (zone : bool) (s : bytes) : res bytes :=
  match s with
  | [] => Ok []
  | c :: s' =>
      if byte_eqb c percent then
        match s' with
        | h1 :: h2 :: s'' =>
            match hex_val h1, hex_val h2 with
            | Some a, Some b =>
                let v := n2b (16 * a + b) in
                let is25 := beq [h1; h2] (bs "25") in
                if (if zone then negb is25 && negb (byte_eqb v " "%byte) && host_escape v else (a <? 8)%N && negb is25)
                then Err (EMsg "invalid URL escape")
                else let* r := unescape_host zone s'' in Ok (v :: r)
            | _, _ => Err (EMsg "invalid URL escape")
            end
        | _ => Err (EMsg "invalid URL escape")
        end
      else if (b2n c <? 128)%N && host_escape c then Err (EMsg "invalid character in host name")
      else let* r := unescape_host zone s' in Ok (c :: r)
  end.
(** strings.LastIndex for one character: what is before and behind it.
    (url.Parse, called at uri.go:17 and http.go:64.) *)
Fixpoint last_split (s : bytes) (c : byte) : option (bytes * bytes) :=
  match s with
  | [] => None
  | x :: s' => match last_split s' c with
               | Some (p, q) => Some (x :: p, q)
               | None => if byte_eqb x c then Some ([], s') else None
               end
  end.
(** (url.Parse, called at uri.go:17 and http.go:64.) *)
Definition all_digits (s : bytes) : bool := forallb (fun c => (48 <=? b2n c)%N && (b2n c <=? 57)%N) s.
(** validOptionalPort.  (url.Parse, called at uri.go:17 and http.go:64.) *)
Definition validOptionalPort (s : bytes) : bool :=
  match s with [] => true | c :: s' => byte_eqb c ":"%byte && all_digits s' end.
(** parseHost.  (url.Parse, called at uri.go:17 and http.go:64.) *)
Definition parseHost (h : bytes) : res bytes :=
  if has_prefix h (bs "[") then
    match last_split h "]"%byte with
    | None => Err (EMsg "missing ']' in host")
    | Some (x, port) =>
        if negb (validOptionalPort port) then Err (EMsg "invalid port after host")
        else match index_sub x (bs "%25") with
             | Some z =>
                 let* h1 := unescape_host false (firstn z x) in
                 let* h2 := unescape_host true (skipn z x) in
                 let* h3 := unescape_host false ("]"%byte :: port) in
                 Ok (h1 ++ h2 ++ h3)
             | None => unescape_host false h
             end
    end
  else match last_split h ":"%byte with
       | Some (_, port) => if all_digits port then unescape_host false h else Err (EMsg "invalid port after host")
       | None => unescape_host false h
       end.
(** validUserinfo.  (url.Parse, called at uri.go:17 and http.go:64.) *)
Definition validUserinfo (s : bytes) : bool := forallb (fun c => is_alnum c || contains_byte (bs "-._:~!$&'()*+,;=%@") c) s.
(** parseAuthority, and Userinfo.String and the escaping of the host in URL.String.
    (url.Parse, called at uri.go:17 and http.go:64.) *)
Definition parseAuthority (a : bytes) : res (option bytes * bytes) :=
  match last_split a "@"%byte with
  | None => let* h := parseHost a in Ok (None, escape_with host_escape h)
  | Some (ui, h) =>
      let* h := parseHost h in
      if negb (validUserinfo ui) then Err (EMsg "net/url: invalid userinfo")
      else
        match split2 ui ":"%byte with
        | (n, None) => let* n := url_unescape n in Ok (Some (escape_with user_escape n), escape_with host_escape h)
        | (n, Some p) =>
            let* n := url_unescape n in
            let* p := url_unescape p in
            Ok (Some (escape_with user_escape n ++ bs ":" ++ escape_with user_escape p), escape_with host_escape h)
        end
  end.
