(** What the text of a store URI stands for (C100, C101). *)
From Verif Require Import Base.Bytes Model.GoStd Model.GoUrl.

(** Characters that stand for themselves: no control characters, none of # ? %. *)
Definition ordinary (c : byte) : Prop :=
  (32 <= b2n c)%N /\ b2n c <> 127%N /\ c <> "#"%byte /\ c <> "?"%byte /\ c <> "%"%byte.
(** A directory that can be given without a scheme: ordinary characters, not "//" followed by something but
    another slash, and no colon in front of the first slash. *)
Definition names_itself (s : bytes) : Prop :=
  s <> [] /\ Forall ordinary s /\
  (forall r, s = bs "//" ++ r -> exists r', r = "/"%byte :: r') /\
  (forall seg, ~ In "/"%byte seg -> (s = seg \/ exists rest, s = seg ++ "/"%byte :: rest) -> ~ In ":"%byte seg).
(** A path that begins with a slash. *)
Definition rooted (p : bytes) : bytes := match p with c :: _ => if byte_eqb c "/"%byte then p else "/"%byte :: p | [] => bs "/" end.

(** What net/url does with "user@host:port" texts: what it prints can be parsed again, with the same result, and
    does not contain what would end it. *)
Definition auth_text (u : option bytes * bytes) : bytes :=
  match fst u with Some x => x ++ bs "@" | None => [] end ++ snd u.
Definition reprintable (authority : bytes -> res (option bytes * bytes)) (u : option bytes * bytes) : Prop :=
  authority (auth_text u) = Ok u /\ Forall (fun c => (32 <= b2n c)%N /\ b2n c <> 127%N /\ c <> "#"%byte /\ c <> "?"%byte) (auth_text u) /\ ~ In "/"%byte (auth_text u).
(** The host is not an address in brackets, or the whole text is ASCII. *)
Definition plain_host (t : bytes) (b : gourl) : Prop := (forall r, g_host b <> bs "[" ++ r) \/ Forall (fun c => (b2n c < 128)%N) t.

(** A base URL with a host. *)
Definition http_base (b : gourl) : Prop :=
  (g_scheme b = bs "http" \/ g_scheme b = bs "https") /\ g_host b <> [].
(** Everything but the path as in the base URL, and this path. *)
Definition same_request (b u : gourl) (path : bytes) : Prop :=
  g_scheme u = g_scheme b /\ g_opaque u = [] /\ g_user u = g_user b /\ g_host u = g_host b /\ g_path u = path /\
  g_force u = g_force b /\ g_query u = g_query b /\ g_fragment u = g_fragment b.


(** * Ordinary base URLs, such as https://cache.example.org:8080/drvs *)
Definition alnum (c : byte) : Prop := (48 <= b2n c <= 57)%N \/ (65 <= b2n c <= 90)%N \/ (97 <= b2n c <= 122)%N.
Definition digit (c : byte) : Prop := (48 <= b2n c <= 57)%N.
Definition host_name (h : bytes) : Prop := h <> [] /\ Forall (fun c => alnum c \/ In c (bs "-.")) h.
Definition port_text (p : bytes) : Prop := p = [] \/ exists d, p = bs ":" ++ d /\ Forall digit d.
Definition plain_text (q : bytes) : Prop := Forall (fun c => alnum c \/ In c (bs "-_.~/+=")) q.
Definition base_path (q : bytes) : Prop := (q = [] \/ exists r, q = bs "/" ++ r) /\ plain_text q.
Definition cache_text (scheme host port path : bytes) : bytes := scheme ++ bs "://" ++ host ++ port ++ path.
