(** Model of the exported patterns of /repo/pkg/storepath/storepath.go:18-26,
    with what Go's regexp package says about patterns of this kind. *)
From Verif Require Import Base.Bytes Model.Nixbase32 Model.Storepath.

(** The constructs the two patterns use.  The classes are ASCII, and Go treats a byte
    that is not UTF-8 as U+FFFD, which no class contains: matching can go byte by byte.
    The patterns of storepath.go:18-26. *)
Inductive re :=
| RStr (s : bytes)              (* a literal text (regexp.QuoteMeta) *)
| RClass (l : bytes)            (* [...] *)
| RSeq (a b : re)
| RStar (a : re)                (* a* *)
| RRep (n : nat) (a : re)       (* a{n} *)
| RGroup (i : nat) (a : re)     (* the i-th pair of parentheses *)
| RBegin                        (* ^ *)
| REnd.                         (* $ *)

(** [rmatch r pre m post g]: in the text pre ++ m ++ post the part m matches, with these submatches.
    (A group in a repetition would report the last one; the patterns have none.)
    The patterns of storepath.go:18-26. *)
Inductive rmatch : re -> bytes -> bytes -> bytes -> list (nat * bytes) -> Prop :=
| m_str s pre post : rmatch (RStr s) pre s post []
| m_class l c pre post : In c l -> rmatch (RClass l) pre [c] post []
| m_seq a b pre m1 m2 post g1 g2 : rmatch a pre m1 (m2 ++ post) g1 -> rmatch b (pre ++ m1) m2 post g2 -> rmatch (RSeq a b) pre (m1 ++ m2) post (g1 ++ g2)
| m_star0 a pre post : rmatch (RStar a) pre [] post []
| m_star a pre m1 m2 post g1 g2 : rmatch a pre m1 (m2 ++ post) g1 -> rmatch (RStar a) (pre ++ m1) m2 post g2 -> rmatch (RStar a) pre (m1 ++ m2) post (g1 ++ g2)
| m_rep0 a pre post : rmatch (RRep 0 a) pre [] post []
| m_rep n a pre m1 m2 post g1 g2 : rmatch a pre m1 (m2 ++ post) g1 -> rmatch (RRep n a) (pre ++ m1) m2 post g2 -> rmatch (RRep (S n) a) pre (m1 ++ m2) post (g1 ++ g2)
| m_group i a pre m post g : rmatch a pre m post g -> rmatch (RGroup i a) pre m post ((i, m) :: g)
| m_begin post : rmatch RBegin [] [] post []
| m_end pre : rmatch REnd pre [] [] [].
(** Regexp.MatchString: some part of the text matches; Regexp.FindStringSubmatch
    returns the groups of one of the matches.  The patterns of storepath.go:18-26. *)
Definition MatchString (r : re) (s : bytes) : Prop := exists pre m post g, s = pre ++ m ++ post /\ rmatch r pre m post g.
(** The patterns of storepath.go:18-26. *)
Definition Submatches (r : re) (s : bytes) (g : list (nat * bytes)) : Prop := exists pre m post, s = pre ++ m ++ post /\ rmatch r pre m post g.

(** storepath.go:19 NameRe: [a-zA-Z0-9+\-_?=][.a-zA-Z0-9+\-_?=]* *)
Definition re_first : bytes := bs "abcdefghijklmnopqrstuvwxyzABCDEFGHIJKLMNOPQRSTUVWXYZ0123456789+-_?=".
Definition NameRe : re := RSeq (RClass re_first) (RStar (RClass ("."%byte :: re_first))).
(** storepath.go:20-26 PathRe: ^/nix/store/([alphabet]{32})-(NameRe)$ *)
Definition PathRe : re :=
  RSeq RBegin (RSeq (RStr StoreDir) (RSeq (RStr (bs "/")) (RSeq (RGroup 1 (RRep (EncodedLen PathHashSize) (RClass Alphabet)))
    (RSeq (RStr (bs "-")) (RSeq (RGroup 2 NameRe) REnd))))).
