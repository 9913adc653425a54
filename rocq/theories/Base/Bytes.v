(** Bytes, Go strings ([string]/[[]byte] are both lists of bytes here) and the
    handful of generic operations every model file uses.  No code of /repo is
    modelled in this file; it fixes the data representation only. *)
From Coq Require Export Strings.String Strings.Byte.
From Coq Require Export Bool NArith ZArith Lia PeanoNat List.
From Coq Require Export ZifyBool ZifyNat ZifyN.
Export ListNotations.
Global Open Scope list_scope.

Notation length := List.length.
Notation concat := List.concat.

Definition bytes := list byte.

(** String literals: [bs "foo"] is the byte list of the Go literal "foo". *)
Definition bs (s : string) : bytes := list_byte_of_string s.

(** Byte <-> number.  [n2b] truncates like Go's byte(x) conversion. *)
Definition b2n (b : byte) : N := Byte.to_N b.
Definition n2b (n : N) : byte :=
  match Byte.of_N (n mod 256) with Some b => b | None => x00 end.

(** Equality tests. *)
Definition byte_eqb (a b : byte) : bool := Byte.eqb a b.

Fixpoint beq (a b : bytes) : bool :=
  match a, b with
  | [], [] => true
  | x :: a', y :: b' => byte_eqb x y && beq a' b'
  | _, _ => false
  end.

(** Lexicographic byte order: Go's [<], [<=] on strings and sort.Strings. *)
Fixpoint bcmp (a b : bytes) : comparison :=
  match a, b with
  | [], [] => Eq
  | [], _ :: _ => Lt
  | _ :: _, [] => Gt
  | x :: a', y :: b' =>
      match N.compare (b2n x) (b2n y) with
      | Eq => bcmp a' b'
      | c => c
      end
  end.

Definition blt (a b : bytes) : bool := match bcmp a b with Lt => true | _ => false end.
Definition ble (a b : bytes) : bool := match bcmp a b with Gt => false | _ => true end.

Definition byte_lt (a b : byte) : bool := N.ltb (b2n a) (b2n b).

(** [lenN] is Go's uint64(len(x)). *)
Definition lenN (b : bytes) : N := N.of_nat (length b).

Definition has_prefix (s p : bytes) : bool := beq (firstn (length p) s) p.

(** strings.IndexByte: [None] is Go's -1. *)
Fixpoint index_byte (s : bytes) (c : byte) : option nat :=
  match s with
  | [] => None
  | x :: s' => if byte_eqb x c then Some 0
               else match index_byte s' c with Some i => Some (S i) | None => None end
  end.

(** strings.Contains(s, c) / strings.ContainsAny for a one-byte set. *)
Definition contains_byte (s : bytes) (c : byte) : bool := existsb (byte_eqb c) s.

(** strings.Index for a substring. *)
Fixpoint index_sub (s sub : bytes) : option nat :=
  if has_prefix s sub then Some 0
  else match s with
       | [] => None
       | _ :: s' => match index_sub s' sub with Some i => Some (S i) | None => None end
       end.

Definition contains_sub (s sub : bytes) : bool :=
  match index_sub s sub with Some _ => true | None => false end.

(** strings.Split(s, sep) for a one-byte separator: never the empty list. *)
Fixpoint split_byte (s : bytes) (c : byte) : list bytes :=
  match s with
  | [] => [[]]
  | x :: s' =>
      if byte_eqb x c then [] :: split_byte s' c
      else match split_byte s' c with
           | [] => [[x]]
           | h :: t => (x :: h) :: t
           end
  end.

(** strings.Join(l, sep) for a one-byte separator. *)
Fixpoint join_byte (l : list bytes) (c : byte) : bytes :=
  match l with
  | [] => []
  | [x] => x
  | x :: l' => x ++ c :: join_byte l' c
  end.

(** Errors.  io.EOF and io.ErrUnexpectedEOF are distinguished because callers
    compare against them; [EIo n] is some error of the environment; [EMsg] is
    an error made by fmt.Errorf/errors.New, with a tag in place of the text. *)
Inductive error :=
| EEOF
| EUnexpectedEOF
| EIo (n : nat)
| EMsg (tag : string).

(** A Go result: a value, an error, or a run-time panic. *)
Inductive res (A : Type) :=
| Ok (a : A)
| Err (e : error)
| Panic (why : string).
Arguments Ok {A} a.
Arguments Err {A} e.
Arguments Panic {A} why.

Definition rbind {A B} (r : res A) (f : A -> res B) : res B :=
  match r with Ok a => f a | Err e => Err e | Panic w => Panic w end.
Notation "'let*' x ':=' r 'in' k" := (rbind r (fun x => k))
  (at level 200, x pattern, r at level 100, k at level 200, right associativity).

Definition is_ok {A} (r : res A) : bool := match r with Ok _ => true | _ => false end.
Definition is_err {A} (r : res A) : bool := match r with Err _ => true | _ => false end.
Definition is_panic {A} (r : res A) : bool := match r with Panic _ => true | _ => false end.

Definition all_bytes : list byte :=
  map (fun n => n2b (N.of_nat n)) (seq 0 256).

(** sort.Strings: insertion sort by the byte order.  Go's sort is not stable,
    but equal strings are indistinguishable, so any sorting function returns
    the same slice (proved as [sort_unique] in Base/BytesFacts.v). *)
Fixpoint insert_sorted (x : bytes) (l : list bytes) : list bytes :=
  match l with
  | [] => [x]
  | y :: l' => if ble x y then x :: l else y :: insert_sorted x l'
  end.
Fixpoint sort_strings (l : list bytes) : list bytes :=
  match l with
  | [] => []
  | x :: l' => insert_sorted x (sort_strings l')
  end.

(** Go maps.  A Go map is an association list in *some* iteration order with
    distinct keys; functions that range over a map take the list as given, so
    order-independence is a theorem and not an assumption. *)
Definition amap (V : Type) := list (bytes * V).

Fixpoint mget {V} (m : amap V) (k : bytes) : option V :=
  match m with
  | [] => None
  | (k', v) :: m' => if beq k' k then Some v else mget m' k
  end.

Definition mkeys {V} (m : amap V) : list bytes := map fst m.

Definition mhas {V} (m : amap V) (k : bytes) : bool :=
  match mget m k with Some _ => true | None => false end.

(** m[k] = v: overwrite in place or insert. *)
Fixpoint mset {V} (m : amap V) (k : bytes) (v : V) : amap V :=
  match m with
  | [] => [(k, v)]
  | (k', v') :: m' => if beq k' k then (k, v) :: m' else (k', v') :: mset m' k v
  end.
