(** Generated by /verif/tools/sqlite_fixtures.py (SQLite 3.46.0): random histories of the
    statements of /repo/pkg/sqlite run on a real SQLite; the model allows what it
    returned.  These are tests of the model, not part of any proof. *)
From Coq Require Import Permutation.
From Verif Require Import Base.Bytes Model.GoIO Model.Sqlite Spec.SqliteSpec.
Ltac perm :=
  match goal with
  | |- Permutation [] [] => apply perm_nil
  | |- @Permutation ?A (?x :: ?l) ?r =>
      let rec go acc r := match r with
        | x :: ?t => refine (@Permutation_cons_app _ l acc t x _); cbn [app]
        | ?y :: ?t => go constr:(acc ++ [y]) t
        end in go constr:(@nil A) r; perm
  end.
Ltac one :=
  match goal with
  | |- Permutation _ _ => perm
  | |- ?a = ?b => reflexivity
  | |- exists a, _ => eexists; split; [|reflexivity]; cbn [In]; repeat (first [left; reflexivity|right])
  end.
Ltac check := vm_compute; repeat match goal with |- _ /\ _ => split end; one.

Example fetcher_0 : let t := fc_run [(FC (bs "b") (bs "k") (bs "v") (-3)%Z, true); (FC (bs "a") (bs "") (bs "w") (4)%Z, true); (FC (bs "") (bs "") (bs "1") (-1)%Z, true); (FC (bs "a") (bs "k") (bs "v") (5)%Z, true); (FC (bs "a") (bs "k ") (bs "v") (0)%Z, true); (FC (bs "b") (bs "k ") (bs "1") (-2)%Z, true)] in
  fc_QueryCache (bs "a") (bs "k") t [((bs "v"), (5)%Z)] /\
  fc_QueryCache (bs "a") (bs "K") t [] /\
  fc_QueryCache (bs "a") (bs "k ") t [((bs "v"), (0)%Z)] /\
  fc_QueryCache (bs "a") (bs "") t [((bs "w"), (4)%Z)] /\
  fc_QueryCache (bs "b") (bs "k") t [((bs "v"), (-3)%Z)] /\
  fc_QueryCache (bs "b") (bs "K") t [] /\
  fc_QueryCache (bs "b") (bs "k ") t [((bs "1"), (-2)%Z)] /\
  fc_QueryCache (bs "b") (bs "") t [] /\
  fc_QueryCache (bs "") (bs "k") t [] /\
  fc_QueryCache (bs "") (bs "K") t [] /\
  fc_QueryCache (bs "") (bs "k ") t [] /\
  fc_QueryCache (bs "") (bs "") t [((bs "1"), (-1)%Z)].
Proof. check. Qed.
Example fetcher_1 : let t := fc_run [(FC (bs "a") (bs "") (bs "v") (0)%Z, true); (FC (bs "") (bs "K") (bs "v") (4)%Z, true); (FC (bs "b") (bs "K") (bs "v") (4)%Z, true); (FC (bs "a") (bs "k ") (bs "1") (-1)%Z, true); (FC (bs "b") (bs "") (bs "1") (2)%Z, true); (FC (bs "a") (bs "k") (bs "1") (1)%Z, true); (FC (bs "b") (bs "") (bs "1") (7)%Z, true); (FC (bs "a") (bs "") (bs "1") (1)%Z, true); (FC (bs "") (bs "k ") (bs "1") (-2)%Z, true); (FC (bs "") (bs "K") (bs "1") (1)%Z, true); (FC (bs "b") (bs "") (bs "1") (-1)%Z, true)] in
  fc_QueryCache (bs "a") (bs "k") t [((bs "1"), (1)%Z)] /\
  fc_QueryCache (bs "a") (bs "K") t [] /\
  fc_QueryCache (bs "a") (bs "k ") t [((bs "1"), (-1)%Z)] /\
  fc_QueryCache (bs "a") (bs "") t [((bs "1"), (1)%Z)] /\
  fc_QueryCache (bs "b") (bs "k") t [] /\
  fc_QueryCache (bs "b") (bs "K") t [((bs "v"), (4)%Z)] /\
  fc_QueryCache (bs "b") (bs "k ") t [] /\
  fc_QueryCache (bs "b") (bs "") t [((bs "1"), (-1)%Z)] /\
  fc_QueryCache (bs "") (bs "k") t [] /\
  fc_QueryCache (bs "") (bs "K") t [((bs "1"), (1)%Z)] /\
  fc_QueryCache (bs "") (bs "k ") t [((bs "1"), (-2)%Z)] /\
  fc_QueryCache (bs "") (bs "") t [].
Proof. check. Qed.
Example fetcher_2 : let t := fc_run [(FC (bs "a") (bs "k") (bs "1") (6)%Z, true); (FC (bs "a") (bs "") (bs "w") (3)%Z, true); (FC (bs "") (bs "k") (bs "w") (3)%Z, true); (FC (bs "a") (bs "K") (bs "v") (2)%Z, true); (FC (bs "a") (bs "k") (bs "w") (1)%Z, true); (FC (bs "") (bs "") (bs "w") (8)%Z, true); (FC (bs "") (bs "K") (bs "v") (4)%Z, true); (FC (bs "a") (bs "k") (bs "1") (-3)%Z, true); (FC (bs "b") (bs "k") (bs "v") (-1)%Z, true); (FC (bs "a") (bs "") (bs "1") (-1)%Z, true); (FC (bs "b") (bs "") (bs "w") (8)%Z, true)] in
  fc_QueryCache (bs "a") (bs "k") t [((bs "1"), (-3)%Z)] /\
  fc_QueryCache (bs "a") (bs "K") t [((bs "v"), (2)%Z)] /\
  fc_QueryCache (bs "a") (bs "k ") t [] /\
  fc_QueryCache (bs "a") (bs "") t [((bs "1"), (-1)%Z)] /\
  fc_QueryCache (bs "b") (bs "k") t [((bs "v"), (-1)%Z)] /\
  fc_QueryCache (bs "b") (bs "K") t [] /\
  fc_QueryCache (bs "b") (bs "k ") t [] /\
  fc_QueryCache (bs "b") (bs "") t [((bs "w"), (8)%Z)] /\
  fc_QueryCache (bs "") (bs "k") t [((bs "w"), (3)%Z)] /\
  fc_QueryCache (bs "") (bs "K") t [((bs "v"), (4)%Z)] /\
  fc_QueryCache (bs "") (bs "k ") t [] /\
  fc_QueryCache (bs "") (bs "") t [((bs "w"), (8)%Z)].
Proof. check. Qed.
Example fetcher_3 : let t := fc_run [(FC (bs "a") (bs "k ") (bs "1") (3)%Z, true); (FC (bs "") (bs "k") (bs "w") (6)%Z, true); (FC (bs "") (bs "") (bs "v") (8)%Z, true); (FC (bs "b") (bs "K") (bs "v") (-1)%Z, true); (FC (bs "a") (bs "") (bs "w") (8)%Z, true); (FC (bs "") (bs "") (bs "1") (7)%Z, true); (FC (bs "b") (bs "k") (bs "v") (2)%Z, true)] in
  fc_QueryCache (bs "a") (bs "k") t [] /\
  fc_QueryCache (bs "a") (bs "K") t [] /\
  fc_QueryCache (bs "a") (bs "k ") t [((bs "1"), (3)%Z)] /\
  fc_QueryCache (bs "a") (bs "") t [((bs "w"), (8)%Z)] /\
  fc_QueryCache (bs "b") (bs "k") t [((bs "v"), (2)%Z)] /\
  fc_QueryCache (bs "b") (bs "K") t [((bs "v"), (-1)%Z)] /\
  fc_QueryCache (bs "b") (bs "k ") t [] /\
  fc_QueryCache (bs "b") (bs "") t [] /\
  fc_QueryCache (bs "") (bs "k") t [((bs "w"), (6)%Z)] /\
  fc_QueryCache (bs "") (bs "K") t [] /\
  fc_QueryCache (bs "") (bs "k ") t [] /\
  fc_QueryCache (bs "") (bs "") t [((bs "1"), (7)%Z)].
Proof. check. Qed.
Example fetcher_4 : let t := fc_run [(FC (bs "") (bs "K") (bs "w") (1)%Z, true); (FC (bs "b") (bs "K") (bs "w") (1)%Z, true); (FC (bs "") (bs "k ") (bs "1") (7)%Z, true); (FC (bs "a") (bs "k") (bs "w") (7)%Z, true); (FC (bs "a") (bs "K") (bs "w") (0)%Z, true); (FC (bs "") (bs "K") (bs "1") (0)%Z, true); (FC (bs "a") (bs "") (bs "1") (5)%Z, true); (FC (bs "b") (bs "") (bs "1") (0)%Z, true); (FC (bs "") (bs "") (bs "w") (1)%Z, true); (FC (bs "") (bs "K") (bs "v") (1)%Z, true); (FC (bs "a") (bs "") (bs "1") (6)%Z, true)] in
  fc_QueryCache (bs "a") (bs "k") t [((bs "w"), (7)%Z)] /\
  fc_QueryCache (bs "a") (bs "K") t [((bs "w"), (0)%Z)] /\
  fc_QueryCache (bs "a") (bs "k ") t [] /\
  fc_QueryCache (bs "a") (bs "") t [((bs "1"), (6)%Z)] /\
  fc_QueryCache (bs "b") (bs "k") t [] /\
  fc_QueryCache (bs "b") (bs "K") t [((bs "w"), (1)%Z)] /\
  fc_QueryCache (bs "b") (bs "k ") t [] /\
  fc_QueryCache (bs "b") (bs "") t [((bs "1"), (0)%Z)] /\
  fc_QueryCache (bs "") (bs "k") t [] /\
  fc_QueryCache (bs "") (bs "K") t [((bs "v"), (1)%Z)] /\
  fc_QueryCache (bs "") (bs "k ") t [((bs "1"), (7)%Z)] /\
  fc_QueryCache (bs "") (bs "") t [((bs "w"), (1)%Z)].
Proof. check. Qed.
Example fetcher_5 : let t := fc_run [(FC (bs "") (bs "k ") (bs "v") (2)%Z, true); (FC (bs "b") (bs "K") (bs "1") (3)%Z, true); (FC (bs "a") (bs "") (bs "v") (7)%Z, true); (FC (bs "a") (bs "k ") (bs "w") (-2)%Z, true); (FC (bs "a") (bs "K") (bs "v") (6)%Z, true); (FC (bs "b") (bs "") (bs "1") (3)%Z, true); (FC (bs "a") (bs "k") (bs "v") (-3)%Z, true); (FC (bs "") (bs "K") (bs "v") (-2)%Z, true)] in
  fc_QueryCache (bs "a") (bs "k") t [((bs "v"), (-3)%Z)] /\
  fc_QueryCache (bs "a") (bs "K") t [((bs "v"), (6)%Z)] /\
  fc_QueryCache (bs "a") (bs "k ") t [((bs "w"), (-2)%Z)] /\
  fc_QueryCache (bs "a") (bs "") t [((bs "v"), (7)%Z)] /\
  fc_QueryCache (bs "b") (bs "k") t [] /\
  fc_QueryCache (bs "b") (bs "K") t [((bs "1"), (3)%Z)] /\
  fc_QueryCache (bs "b") (bs "k ") t [] /\
  fc_QueryCache (bs "b") (bs "") t [((bs "1"), (3)%Z)] /\
  fc_QueryCache (bs "") (bs "k") t [] /\
  fc_QueryCache (bs "") (bs "K") t [((bs "v"), (-2)%Z)] /\
  fc_QueryCache (bs "") (bs "k ") t [((bs "v"), (2)%Z)] /\
  fc_QueryCache (bs "") (bs "") t [].
Proof. check. Qed.
Example fetcher_6 : let t := fc_run [(FC (bs "b") (bs "k") (bs "v") (-1)%Z, true); (FC (bs "b") (bs "k") (bs "v") (-1)%Z, true); (FC (bs "") (bs "") (bs "1") (1)%Z, true); (FC (bs "a") (bs "") (bs "1") (-1)%Z, true); (FC (bs "") (bs "K") (bs "v") (2)%Z, true); (FC (bs "") (bs "k ") (bs "w") (7)%Z, true); (FC (bs "") (bs "k") (bs "v") (-2)%Z, true); (FC (bs "") (bs "k ") (bs "1") (-2)%Z, true); (FC (bs "a") (bs "k") (bs "w") (1)%Z, true); (FC (bs "b") (bs "k") (bs "v") (1)%Z, true); (FC (bs "a") (bs "k") (bs "w") (5)%Z, true)] in
  fc_QueryCache (bs "a") (bs "k") t [((bs "w"), (5)%Z)] /\
  fc_QueryCache (bs "a") (bs "K") t [] /\
  fc_QueryCache (bs "a") (bs "k ") t [] /\
  fc_QueryCache (bs "a") (bs "") t [((bs "1"), (-1)%Z)] /\
  fc_QueryCache (bs "b") (bs "k") t [((bs "v"), (1)%Z)] /\
  fc_QueryCache (bs "b") (bs "K") t [] /\
  fc_QueryCache (bs "b") (bs "k ") t [] /\
  fc_QueryCache (bs "b") (bs "") t [] /\
  fc_QueryCache (bs "") (bs "k") t [((bs "v"), (-2)%Z)] /\
  fc_QueryCache (bs "") (bs "K") t [((bs "v"), (2)%Z)] /\
  fc_QueryCache (bs "") (bs "k ") t [((bs "1"), (-2)%Z)] /\
  fc_QueryCache (bs "") (bs "") t [((bs "1"), (1)%Z)].
Proof. check. Qed.
Example fetcher_7 : let t := fc_run [(FC (bs "b") (bs "k") (bs "v") (-1)%Z, true); (FC (bs "b") (bs "") (bs "w") (5)%Z, true); (FC (bs "a") (bs "") (bs "v") (4)%Z, true); (FC (bs "a") (bs "k") (bs "v") (1)%Z, true); (FC (bs "a") (bs "k") (bs "v") (5)%Z, true)] in
  fc_QueryCache (bs "a") (bs "k") t [((bs "v"), (5)%Z)] /\
  fc_QueryCache (bs "a") (bs "K") t [] /\
  fc_QueryCache (bs "a") (bs "k ") t [] /\
  fc_QueryCache (bs "a") (bs "") t [((bs "v"), (4)%Z)] /\
  fc_QueryCache (bs "b") (bs "k") t [((bs "v"), (-1)%Z)] /\
  fc_QueryCache (bs "b") (bs "K") t [] /\
  fc_QueryCache (bs "b") (bs "k ") t [] /\
  fc_QueryCache (bs "b") (bs "") t [((bs "w"), (5)%Z)] /\
  fc_QueryCache (bs "") (bs "k") t [] /\
  fc_QueryCache (bs "") (bs "K") t [] /\
  fc_QueryCache (bs "") (bs "k ") t [] /\
  fc_QueryCache (bs "") (bs "") t [].
Proof. check. Qed.
Example fetcher_8 : let t := fc_run [(FC (bs "a") (bs "k ") (bs "1") (6)%Z, true); (FC (bs "b") (bs "") (bs "1") (-2)%Z, true); (FC (bs "b") (bs "k ") (bs "1") (0)%Z, true); (FC (bs "") (bs "k") (bs "w") (5)%Z, true); (FC (bs "") (bs "K") (bs "1") (0)%Z, true); (FC (bs "b") (bs "k ") (bs "1") (-3)%Z, true); (FC (bs "a") (bs "K") (bs "w") (-1)%Z, true); (FC (bs "a") (bs "") (bs "v") (-3)%Z, true); (FC (bs "") (bs "K") (bs "1") (8)%Z, true); (FC (bs "a") (bs "K") (bs "1") (-2)%Z, true); (FC (bs "a") (bs "K") (bs "w") (8)%Z, true)] in
  fc_QueryCache (bs "a") (bs "k") t [] /\
  fc_QueryCache (bs "a") (bs "K") t [((bs "w"), (8)%Z)] /\
  fc_QueryCache (bs "a") (bs "k ") t [((bs "1"), (6)%Z)] /\
  fc_QueryCache (bs "a") (bs "") t [((bs "v"), (-3)%Z)] /\
  fc_QueryCache (bs "b") (bs "k") t [] /\
  fc_QueryCache (bs "b") (bs "K") t [] /\
  fc_QueryCache (bs "b") (bs "k ") t [((bs "1"), (-3)%Z)] /\
  fc_QueryCache (bs "b") (bs "") t [((bs "1"), (-2)%Z)] /\
  fc_QueryCache (bs "") (bs "k") t [((bs "w"), (5)%Z)] /\
  fc_QueryCache (bs "") (bs "K") t [((bs "1"), (8)%Z)] /\
  fc_QueryCache (bs "") (bs "k ") t [] /\
  fc_QueryCache (bs "") (bs "") t [].
Proof. check. Qed.
Example fetcher_9 : let t := fc_run [(FC (bs "") (bs "k ") (bs "w") (4)%Z, true); (FC (bs "b") (bs "") (bs "1") (-1)%Z, true); (FC (bs "b") (bs "k ") (bs "w") (-2)%Z, true); (FC (bs "") (bs "K") (bs "1") (2)%Z, true); (FC (bs "b") (bs "K") (bs "1") (-1)%Z, true); (FC (bs "b") (bs "K") (bs "v") (0)%Z, true); (FC (bs "b") (bs "k ") (bs "v") (7)%Z, true); (FC (bs "a") (bs "k") (bs "w") (2)%Z, true)] in
  fc_QueryCache (bs "a") (bs "k") t [((bs "w"), (2)%Z)] /\
  fc_QueryCache (bs "a") (bs "K") t [] /\
  fc_QueryCache (bs "a") (bs "k ") t [] /\
  fc_QueryCache (bs "a") (bs "") t [] /\
  fc_QueryCache (bs "b") (bs "k") t [] /\
  fc_QueryCache (bs "b") (bs "K") t [((bs "v"), (0)%Z)] /\
  fc_QueryCache (bs "b") (bs "k ") t [((bs "v"), (7)%Z)] /\
  fc_QueryCache (bs "b") (bs "") t [((bs "1"), (-1)%Z)] /\
  fc_QueryCache (bs "") (bs "k") t [] /\
  fc_QueryCache (bs "") (bs "K") t [((bs "1"), (2)%Z)] /\
  fc_QueryCache (bs "") (bs "k ") t [((bs "w"), (4)%Z)] /\
  fc_QueryCache (bs "") (bs "") t [].
Proof. check. Qed.
Example eval_0 : let t := ec_run [(EInsert (2)%Z (Some (bs "")) (3)%Z None, true); (EInsertC (2)%Z (Some (bs "x")) (2)%Z None None, true); (EInsertC (1)%Z (Some (bs "X")) (0)%Z (Some (bs "7")) (Some (bs "d")), true); (EInsert (1)%Z None (3)%Z None, true); (EInsertC (1)%Z (Some (bs "x")) (0)%Z (Some (bs "")) None, true); (EInsert (-1)%Z (Some (bs "x")) (1)%Z (Some (bs "")), true); (EInsert (-1)%Z None (1)%Z None, true); (EInsert (-1)%Z (Some (bs "")) (2)%Z (Some (bs "")), true); (EInsertC (-1)%Z (Some (bs "y")) (1)%Z (Some (bs "v")) (Some (bs "c")), true); (EInsertC (2)%Z None (3)%Z (Some (bs "v")) None, true); (EInsertC (-1)%Z (Some (bs "X")) (0)%Z (Some (bs "")) (Some (bs "c")), true)] in
  ec_QueryAttributes (1)%Z t [None; (Some (bs "X")); (Some (bs "x"))] /\
  ec_QueryAttribute (1)%Z (Some (bs "x")) t (Ok ((0)%Z, (Some (bs "")), None)) /\
  ec_QueryAttribute (1)%Z (Some (bs "y")) t (Err ErrNoRows) /\
  ec_QueryAttribute (1)%Z (Some (bs "X")) t (Ok ((0)%Z, (Some (bs "7")), (Some (bs "d")))) /\
  ec_QueryAttribute (1)%Z (Some (bs "")) t (Err ErrNoRows) /\
  ec_QueryAttribute (1)%Z None t (Err ErrNoRows) /\
  ec_QueryAttributes (2)%Z t [None; (Some (bs "")); (Some (bs "x"))] /\
  ec_QueryAttribute (2)%Z (Some (bs "x")) t (Ok ((2)%Z, None, None)) /\
  ec_QueryAttribute (2)%Z (Some (bs "y")) t (Err ErrNoRows) /\
  ec_QueryAttribute (2)%Z (Some (bs "X")) t (Err ErrNoRows) /\
  ec_QueryAttribute (2)%Z (Some (bs "")) t (Ok ((3)%Z, None, None)) /\
  ec_QueryAttribute (2)%Z None t (Err ErrNoRows) /\
  ec_QueryAttributes (-1)%Z t [None; (Some (bs "")); (Some (bs "X")); (Some (bs "x")); (Some (bs "y"))] /\
  ec_QueryAttribute (-1)%Z (Some (bs "x")) t (Ok ((1)%Z, (Some (bs "")), None)) /\
  ec_QueryAttribute (-1)%Z (Some (bs "y")) t (Ok ((1)%Z, (Some (bs "v")), (Some (bs "c")))) /\
  ec_QueryAttribute (-1)%Z (Some (bs "X")) t (Ok ((0)%Z, (Some (bs "")), (Some (bs "c")))) /\
  ec_QueryAttribute (-1)%Z (Some (bs "")) t (Ok ((2)%Z, (Some (bs "")), None)) /\
  ec_QueryAttribute (-1)%Z None t (Err ErrNoRows).
Proof. check. Qed.
Example eval_1 : let t := ec_run [(EInsertC (-1)%Z (Some (bs "")) (0)%Z (Some (bs "v")) (Some (bs "d")), true); (EInsert (2)%Z None (0)%Z (Some (bs "v")), true); (EInsert (-1)%Z (Some (bs "X")) (1)%Z (Some (bs "v")), true); (EInsertC (-1)%Z None (2)%Z (Some (bs "v")) (Some (bs "c")), true); (EInsertC (2)%Z None (2)%Z (Some (bs "7")) (Some (bs "c")), true); (EInsert (1)%Z (Some (bs "X")) (0)%Z (Some (bs "")), true); (EInsertC (1)%Z (Some (bs "x")) (3)%Z (Some (bs "v")) None, true); (EInsert (2)%Z (Some (bs "")) (1)%Z None, true); (EInsertC (1)%Z (Some (bs "")) (1)%Z None None, true); (EInsertC (1)%Z None (0)%Z None None, true); (EInsert (-1)%Z (Some (bs "X")) (3)%Z (Some (bs "")), true); (EInsertC (2)%Z (Some (bs "X")) (1)%Z None None, true)] in
  ec_QueryAttributes (1)%Z t [None; (Some (bs "")); (Some (bs "X")); (Some (bs "x"))] /\
  ec_QueryAttribute (1)%Z (Some (bs "x")) t (Ok ((3)%Z, (Some (bs "v")), None)) /\
  ec_QueryAttribute (1)%Z (Some (bs "y")) t (Err ErrNoRows) /\
  ec_QueryAttribute (1)%Z (Some (bs "X")) t (Ok ((0)%Z, (Some (bs "")), None)) /\
  ec_QueryAttribute (1)%Z (Some (bs "")) t (Ok ((1)%Z, None, None)) /\
  ec_QueryAttribute (1)%Z None t (Err ErrNoRows) /\
  ec_QueryAttributes (2)%Z t [None; None; (Some (bs "")); (Some (bs "X"))] /\
  ec_QueryAttribute (2)%Z (Some (bs "x")) t (Err ErrNoRows) /\
  ec_QueryAttribute (2)%Z (Some (bs "y")) t (Err ErrNoRows) /\
  ec_QueryAttribute (2)%Z (Some (bs "X")) t (Ok ((1)%Z, None, None)) /\
  ec_QueryAttribute (2)%Z (Some (bs "")) t (Ok ((1)%Z, None, None)) /\
  ec_QueryAttribute (2)%Z None t (Err ErrNoRows) /\
  ec_QueryAttributes (-1)%Z t [None; (Some (bs "")); (Some (bs "X"))] /\
  ec_QueryAttribute (-1)%Z (Some (bs "x")) t (Err ErrNoRows) /\
  ec_QueryAttribute (-1)%Z (Some (bs "y")) t (Err ErrNoRows) /\
  ec_QueryAttribute (-1)%Z (Some (bs "X")) t (Ok ((3)%Z, (Some (bs "")), None)) /\
  ec_QueryAttribute (-1)%Z (Some (bs "")) t (Ok ((0)%Z, (Some (bs "v")), (Some (bs "d")))) /\
  ec_QueryAttribute (-1)%Z None t (Err ErrNoRows).
Proof. check. Qed.
Example eval_2 : let t := ec_run [(EInsert (-1)%Z None (2)%Z (Some (bs "7")), true); (EInsert (2)%Z (Some (bs "x")) (3)%Z None, true); (EInsert (1)%Z (Some (bs "")) (3)%Z (Some (bs "v")), true); (EInsertC (2)%Z None (3)%Z (Some (bs "7")) None, true); (EInsertC (2)%Z (Some (bs "y")) (3)%Z None (Some (bs "d")), true); (EInsert (2)%Z (Some (bs "x")) (1)%Z None, true); (EInsertC (2)%Z (Some (bs "X")) (1)%Z (Some (bs "v")) None, true)] in
  ec_QueryAttributes (1)%Z t [(Some (bs ""))] /\
  ec_QueryAttribute (1)%Z (Some (bs "x")) t (Err ErrNoRows) /\
  ec_QueryAttribute (1)%Z (Some (bs "y")) t (Err ErrNoRows) /\
  ec_QueryAttribute (1)%Z (Some (bs "X")) t (Err ErrNoRows) /\
  ec_QueryAttribute (1)%Z (Some (bs "")) t (Ok ((3)%Z, (Some (bs "v")), None)) /\
  ec_QueryAttribute (1)%Z None t (Err ErrNoRows) /\
  ec_QueryAttributes (2)%Z t [None; (Some (bs "X")); (Some (bs "x")); (Some (bs "y"))] /\
  ec_QueryAttribute (2)%Z (Some (bs "x")) t (Ok ((1)%Z, None, None)) /\
  ec_QueryAttribute (2)%Z (Some (bs "y")) t (Ok ((3)%Z, None, (Some (bs "d")))) /\
  ec_QueryAttribute (2)%Z (Some (bs "X")) t (Ok ((1)%Z, (Some (bs "v")), None)) /\
  ec_QueryAttribute (2)%Z (Some (bs "")) t (Err ErrNoRows) /\
  ec_QueryAttribute (2)%Z None t (Err ErrNoRows) /\
  ec_QueryAttributes (-1)%Z t [None] /\
  ec_QueryAttribute (-1)%Z (Some (bs "x")) t (Err ErrNoRows) /\
  ec_QueryAttribute (-1)%Z (Some (bs "y")) t (Err ErrNoRows) /\
  ec_QueryAttribute (-1)%Z (Some (bs "X")) t (Err ErrNoRows) /\
  ec_QueryAttribute (-1)%Z (Some (bs "")) t (Err ErrNoRows) /\
  ec_QueryAttribute (-1)%Z None t (Err ErrNoRows).
Proof. check. Qed.
Example eval_3 : let t := ec_run [(EInsertC (2)%Z (Some (bs "x")) (0)%Z (Some (bs "")) None, true); (EInsertC (2)%Z None (0)%Z (Some (bs "")) (Some (bs "c")), true); (EInsert (2)%Z None (3)%Z None, true); (EInsertC (2)%Z (Some (bs "y")) (1)%Z None None, true); (EInsert (-1)%Z (Some (bs "X")) (2)%Z (Some (bs "v")), true); (EInsert (2)%Z None (2)%Z (Some (bs "v")), true); (EInsert (2)%Z (Some (bs "y")) (1)%Z None, true); (EInsertC (-1)%Z (Some (bs "")) (0)%Z None None, true); (EInsert (1)%Z (Some (bs "")) (2)%Z (Some (bs "")), true)] in
  ec_QueryAttributes (1)%Z t [(Some (bs ""))] /\
  ec_QueryAttribute (1)%Z (Some (bs "x")) t (Err ErrNoRows) /\
  ec_QueryAttribute (1)%Z (Some (bs "y")) t (Err ErrNoRows) /\
  ec_QueryAttribute (1)%Z (Some (bs "X")) t (Err ErrNoRows) /\
  ec_QueryAttribute (1)%Z (Some (bs "")) t (Ok ((2)%Z, (Some (bs "")), None)) /\
  ec_QueryAttribute (1)%Z None t (Err ErrNoRows) /\
  ec_QueryAttributes (2)%Z t [None; None; None; (Some (bs "x")); (Some (bs "y"))] /\
  ec_QueryAttribute (2)%Z (Some (bs "x")) t (Ok ((0)%Z, (Some (bs "")), None)) /\
  ec_QueryAttribute (2)%Z (Some (bs "y")) t (Ok ((1)%Z, None, None)) /\
  ec_QueryAttribute (2)%Z (Some (bs "X")) t (Err ErrNoRows) /\
  ec_QueryAttribute (2)%Z (Some (bs "")) t (Err ErrNoRows) /\
  ec_QueryAttribute (2)%Z None t (Err ErrNoRows) /\
  ec_QueryAttributes (-1)%Z t [(Some (bs "")); (Some (bs "X"))] /\
  ec_QueryAttribute (-1)%Z (Some (bs "x")) t (Err ErrNoRows) /\
  ec_QueryAttribute (-1)%Z (Some (bs "y")) t (Err ErrNoRows) /\
  ec_QueryAttribute (-1)%Z (Some (bs "X")) t (Ok ((2)%Z, (Some (bs "v")), None)) /\
  ec_QueryAttribute (-1)%Z (Some (bs "")) t (Ok ((0)%Z, None, None)) /\
  ec_QueryAttribute (-1)%Z None t (Err ErrNoRows).
Proof. check. Qed.
Example eval_4 : let t := ec_run [(EInsert (2)%Z (Some (bs "X")) (3)%Z None, true); (EInsertC (2)%Z (Some (bs "x")) (0)%Z (Some (bs "")) None, true); (EInsertC (-1)%Z (Some (bs "X")) (0)%Z None None, true); (EInsert (-1)%Z (Some (bs "y")) (0)%Z (Some (bs "v")), true); (EInsertC (-1)%Z None (0)%Z None None, true); (EInsertC (1)%Z (Some (bs "X")) (2)%Z None None, true); (EInsertC (-1)%Z (Some (bs "")) (2)%Z (Some (bs "7")) (Some (bs "c")), true); (EInsertC (-1)%Z (Some (bs "")) (3)%Z None None, true); (EInsertC (2)%Z (Some (bs "")) (1)%Z None None, true); (EInsert (-1)%Z (Some (bs "x")) (2)%Z (Some (bs "")), true); (EInsertC (2)%Z (Some (bs "")) (3)%Z (Some (bs "")) (Some (bs "d")), true)] in
  ec_QueryAttributes (1)%Z t [(Some (bs "X"))] /\
  ec_QueryAttribute (1)%Z (Some (bs "x")) t (Err ErrNoRows) /\
  ec_QueryAttribute (1)%Z (Some (bs "y")) t (Err ErrNoRows) /\
  ec_QueryAttribute (1)%Z (Some (bs "X")) t (Ok ((2)%Z, None, None)) /\
  ec_QueryAttribute (1)%Z (Some (bs "")) t (Err ErrNoRows) /\
  ec_QueryAttribute (1)%Z None t (Err ErrNoRows) /\
  ec_QueryAttributes (2)%Z t [(Some (bs "")); (Some (bs "X")); (Some (bs "x"))] /\
  ec_QueryAttribute (2)%Z (Some (bs "x")) t (Ok ((0)%Z, (Some (bs "")), None)) /\
  ec_QueryAttribute (2)%Z (Some (bs "y")) t (Err ErrNoRows) /\
  ec_QueryAttribute (2)%Z (Some (bs "X")) t (Ok ((3)%Z, None, None)) /\
  ec_QueryAttribute (2)%Z (Some (bs "")) t (Ok ((3)%Z, (Some (bs "")), (Some (bs "d")))) /\
  ec_QueryAttribute (2)%Z None t (Err ErrNoRows) /\
  ec_QueryAttributes (-1)%Z t [None; (Some (bs "")); (Some (bs "X")); (Some (bs "x")); (Some (bs "y"))] /\
  ec_QueryAttribute (-1)%Z (Some (bs "x")) t (Ok ((2)%Z, (Some (bs "")), None)) /\
  ec_QueryAttribute (-1)%Z (Some (bs "y")) t (Ok ((0)%Z, (Some (bs "v")), None)) /\
  ec_QueryAttribute (-1)%Z (Some (bs "X")) t (Ok ((0)%Z, None, None)) /\
  ec_QueryAttribute (-1)%Z (Some (bs "")) t (Ok ((3)%Z, None, None)) /\
  ec_QueryAttribute (-1)%Z None t (Err ErrNoRows).
Proof. check. Qed.
Example eval_5 : let t := ec_run [(EInsertC (-1)%Z (Some (bs "x")) (3)%Z (Some (bs "7")) (Some (bs "c")), true); (EInsertC (-1)%Z (Some (bs "y")) (1)%Z (Some (bs "v")) (Some (bs "d")), true); (EInsertC (2)%Z (Some (bs "X")) (2)%Z (Some (bs "")) None, true); (EInsert (1)%Z (Some (bs "X")) (3)%Z (Some (bs "")), true); (EInsertC (1)%Z (Some (bs "x")) (2)%Z (Some (bs "")) None, true)] in
  ec_QueryAttributes (1)%Z t [(Some (bs "X")); (Some (bs "x"))] /\
  ec_QueryAttribute (1)%Z (Some (bs "x")) t (Ok ((2)%Z, (Some (bs "")), None)) /\
  ec_QueryAttribute (1)%Z (Some (bs "y")) t (Err ErrNoRows) /\
  ec_QueryAttribute (1)%Z (Some (bs "X")) t (Ok ((3)%Z, (Some (bs "")), None)) /\
  ec_QueryAttribute (1)%Z (Some (bs "")) t (Err ErrNoRows) /\
  ec_QueryAttribute (1)%Z None t (Err ErrNoRows) /\
  ec_QueryAttributes (2)%Z t [(Some (bs "X"))] /\
  ec_QueryAttribute (2)%Z (Some (bs "x")) t (Err ErrNoRows) /\
  ec_QueryAttribute (2)%Z (Some (bs "y")) t (Err ErrNoRows) /\
  ec_QueryAttribute (2)%Z (Some (bs "X")) t (Ok ((2)%Z, (Some (bs "")), None)) /\
  ec_QueryAttribute (2)%Z (Some (bs "")) t (Err ErrNoRows) /\
  ec_QueryAttribute (2)%Z None t (Err ErrNoRows) /\
  ec_QueryAttributes (-1)%Z t [(Some (bs "x")); (Some (bs "y"))] /\
  ec_QueryAttribute (-1)%Z (Some (bs "x")) t (Ok ((3)%Z, (Some (bs "7")), (Some (bs "c")))) /\
  ec_QueryAttribute (-1)%Z (Some (bs "y")) t (Ok ((1)%Z, (Some (bs "v")), (Some (bs "d")))) /\
  ec_QueryAttribute (-1)%Z (Some (bs "X")) t (Err ErrNoRows) /\
  ec_QueryAttribute (-1)%Z (Some (bs "")) t (Err ErrNoRows) /\
  ec_QueryAttribute (-1)%Z None t (Err ErrNoRows).
Proof. check. Qed.
Example eval_6 : let t := ec_run [(EInsertC (-1)%Z None (2)%Z (Some (bs "7")) (Some (bs "c")), true); (EInsert (-1)%Z (Some (bs "x")) (3)%Z (Some (bs "7")), true); (EInsertC (1)%Z (Some (bs "y")) (2)%Z (Some (bs "v")) None, true); (EInsert (2)%Z None (0)%Z (Some (bs "7")), true); (EInsertC (-1)%Z (Some (bs "X")) (1)%Z (Some (bs "v")) (Some (bs "c")), true); (EInsertC (2)%Z (Some (bs "x")) (0)%Z (Some (bs "v")) (Some (bs "d")), true); (EInsertC (-1)%Z (Some (bs "y")) (0)%Z (Some (bs "7")) (Some (bs "c")), true); (EInsert (2)%Z (Some (bs "x")) (3)%Z (Some (bs "7")), true); (EInsertC (1)%Z (Some (bs "y")) (0)%Z (Some (bs "v")) None, true); (EInsert (1)%Z None (2)%Z None, true); (EInsert (-1)%Z (Some (bs "y")) (2)%Z (Some (bs "7")), true); (EInsert (2)%Z None (2)%Z None, true)] in
  ec_QueryAttributes (1)%Z t [None; (Some (bs "y"))] /\
  ec_QueryAttribute (1)%Z (Some (bs "x")) t (Err ErrNoRows) /\
  ec_QueryAttribute (1)%Z (Some (bs "y")) t (Ok ((0)%Z, (Some (bs "v")), None)) /\
  ec_QueryAttribute (1)%Z (Some (bs "X")) t (Err ErrNoRows) /\
  ec_QueryAttribute (1)%Z (Some (bs "")) t (Err ErrNoRows) /\
  ec_QueryAttribute (1)%Z None t (Err ErrNoRows) /\
  ec_QueryAttributes (2)%Z t [None; None; (Some (bs "x"))] /\
  ec_QueryAttribute (2)%Z (Some (bs "x")) t (Ok ((3)%Z, (Some (bs "7")), None)) /\
  ec_QueryAttribute (2)%Z (Some (bs "y")) t (Err ErrNoRows) /\
  ec_QueryAttribute (2)%Z (Some (bs "X")) t (Err ErrNoRows) /\
  ec_QueryAttribute (2)%Z (Some (bs "")) t (Err ErrNoRows) /\
  ec_QueryAttribute (2)%Z None t (Err ErrNoRows) /\
  ec_QueryAttributes (-1)%Z t [None; (Some (bs "X")); (Some (bs "x")); (Some (bs "y"))] /\
  ec_QueryAttribute (-1)%Z (Some (bs "x")) t (Ok ((3)%Z, (Some (bs "7")), None)) /\
  ec_QueryAttribute (-1)%Z (Some (bs "y")) t (Ok ((2)%Z, (Some (bs "7")), None)) /\
  ec_QueryAttribute (-1)%Z (Some (bs "X")) t (Ok ((1)%Z, (Some (bs "v")), (Some (bs "c")))) /\
  ec_QueryAttribute (-1)%Z (Some (bs "")) t (Err ErrNoRows) /\
  ec_QueryAttribute (-1)%Z None t (Err ErrNoRows).
Proof. check. Qed.
Example eval_7 : let t := ec_run [(EInsert (1)%Z None (3)%Z (Some (bs "v")), true); (EInsert (-1)%Z (Some (bs "X")) (1)%Z None, true); (EInsertC (-1)%Z None (1)%Z (Some (bs "v")) None, true); (EInsertC (-1)%Z (Some (bs "")) (2)%Z (Some (bs "")) (Some (bs "c")), true); (EInsertC (1)%Z (Some (bs "X")) (3)%Z (Some (bs "")) None, true); (EInsert (2)%Z (Some (bs "x")) (2)%Z (Some (bs "v")), true); (EInsert (1)%Z (Some (bs "X")) (2)%Z (Some (bs "v")), true); (EInsert (1)%Z None (1)%Z None, true); (EInsert (1)%Z (Some (bs "")) (0)%Z None, true)] in
  ec_QueryAttributes (1)%Z t [None; None; (Some (bs "")); (Some (bs "X"))] /\
  ec_QueryAttribute (1)%Z (Some (bs "x")) t (Err ErrNoRows) /\
  ec_QueryAttribute (1)%Z (Some (bs "y")) t (Err ErrNoRows) /\
  ec_QueryAttribute (1)%Z (Some (bs "X")) t (Ok ((2)%Z, (Some (bs "v")), None)) /\
  ec_QueryAttribute (1)%Z (Some (bs "")) t (Ok ((0)%Z, None, None)) /\
  ec_QueryAttribute (1)%Z None t (Err ErrNoRows) /\
  ec_QueryAttributes (2)%Z t [(Some (bs "x"))] /\
  ec_QueryAttribute (2)%Z (Some (bs "x")) t (Ok ((2)%Z, (Some (bs "v")), None)) /\
  ec_QueryAttribute (2)%Z (Some (bs "y")) t (Err ErrNoRows) /\
  ec_QueryAttribute (2)%Z (Some (bs "X")) t (Err ErrNoRows) /\
  ec_QueryAttribute (2)%Z (Some (bs "")) t (Err ErrNoRows) /\
  ec_QueryAttribute (2)%Z None t (Err ErrNoRows) /\
  ec_QueryAttributes (-1)%Z t [None; (Some (bs "")); (Some (bs "X"))] /\
  ec_QueryAttribute (-1)%Z (Some (bs "x")) t (Err ErrNoRows) /\
  ec_QueryAttribute (-1)%Z (Some (bs "y")) t (Err ErrNoRows) /\
  ec_QueryAttribute (-1)%Z (Some (bs "X")) t (Ok ((1)%Z, None, None)) /\
  ec_QueryAttribute (-1)%Z (Some (bs "")) t (Ok ((2)%Z, (Some (bs "")), (Some (bs "c")))) /\
  ec_QueryAttribute (-1)%Z None t (Err ErrNoRows).
Proof. check. Qed.
Example eval_8 : let t := ec_run [(EInsert (2)%Z (Some (bs "X")) (1)%Z (Some (bs "")), true); (EInsertC (1)%Z (Some (bs "y")) (2)%Z (Some (bs "v")) None, true); (EInsertC (1)%Z None (2)%Z (Some (bs "7")) (Some (bs "c")), true); (EInsert (-1)%Z (Some (bs "y")) (3)%Z (Some (bs "")), true); (EInsertC (1)%Z None (1)%Z (Some (bs "")) None, true); (EInsertC (-1)%Z (Some (bs "X")) (2)%Z None None, true); (EInsert (-1)%Z (Some (bs "y")) (2)%Z (Some (bs "v")), true); (EInsertC (2)%Z None (3)%Z (Some (bs "")) (Some (bs "d")), true); (EInsert (2)%Z (Some (bs "")) (3)%Z (Some (bs "")), true)] in
  ec_QueryAttributes (1)%Z t [None; None; (Some (bs "y"))] /\
  ec_QueryAttribute (1)%Z (Some (bs "x")) t (Err ErrNoRows) /\
  ec_QueryAttribute (1)%Z (Some (bs "y")) t (Ok ((2)%Z, (Some (bs "v")), None)) /\
  ec_QueryAttribute (1)%Z (Some (bs "X")) t (Err ErrNoRows) /\
  ec_QueryAttribute (1)%Z (Some (bs "")) t (Err ErrNoRows) /\
  ec_QueryAttribute (1)%Z None t (Err ErrNoRows) /\
  ec_QueryAttributes (2)%Z t [None; (Some (bs "")); (Some (bs "X"))] /\
  ec_QueryAttribute (2)%Z (Some (bs "x")) t (Err ErrNoRows) /\
  ec_QueryAttribute (2)%Z (Some (bs "y")) t (Err ErrNoRows) /\
  ec_QueryAttribute (2)%Z (Some (bs "X")) t (Ok ((1)%Z, (Some (bs "")), None)) /\
  ec_QueryAttribute (2)%Z (Some (bs "")) t (Ok ((3)%Z, (Some (bs "")), None)) /\
  ec_QueryAttribute (2)%Z None t (Err ErrNoRows) /\
  ec_QueryAttributes (-1)%Z t [(Some (bs "X")); (Some (bs "y"))] /\
  ec_QueryAttribute (-1)%Z (Some (bs "x")) t (Err ErrNoRows) /\
  ec_QueryAttribute (-1)%Z (Some (bs "y")) t (Ok ((2)%Z, (Some (bs "v")), None)) /\
  ec_QueryAttribute (-1)%Z (Some (bs "X")) t (Ok ((2)%Z, None, None)) /\
  ec_QueryAttribute (-1)%Z (Some (bs "")) t (Err ErrNoRows) /\
  ec_QueryAttribute (-1)%Z None t (Err ErrNoRows).
Proof. check. Qed.
Example eval_9 : let t := ec_run [(EInsertC (-1)%Z (Some (bs "")) (2)%Z (Some (bs "")) None, true); (EInsertC (1)%Z (Some (bs "")) (1)%Z (Some (bs "")) None, true); (EInsert (1)%Z None (1)%Z None, true); (EInsert (-1)%Z (Some (bs "y")) (2)%Z None, true)] in
  ec_QueryAttributes (1)%Z t [None; (Some (bs ""))] /\
  ec_QueryAttribute (1)%Z (Some (bs "x")) t (Err ErrNoRows) /\
  ec_QueryAttribute (1)%Z (Some (bs "y")) t (Err ErrNoRows) /\
  ec_QueryAttribute (1)%Z (Some (bs "X")) t (Err ErrNoRows) /\
  ec_QueryAttribute (1)%Z (Some (bs "")) t (Ok ((1)%Z, (Some (bs "")), None)) /\
  ec_QueryAttribute (1)%Z None t (Err ErrNoRows) /\
  ec_QueryAttributes (2)%Z t [] /\
  ec_QueryAttribute (2)%Z (Some (bs "x")) t (Err ErrNoRows) /\
  ec_QueryAttribute (2)%Z (Some (bs "y")) t (Err ErrNoRows) /\
  ec_QueryAttribute (2)%Z (Some (bs "X")) t (Err ErrNoRows) /\
  ec_QueryAttribute (2)%Z (Some (bs "")) t (Err ErrNoRows) /\
  ec_QueryAttribute (2)%Z None t (Err ErrNoRows) /\
  ec_QueryAttributes (-1)%Z t [(Some (bs "")); (Some (bs "y"))] /\
  ec_QueryAttribute (-1)%Z (Some (bs "x")) t (Err ErrNoRows) /\
  ec_QueryAttribute (-1)%Z (Some (bs "y")) t (Ok ((2)%Z, None, None)) /\
  ec_QueryAttribute (-1)%Z (Some (bs "X")) t (Err ErrNoRows) /\
  ec_QueryAttribute (-1)%Z (Some (bs "")) t (Ok ((2)%Z, (Some (bs "")), None)) /\
  ec_QueryAttribute (-1)%Z None t (Err ErrNoRows).
Proof. check. Qed.
Example eval_10 : let t := ec_run [(EInsert (1)%Z (Some (bs "y")) (1)%Z (Some (bs "7")), true); (EInsertC (2)%Z None (3)%Z None (Some (bs "d")), true); (EInsert (2)%Z (Some (bs "y")) (3)%Z (Some (bs "v")), true); (EInsert (1)%Z (Some (bs "")) (2)%Z (Some (bs "")), true); (EInsertC (-1)%Z (Some (bs "y")) (1)%Z None None, true); (EInsertC (-1)%Z None (1)%Z (Some (bs "v")) (Some (bs "d")), true); (EInsertC (-1)%Z (Some (bs "X")) (2)%Z (Some (bs "")) None, true); (EInsertC (1)%Z (Some (bs "x")) (0)%Z None None, true); (EInsertC (-1)%Z (Some (bs "y")) (1)%Z (Some (bs "")) (Some (bs "c")), true); (EInsert (1)%Z (Some (bs "X")) (3)%Z (Some (bs "v")), true); (EInsertC (2)%Z (Some (bs "X")) (3)%Z (Some (bs "")) None, true); (EInsertC (1)%Z (Some (bs "x")) (1)%Z None (Some (bs "d")), true); (EInsert (2)%Z (Some (bs "x")) (0)%Z (Some (bs "")), true)] in
  ec_QueryAttributes (1)%Z t [(Some (bs "")); (Some (bs "X")); (Some (bs "x")); (Some (bs "y"))] /\
  ec_QueryAttribute (1)%Z (Some (bs "x")) t (Ok ((1)%Z, None, (Some (bs "d")))) /\
  ec_QueryAttribute (1)%Z (Some (bs "y")) t (Ok ((1)%Z, (Some (bs "7")), None)) /\
  ec_QueryAttribute (1)%Z (Some (bs "X")) t (Ok ((3)%Z, (Some (bs "v")), None)) /\
  ec_QueryAttribute (1)%Z (Some (bs "")) t (Ok ((2)%Z, (Some (bs "")), None)) /\
  ec_QueryAttribute (1)%Z None t (Err ErrNoRows) /\
  ec_QueryAttributes (2)%Z t [None; (Some (bs "X")); (Some (bs "x")); (Some (bs "y"))] /\
  ec_QueryAttribute (2)%Z (Some (bs "x")) t (Ok ((0)%Z, (Some (bs "")), None)) /\
  ec_QueryAttribute (2)%Z (Some (bs "y")) t (Ok ((3)%Z, (Some (bs "v")), None)) /\
  ec_QueryAttribute (2)%Z (Some (bs "X")) t (Ok ((3)%Z, (Some (bs "")), None)) /\
  ec_QueryAttribute (2)%Z (Some (bs "")) t (Err ErrNoRows) /\
  ec_QueryAttribute (2)%Z None t (Err ErrNoRows) /\
  ec_QueryAttributes (-1)%Z t [None; (Some (bs "X")); (Some (bs "y"))] /\
  ec_QueryAttribute (-1)%Z (Some (bs "x")) t (Err ErrNoRows) /\
  ec_QueryAttribute (-1)%Z (Some (bs "y")) t (Ok ((1)%Z, (Some (bs "")), (Some (bs "c")))) /\
  ec_QueryAttribute (-1)%Z (Some (bs "X")) t (Ok ((2)%Z, (Some (bs "")), None)) /\
  ec_QueryAttribute (-1)%Z (Some (bs "")) t (Err ErrNoRows) /\
  ec_QueryAttribute (-1)%Z None t (Err ErrNoRows).
Proof. check. Qed.
Example eval_11 : let t := ec_run [(EInsertC (1)%Z (Some (bs "")) (3)%Z (Some (bs "")) None, true); (EInsertC (1)%Z None (2)%Z None (Some (bs "c")), true); (EInsert (-1)%Z (Some (bs "y")) (1)%Z None, true); (EInsert (2)%Z (Some (bs "x")) (0)%Z (Some (bs "7")), true); (EInsertC (-1)%Z None (1)%Z (Some (bs "7")) (Some (bs "d")), true)] in
  ec_QueryAttributes (1)%Z t [None; (Some (bs ""))] /\
  ec_QueryAttribute (1)%Z (Some (bs "x")) t (Err ErrNoRows) /\
  ec_QueryAttribute (1)%Z (Some (bs "y")) t (Err ErrNoRows) /\
  ec_QueryAttribute (1)%Z (Some (bs "X")) t (Err ErrNoRows) /\
  ec_QueryAttribute (1)%Z (Some (bs "")) t (Ok ((3)%Z, (Some (bs "")), None)) /\
  ec_QueryAttribute (1)%Z None t (Err ErrNoRows) /\
  ec_QueryAttributes (2)%Z t [(Some (bs "x"))] /\
  ec_QueryAttribute (2)%Z (Some (bs "x")) t (Ok ((0)%Z, (Some (bs "7")), None)) /\
  ec_QueryAttribute (2)%Z (Some (bs "y")) t (Err ErrNoRows) /\
  ec_QueryAttribute (2)%Z (Some (bs "X")) t (Err ErrNoRows) /\
  ec_QueryAttribute (2)%Z (Some (bs "")) t (Err ErrNoRows) /\
  ec_QueryAttribute (2)%Z None t (Err ErrNoRows) /\
  ec_QueryAttributes (-1)%Z t [None; (Some (bs "y"))] /\
  ec_QueryAttribute (-1)%Z (Some (bs "x")) t (Err ErrNoRows) /\
  ec_QueryAttribute (-1)%Z (Some (bs "y")) t (Ok ((1)%Z, None, None)) /\
  ec_QueryAttribute (-1)%Z (Some (bs "X")) t (Err ErrNoRows) /\
  ec_QueryAttribute (-1)%Z (Some (bs "")) t (Err ErrNoRows) /\
  ec_QueryAttribute (-1)%Z None t (Err ErrNoRows).
Proof. check. Qed.
Example binary_0 : let s := bc_run true [(BUpdatePurge (Some (3)%Z), true); (BInsertMissing (1)%Z (bs "h2") (5)%Z, true); (BPurge (0)%Z (1)%Z, true); (BInsertCache (bs "http://v") (8)%Z (bs "/s") (0)%Z (15)%Z 0, true); (BInsertMissing (1)%Z (bs "h1") (4)%Z, true); (BInsertCache (bs "http://u") (3)%Z (bs "/nix/store") (1)%Z (31)%Z 0, true); (BInsertNar (2)%Z (bs "h2") (NI (Some (bs "")) None None (Some (bs "b")) None (Some (bs "b")) (Some (1)%Z) None None (Some (bs "b")) (Some (bs ""))) (3)%Z, true); (BInsertNar (2)%Z (bs "h1") (NI None (Some (bs "a")) None (Some (bs "")) (Some (1)%Z) (Some (bs "b")) None (Some (bs "a")) None (Some (bs "")) None) (2)%Z, true); (BInsertReal (1)%Z (bs "o") (Some (bs "{}")) (2)%Z, true); (BInsertNar (2)%Z (bs "h1") (NI (Some (bs "")) (Some (bs "")) None (Some (bs "a")) (Some (-2)%Z) (Some (bs "b")) (Some (2)%Z) (Some (bs "b")) (Some (bs "")) (Some (bs "a")) (Some (bs ""))) (5)%Z, true); (BInsertCache (bs "") (8)%Z (bs "/s") (0)%Z (8)%Z 0, true); (BInsertNar (2)%Z (bs "H1") (NI None None (Some (bs "b")) (Some (bs "b")) (Some (0)%Z) (Some (bs "")) None (Some (bs "")) (Some (bs "b")) None None) (2)%Z, true); (BUpdatePurge (Some (5)%Z), true); (BInsertMissingReal (2)%Z (bs "o") (6)%Z, true); (BInsertReal (3)%Z (bs "p") None (2)%Z, true); (BInsertReal (3)%Z (bs "o") (Some (bs "{}")) (3)%Z, true); (BPurge (3)%Z (1)%Z, true)] in let d := snd s in
  map snd (fst s) = [Ok 0%Z; Err ErrConstraint; Ok 0%Z; Ok (1)%Z; Ok 0%Z; Ok (2)%Z; Ok 0%Z; Ok 0%Z; Ok 0%Z; Ok 0%Z; Ok (3)%Z; Ok 0%Z; Ok 0%Z; Ok 0%Z; Ok 0%Z; Ok 0%Z; Ok 0%Z] /\
  bc_QueryCache (bs "http://u") (0)%Z d [((2)%Z, (bs "/nix/store"), (1)%Z, (31)%Z)] /\
  bc_QueryCache (bs "http://u") (4)%Z d [] /\
  bc_QueryCache (bs "http://v") (0)%Z d [((1)%Z, (bs "/s"), (0)%Z, (15)%Z)] /\
  bc_QueryCache (bs "http://v") (4)%Z d [((1)%Z, (bs "/s"), (0)%Z, (15)%Z)] /\
  bc_QueryCache (bs "") (0)%Z d [((3)%Z, (bs "/s"), (0)%Z, (8)%Z)] /\
  bc_QueryCache (bs "") (4)%Z d [((3)%Z, (bs "/s"), (0)%Z, (8)%Z)] /\
  bc_QueryNar (1)%Z (bs "h1") (3)%Z (-1)%Z d [((0)%Z, (NI None None None None None None None None None None None))] /\
  bc_QueryNar (1)%Z (bs "h2") (4)%Z (4)%Z d [] /\
  bc_QueryNar (1)%Z (bs "H1") (5)%Z (2)%Z d [] /\
  bc_QueryRealisation (1)%Z (bs "o") (-1)%Z (0)%Z d [(Some (bs "{}"))] /\
  bc_QueryRealisation (1)%Z (bs "p") (-1)%Z (-1)%Z d [] /\
  bc_QueryNar (2)%Z (bs "h1") (0)%Z (5)%Z d [] /\
  bc_QueryNar (2)%Z (bs "h2") (3)%Z (2)%Z d [((1)%Z, (NI (Some (bs "")) None None (Some (bs "b")) None (Some (bs "b")) (Some (1)%Z) None None (Some (bs "b")) (Some (bs ""))))] /\
  bc_QueryNar (2)%Z (bs "H1") (0)%Z (3)%Z d [] /\
  bc_QueryRealisation (2)%Z (bs "o") (4)%Z (1)%Z d [None] /\
  bc_QueryRealisation (2)%Z (bs "p") (-1)%Z (3)%Z d [] /\
  bc_QueryNar (3)%Z (bs "h1") (0)%Z (-1)%Z d [] /\
  bc_QueryNar (3)%Z (bs "h2") (0)%Z (0)%Z d [] /\
  bc_QueryNar (3)%Z (bs "H1") (0)%Z (4)%Z d [] /\
  bc_QueryRealisation (3)%Z (bs "o") (-1)%Z (-1)%Z d [(Some (bs "{}"))] /\
  bc_QueryRealisation (3)%Z (bs "p") (2)%Z (-1)%Z d [] /\
  bc_QueryLastPurge d (Ok (Some (5)%Z)).
Proof. check. Qed.
Example binary_1 : let s := bc_run false [(BInsertMissing (3)%Z (bs "h1") (0)%Z, true); (BUpdatePurge (Some (1)%Z), true); (BInsertNar (1)%Z (bs "h2") (NI (Some (bs "")) None (Some (bs "a")) (Some (bs "")) (Some (3)%Z) None (Some (-1)%Z) (Some (bs "a")) (Some (bs "b")) (Some (bs "b")) None) (1)%Z, true); (BInsertMissing (1)%Z (bs "H1") (0)%Z, true); (BInsertCache (bs "") (7)%Z (bs "/nix/store") (1)%Z (25)%Z 0, true); (BInsertReal (2)%Z (bs "p") (Some (bs "")) (8)%Z, true); (BInsertNar (3)%Z (bs "h2") (NI None None (Some (bs "")) (Some (bs "a")) (Some (-2)%Z) (Some (bs "")) None (Some (bs "")) (Some (bs "a")) (Some (bs "b")) (Some (bs "b"))) (4)%Z, true); (BInsertCache (bs "http://u") (2)%Z (bs "/nix/store") (1)%Z (10)%Z 0, true); (BInsertCache (bs "http://u") (5)%Z (bs "/nix/store") (1)%Z (19)%Z 0, true); (BInsertCache (bs "http://u") (0)%Z (bs "/s") (1)%Z (30)%Z 0, true); (BPurge (3)%Z (5)%Z, true); (BPurge (2)%Z (0)%Z, true); (BInsertMissing (1)%Z (bs "H1") (1)%Z, true); (BInsertNar (1)%Z (bs "h1") (NI None None (Some (bs "a")) None (Some (1)%Z) None None (Some (bs "b")) (Some (bs "a")) None (Some (bs ""))) (6)%Z, true); (BInsertMissingReal (3)%Z (bs "p") (4)%Z, true)] in let d := snd s in
  map snd (fst s) = [Ok 0%Z; Ok 0%Z; Ok 0%Z; Ok 0%Z; Ok (1)%Z; Ok 0%Z; Ok 0%Z; Ok (2)%Z; Ok (2)%Z; Ok (2)%Z; Ok 0%Z; Ok 0%Z; Ok 0%Z; Ok 0%Z; Ok 0%Z] /\
  bc_QueryCache (bs "http://u") (0)%Z d [] /\
  bc_QueryCache (bs "http://u") (4)%Z d [] /\
  bc_QueryCache (bs "http://v") (0)%Z d [] /\
  bc_QueryCache (bs "http://v") (4)%Z d [] /\
  bc_QueryCache (bs "") (0)%Z d [((1)%Z, (bs "/nix/store"), (1)%Z, (25)%Z)] /\
  bc_QueryCache (bs "") (4)%Z d [((1)%Z, (bs "/nix/store"), (1)%Z, (25)%Z)] /\
  bc_QueryNar (1)%Z (bs "h1") (-1)%Z (2)%Z d [((1)%Z, (NI None None (Some (bs "a")) None (Some (1)%Z) None None (Some (bs "b")) (Some (bs "a")) None (Some (bs ""))))] /\
  bc_QueryNar (1)%Z (bs "h2") (3)%Z (-1)%Z d [] /\
  bc_QueryNar (1)%Z (bs "H1") (5)%Z (3)%Z d [] /\
  bc_QueryRealisation (1)%Z (bs "o") (5)%Z (5)%Z d [] /\
  bc_QueryRealisation (1)%Z (bs "p") (2)%Z (-1)%Z d [] /\
  bc_QueryNar (2)%Z (bs "h1") (-1)%Z (2)%Z d [] /\
  bc_QueryNar (2)%Z (bs "h2") (3)%Z (0)%Z d [] /\
  bc_QueryNar (2)%Z (bs "H1") (1)%Z (2)%Z d [] /\
  bc_QueryRealisation (2)%Z (bs "o") (5)%Z (3)%Z d [] /\
  bc_QueryRealisation (2)%Z (bs "p") (-1)%Z (3)%Z d [(Some (bs ""))] /\
  bc_QueryNar (3)%Z (bs "h1") (0)%Z (-1)%Z d [] /\
  bc_QueryNar (3)%Z (bs "h2") (5)%Z (3)%Z d [] /\
  bc_QueryNar (3)%Z (bs "H1") (1)%Z (5)%Z d [] /\
  bc_QueryRealisation (3)%Z (bs "o") (4)%Z (2)%Z d [] /\
  bc_QueryRealisation (3)%Z (bs "p") (-1)%Z (1)%Z d [None] /\
  bc_QueryLastPurge d (Ok (Some (1)%Z)).
Proof. check. Qed.
Example binary_2 : let s := bc_run true [(BInsertNar (3)%Z (bs "h1") (NI (Some (bs "a")) (Some (bs "a")) (Some (bs "a")) None (Some (2)%Z) (Some (bs "a")) (Some (-2)%Z) None None (Some (bs "")) None) (5)%Z, true); (BInsertNar (2)%Z (bs "h2") (NI (Some (bs "b")) None (Some (bs "")) (Some (bs "")) (Some (4)%Z) None None (Some (bs "a")) None (Some (bs "b")) (Some (bs "b"))) (1)%Z, true); (BInsertReal (2)%Z (bs "p") None (5)%Z, true); (BPurge (3)%Z (3)%Z, true); (BInsertCache (bs "http://v") (0)%Z (bs "/s") (1)%Z (8)%Z 0, true); (BInsertCache (bs "") (7)%Z (bs "/nix/store") (1)%Z (21)%Z 0, true); (BInsertReal (2)%Z (bs "o") (Some (bs "")) (7)%Z, true); (BInsertMissingReal (3)%Z (bs "p") (8)%Z, true); (BInsertCache (bs "http://v") (2)%Z (bs "/nix/store") (0)%Z (24)%Z 0, true); (BPurge (3)%Z (0)%Z, true); (BInsertNar (3)%Z (bs "h2") (NI None (Some (bs "")) (Some (bs "b")) (Some (bs "a")) None (Some (bs "b")) (Some (-2)%Z) None None (Some (bs "b")) None) (8)%Z, true); (BInsertReal (1)%Z (bs "p") (Some (bs "")) (7)%Z, true); (BInsertCache (bs "") (1)%Z (bs "/s") (0)%Z (3)%Z 0, true)] in let d := snd s in
  map snd (fst s) = [Err ErrConstraint; Err ErrConstraint; Err ErrConstraint; Ok 0%Z; Ok (1)%Z; Ok (2)%Z; Ok 0%Z; Err ErrConstraint; Ok (1)%Z; Ok 0%Z; Err ErrConstraint; Ok 0%Z; Ok (2)%Z] /\
  bc_QueryCache (bs "http://u") (0)%Z d [] /\
  bc_QueryCache (bs "http://u") (4)%Z d [] /\
  bc_QueryCache (bs "http://v") (0)%Z d [((1)%Z, (bs "/nix/store"), (0)%Z, (24)%Z)] /\
  bc_QueryCache (bs "http://v") (4)%Z d [] /\
  bc_QueryCache (bs "") (0)%Z d [((2)%Z, (bs "/s"), (0)%Z, (3)%Z)] /\
  bc_QueryCache (bs "") (4)%Z d [] /\
  bc_QueryNar (1)%Z (bs "h1") (2)%Z (4)%Z d [] /\
  bc_QueryNar (1)%Z (bs "h2") (3)%Z (4)%Z d [] /\
  bc_QueryNar (1)%Z (bs "H1") (4)%Z (0)%Z d [] /\
  bc_QueryRealisation (1)%Z (bs "o") (-1)%Z (3)%Z d [] /\
  bc_QueryRealisation (1)%Z (bs "p") (4)%Z (2)%Z d [(Some (bs ""))] /\
  bc_QueryNar (2)%Z (bs "h1") (0)%Z (2)%Z d [] /\
  bc_QueryNar (2)%Z (bs "h2") (4)%Z (2)%Z d [] /\
  bc_QueryNar (2)%Z (bs "H1") (3)%Z (0)%Z d [] /\
  bc_QueryRealisation (2)%Z (bs "o") (2)%Z (4)%Z d [(Some (bs ""))] /\
  bc_QueryRealisation (2)%Z (bs "p") (4)%Z (5)%Z d [] /\
  bc_QueryNar (3)%Z (bs "h1") (1)%Z (4)%Z d [] /\
  bc_QueryNar (3)%Z (bs "h2") (2)%Z (4)%Z d [] /\
  bc_QueryNar (3)%Z (bs "H1") (2)%Z (0)%Z d [] /\
  bc_QueryRealisation (3)%Z (bs "o") (0)%Z (0)%Z d [] /\
  bc_QueryRealisation (3)%Z (bs "p") (0)%Z (2)%Z d [] /\
  bc_QueryLastPurge d (Err ErrNoRows).
Proof. check. Qed.
Example binary_3 : let s := bc_run false [(BInsertCache (bs "") (2)%Z (bs "/nix/store") (1)%Z (28)%Z 0, true); (BInsertMissing (3)%Z (bs "H1") (2)%Z, true); (BPurge (4)%Z (0)%Z, true); (BPurge (5)%Z (2)%Z, true); (BInsertMissingReal (3)%Z (bs "o") (5)%Z, true); (BPurge (5)%Z (2)%Z, true); (BPurge (0)%Z (4)%Z, true); (BInsertReal (3)%Z (bs "o") (Some (bs "")) (2)%Z, true); (BInsertMissingReal (1)%Z (bs "o") (8)%Z, true); (BInsertCache (bs "") (0)%Z (bs "/s") (1)%Z (32)%Z 0, true); (BInsertReal (2)%Z (bs "p") None (5)%Z, true)] in let d := snd s in
  map snd (fst s) = [Ok (1)%Z; Ok 0%Z; Ok 0%Z; Ok 0%Z; Ok 0%Z; Ok 0%Z; Ok 0%Z; Ok 0%Z; Ok 0%Z; Ok (1)%Z; Ok 0%Z] /\
  bc_QueryCache (bs "http://u") (0)%Z d [] /\
  bc_QueryCache (bs "http://u") (4)%Z d [] /\
  bc_QueryCache (bs "http://v") (0)%Z d [] /\
  bc_QueryCache (bs "http://v") (4)%Z d [] /\
  bc_QueryCache (bs "") (0)%Z d [] /\
  bc_QueryCache (bs "") (4)%Z d [] /\
  bc_QueryNar (1)%Z (bs "h1") (-1)%Z (1)%Z d [] /\
  bc_QueryNar (1)%Z (bs "h2") (5)%Z (-1)%Z d [] /\
  bc_QueryNar (1)%Z (bs "H1") (4)%Z (5)%Z d [] /\
  bc_QueryRealisation (1)%Z (bs "o") (0)%Z (3)%Z d [None] /\
  bc_QueryRealisation (1)%Z (bs "p") (3)%Z (1)%Z d [] /\
  bc_QueryNar (2)%Z (bs "h1") (1)%Z (1)%Z d [] /\
  bc_QueryNar (2)%Z (bs "h2") (4)%Z (5)%Z d [] /\
  bc_QueryNar (2)%Z (bs "H1") (0)%Z (0)%Z d [] /\
  bc_QueryRealisation (2)%Z (bs "o") (3)%Z (0)%Z d [] /\
  bc_QueryRealisation (2)%Z (bs "p") (5)%Z (1)%Z d [] /\
  bc_QueryNar (3)%Z (bs "h1") (5)%Z (1)%Z d [] /\
  bc_QueryNar (3)%Z (bs "h2") (5)%Z (0)%Z d [] /\
  bc_QueryNar (3)%Z (bs "H1") (1)%Z (3)%Z d [] /\
  bc_QueryRealisation (3)%Z (bs "o") (0)%Z (4)%Z d [] /\
  bc_QueryRealisation (3)%Z (bs "p") (4)%Z (-1)%Z d [] /\
  bc_QueryLastPurge d (Err ErrNoRows).
Proof. check. Qed.
Example binary_4 : let s := bc_run true [(BUpdatePurge (Some (7)%Z), true); (BInsertCache (bs "") (7)%Z (bs "/s") (1)%Z (7)%Z 0, true); (BInsertMissingReal (2)%Z (bs "p") (7)%Z, true); (BInsertReal (3)%Z (bs "p") (Some (bs "{}")) (5)%Z, true); (BInsertNar (2)%Z (bs "h1") (NI (Some (bs "")) (Some (bs "")) None (Some (bs "")) None (Some (bs "")) None (Some (bs "b")) (Some (bs "a")) (Some (bs "a")) None) (1)%Z, true); (BPurge (4)%Z (4)%Z, true); (BInsertNar (1)%Z (bs "H1") (NI (Some (bs "a")) None (Some (bs "")) (Some (bs "a")) (Some (-2)%Z) (Some (bs "")) (Some (0)%Z) (Some (bs "")) None None (Some (bs ""))) (0)%Z, true); (BInsertMissing (1)%Z (bs "h1") (8)%Z, true); (BPurge (5)%Z (0)%Z, true); (BInsertReal (1)%Z (bs "o") None (7)%Z, true); (BInsertReal (2)%Z (bs "p") None (7)%Z, true); (BPurge (0)%Z (5)%Z, true); (BInsertReal (2)%Z (bs "o") None (2)%Z, true)] in let d := snd s in
  map snd (fst s) = [Ok 0%Z; Ok (1)%Z; Err ErrConstraint; Err ErrConstraint; Err ErrConstraint; Ok 0%Z; Ok 0%Z; Ok 0%Z; Ok 0%Z; Ok 0%Z; Err ErrConstraint; Ok 0%Z; Err ErrConstraint] /\
  bc_QueryCache (bs "http://u") (0)%Z d [] /\
  bc_QueryCache (bs "http://u") (4)%Z d [] /\
  bc_QueryCache (bs "http://v") (0)%Z d [] /\
  bc_QueryCache (bs "http://v") (4)%Z d [] /\
  bc_QueryCache (bs "") (0)%Z d [((1)%Z, (bs "/s"), (1)%Z, (7)%Z)] /\
  bc_QueryCache (bs "") (4)%Z d [((1)%Z, (bs "/s"), (1)%Z, (7)%Z)] /\
  bc_QueryNar (1)%Z (bs "h1") (1)%Z (0)%Z d [((0)%Z, (NI None None None None None None None None None None None))] /\
  bc_QueryNar (1)%Z (bs "h2") (2)%Z (1)%Z d [] /\
  bc_QueryNar (1)%Z (bs "H1") (-1)%Z (2)%Z d [] /\
  bc_QueryRealisation (1)%Z (bs "o") (2)%Z (5)%Z d [None] /\
  bc_QueryRealisation (1)%Z (bs "p") (1)%Z (4)%Z d [] /\
  bc_QueryNar (2)%Z (bs "h1") (0)%Z (0)%Z d [] /\
  bc_QueryNar (2)%Z (bs "h2") (0)%Z (0)%Z d [] /\
  bc_QueryNar (2)%Z (bs "H1") (2)%Z (0)%Z d [] /\
  bc_QueryRealisation (2)%Z (bs "o") (5)%Z (5)%Z d [] /\
  bc_QueryRealisation (2)%Z (bs "p") (1)%Z (3)%Z d [] /\
  bc_QueryNar (3)%Z (bs "h1") (1)%Z (0)%Z d [] /\
  bc_QueryNar (3)%Z (bs "h2") (1)%Z (5)%Z d [] /\
  bc_QueryNar (3)%Z (bs "H1") (3)%Z (4)%Z d [] /\
  bc_QueryRealisation (3)%Z (bs "o") (1)%Z (-1)%Z d [] /\
  bc_QueryRealisation (3)%Z (bs "p") (4)%Z (1)%Z d [] /\
  bc_QueryLastPurge d (Ok (Some (7)%Z)).
Proof. check. Qed.
Example binary_5 : let s := bc_run false [(BUpdatePurge (Some (6)%Z), true); (BInsertCache (bs "http://u") (8)%Z (bs "/s") (0)%Z (49)%Z 0, true); (BInsertNar (3)%Z (bs "H1") (NI None None (Some (bs "a")) None (Some (1)%Z) None None None (Some (bs "b")) (Some (bs "a")) (Some (bs "b"))) (7)%Z, true); (BUpdatePurge (Some (2)%Z), true); (BInsertReal (1)%Z (bs "o") None (2)%Z, true); (BInsertCache (bs "http://v") (8)%Z (bs "/s") (1)%Z (20)%Z 0, true)] in let d := snd s in
  map snd (fst s) = [Ok 0%Z; Ok (1)%Z; Ok 0%Z; Ok 0%Z; Ok 0%Z; Ok (2)%Z] /\
  bc_QueryCache (bs "http://u") (0)%Z d [((1)%Z, (bs "/s"), (0)%Z, (49)%Z)] /\
  bc_QueryCache (bs "http://u") (4)%Z d [((1)%Z, (bs "/s"), (0)%Z, (49)%Z)] /\
  bc_QueryCache (bs "http://v") (0)%Z d [((2)%Z, (bs "/s"), (1)%Z, (20)%Z)] /\
  bc_QueryCache (bs "http://v") (4)%Z d [((2)%Z, (bs "/s"), (1)%Z, (20)%Z)] /\
  bc_QueryCache (bs "") (0)%Z d [] /\
  bc_QueryCache (bs "") (4)%Z d [] /\
  bc_QueryNar (1)%Z (bs "h1") (3)%Z (4)%Z d [] /\
  bc_QueryNar (1)%Z (bs "h2") (-1)%Z (-1)%Z d [] /\
  bc_QueryNar (1)%Z (bs "H1") (-1)%Z (1)%Z d [] /\
  bc_QueryRealisation (1)%Z (bs "o") (1)%Z (-1)%Z d [None] /\
  bc_QueryRealisation (1)%Z (bs "p") (0)%Z (0)%Z d [] /\
  bc_QueryNar (2)%Z (bs "h1") (3)%Z (0)%Z d [] /\
  bc_QueryNar (2)%Z (bs "h2") (1)%Z (3)%Z d [] /\
  bc_QueryNar (2)%Z (bs "H1") (1)%Z (2)%Z d [] /\
  bc_QueryRealisation (2)%Z (bs "o") (2)%Z (3)%Z d [] /\
  bc_QueryRealisation (2)%Z (bs "p") (1)%Z (-1)%Z d [] /\
  bc_QueryNar (3)%Z (bs "h1") (1)%Z (5)%Z d [] /\
  bc_QueryNar (3)%Z (bs "h2") (0)%Z (5)%Z d [] /\
  bc_QueryNar (3)%Z (bs "H1") (2)%Z (4)%Z d [((1)%Z, (NI None None (Some (bs "a")) None (Some (1)%Z) None None None (Some (bs "b")) (Some (bs "a")) (Some (bs "b"))))] /\
  bc_QueryRealisation (3)%Z (bs "o") (-1)%Z (1)%Z d [] /\
  bc_QueryRealisation (3)%Z (bs "p") (3)%Z (-1)%Z d [] /\
  bc_QueryLastPurge d (Ok (Some (2)%Z)).
Proof. check. Qed.
Example binary_6 : let s := bc_run true [(BUpdatePurge (Some (3)%Z), true); (BInsertCache (bs "") (1)%Z (bs "/s") (0)%Z (25)%Z 0, true); (BInsertReal (1)%Z (bs "o") (Some (bs "")) (0)%Z, true); (BInsertCache (bs "http://v") (2)%Z (bs "/nix/store") (0)%Z (5)%Z 0, true); (BInsertMissing (3)%Z (bs "H1") (0)%Z, true); (BInsertCache (bs "") (7)%Z (bs "/nix/store") (1)%Z (40)%Z 0, true); (BInsertMissingReal (2)%Z (bs "p") (4)%Z, true); (BInsertCache (bs "http://v") (2)%Z (bs "/s") (1)%Z (3)%Z 0, true); (BInsertCache (bs "http://v") (5)%Z (bs "/s") (1)%Z (47)%Z 0, true)] in let d := snd s in
  map snd (fst s) = [Ok 0%Z; Ok (1)%Z; Ok 0%Z; Ok (2)%Z; Err ErrConstraint; Ok (1)%Z; Ok 0%Z; Ok (2)%Z; Ok (2)%Z] /\
  bc_QueryCache (bs "http://u") (0)%Z d [] /\
  bc_QueryCache (bs "http://u") (4)%Z d [] /\
  bc_QueryCache (bs "http://v") (0)%Z d [((2)%Z, (bs "/s"), (1)%Z, (47)%Z)] /\
  bc_QueryCache (bs "http://v") (4)%Z d [((2)%Z, (bs "/s"), (1)%Z, (47)%Z)] /\
  bc_QueryCache (bs "") (0)%Z d [((1)%Z, (bs "/nix/store"), (1)%Z, (40)%Z)] /\
  bc_QueryCache (bs "") (4)%Z d [((1)%Z, (bs "/nix/store"), (1)%Z, (40)%Z)] /\
  bc_QueryNar (1)%Z (bs "h1") (4)%Z (3)%Z d [] /\
  bc_QueryNar (1)%Z (bs "h2") (-1)%Z (-1)%Z d [] /\
  bc_QueryNar (1)%Z (bs "H1") (-1)%Z (3)%Z d [] /\
  bc_QueryRealisation (1)%Z (bs "o") (-1)%Z (5)%Z d [] /\
  bc_QueryRealisation (1)%Z (bs "p") (0)%Z (3)%Z d [] /\
  bc_QueryNar (2)%Z (bs "h1") (1)%Z (4)%Z d [] /\
  bc_QueryNar (2)%Z (bs "h2") (5)%Z (1)%Z d [] /\
  bc_QueryNar (2)%Z (bs "H1") (3)%Z (1)%Z d [] /\
  bc_QueryRealisation (2)%Z (bs "o") (5)%Z (-1)%Z d [] /\
  bc_QueryRealisation (2)%Z (bs "p") (3)%Z (2)%Z d [None] /\
  bc_QueryNar (3)%Z (bs "h1") (0)%Z (4)%Z d [] /\
  bc_QueryNar (3)%Z (bs "h2") (4)%Z (2)%Z d [] /\
  bc_QueryNar (3)%Z (bs "H1") (4)%Z (1)%Z d [] /\
  bc_QueryRealisation (3)%Z (bs "o") (1)%Z (5)%Z d [] /\
  bc_QueryRealisation (3)%Z (bs "p") (3)%Z (-1)%Z d [] /\
  bc_QueryLastPurge d (Ok (Some (3)%Z)).
Proof. check. Qed.
Example binary_7 : let s := bc_run false [(BPurge (1)%Z (3)%Z, true); (BInsertMissing (3)%Z (bs "H1") (8)%Z, true); (BInsertMissing (1)%Z (bs "h2") (0)%Z, true); (BInsertCache (bs "") (0)%Z (bs "/s") (1)%Z (47)%Z 0, true); (BInsertMissing (3)%Z (bs "h2") (5)%Z, true); (BInsertMissing (3)%Z (bs "h2") (6)%Z, true); (BInsertNar (3)%Z (bs "h1") (NI None (Some (bs "b")) None (Some (bs "b")) (Some (1)%Z) (Some (bs "")) None (Some (bs "a")) None (Some (bs "a")) None) (4)%Z, true); (BUpdatePurge None, true); (BInsertReal (2)%Z (bs "o") None (6)%Z, true); (BInsertMissing (1)%Z (bs "H1") (1)%Z, true); (BPurge (5)%Z (4)%Z, true); (BInsertNar (1)%Z (bs "h2") (NI (Some (bs "a")) (Some (bs "a")) None (Some (bs "a")) (Some (1)%Z) (Some (bs "")) (Some (-2)%Z) (Some (bs "")) (Some (bs "")) None (Some (bs ""))) (7)%Z, true); (BInsertCache (bs "http://v") (3)%Z (bs "/s") (0)%Z (31)%Z 0, true); (BInsertCache (bs "") (8)%Z (bs "/s") (1)%Z (43)%Z 0, true); (BInsertMissing (3)%Z (bs "H1") (6)%Z, true); (BUpdatePurge (Some (8)%Z), true)] in let d := snd s in
  map snd (fst s) = [Ok 0%Z; Ok 0%Z; Ok 0%Z; Ok (1)%Z; Ok 0%Z; Ok 0%Z; Ok 0%Z; Ok 0%Z; Ok 0%Z; Ok 0%Z; Ok 0%Z; Ok 0%Z; Ok (2)%Z; Ok (1)%Z; Ok 0%Z; Ok 0%Z] /\
  bc_QueryCache (bs "http://u") (0)%Z d [] /\
  bc_QueryCache (bs "http://u") (4)%Z d [] /\
  bc_QueryCache (bs "http://v") (0)%Z d [((2)%Z, (bs "/s"), (0)%Z, (31)%Z)] /\
  bc_QueryCache (bs "http://v") (4)%Z d [] /\
  bc_QueryCache (bs "") (0)%Z d [((1)%Z, (bs "/s"), (1)%Z, (43)%Z)] /\
  bc_QueryCache (bs "") (4)%Z d [((1)%Z, (bs "/s"), (1)%Z, (43)%Z)] /\
  bc_QueryNar (1)%Z (bs "h1") (0)%Z (5)%Z d [] /\
  bc_QueryNar (1)%Z (bs "h2") (-1)%Z (5)%Z d [((1)%Z, (NI (Some (bs "a")) (Some (bs "a")) None (Some (bs "a")) (Some (1)%Z) (Some (bs "")) (Some (-2)%Z) (Some (bs "")) (Some (bs "")) None (Some (bs ""))))] /\
  bc_QueryNar (1)%Z (bs "H1") (2)%Z (0)%Z d [] /\
  bc_QueryRealisation (1)%Z (bs "o") (5)%Z (-1)%Z d [] /\
  bc_QueryRealisation (1)%Z (bs "p") (0)%Z (5)%Z d [] /\
  bc_QueryNar (2)%Z (bs "h1") (5)%Z (-1)%Z d [] /\
  bc_QueryNar (2)%Z (bs "h2") (1)%Z (-1)%Z d [] /\
  bc_QueryNar (2)%Z (bs "H1") (1)%Z (1)%Z d [] /\
  bc_QueryRealisation (2)%Z (bs "o") (3)%Z (5)%Z d [None] /\
  bc_QueryRealisation (2)%Z (bs "p") (1)%Z (2)%Z d [] /\
  bc_QueryNar (3)%Z (bs "h1") (5)%Z (-1)%Z d [((1)%Z, (NI None (Some (bs "b")) None (Some (bs "b")) (Some (1)%Z) (Some (bs "")) None (Some (bs "a")) None (Some (bs "a")) None))] /\
  bc_QueryNar (3)%Z (bs "h2") (0)%Z (5)%Z d [((0)%Z, (NI None None None None None None None None None None None))] /\
  bc_QueryNar (3)%Z (bs "H1") (5)%Z (0)%Z d [((0)%Z, (NI None None None None None None None None None None None))] /\
  bc_QueryRealisation (3)%Z (bs "o") (-1)%Z (5)%Z d [] /\
  bc_QueryRealisation (3)%Z (bs "p") (3)%Z (2)%Z d [] /\
  bc_QueryLastPurge d (Ok (Some (8)%Z)).
Proof. check. Qed.
Example binary_8 : let s := bc_run true [(BInsertReal (2)%Z (bs "o") (Some (bs "{}")) (6)%Z, true); (BInsertNar (1)%Z (bs "h1") (NI None (Some (bs "")) (Some (bs "a")) (Some (bs "b")) (Some (-1)%Z) None (Some (1)%Z) (Some (bs "")) (Some (bs "a")) (Some (bs "")) None) (2)%Z, true); (BInsertMissingReal (2)%Z (bs "o") (5)%Z, true); (BUpdatePurge None, true); (BPurge (3)%Z (0)%Z, true); (BInsertReal (3)%Z (bs "p") None (6)%Z, true); (BInsertReal (1)%Z (bs "p") (Some (bs "")) (1)%Z, true)] in let d := snd s in
  map snd (fst s) = [Err ErrConstraint; Err ErrConstraint; Err ErrConstraint; Ok 0%Z; Ok 0%Z; Err ErrConstraint; Err ErrConstraint] /\
  bc_QueryCache (bs "http://u") (0)%Z d [] /\
  bc_QueryCache (bs "http://u") (4)%Z d [] /\
  bc_QueryCache (bs "http://v") (0)%Z d [] /\
  bc_QueryCache (bs "http://v") (4)%Z d [] /\
  bc_QueryCache (bs "") (0)%Z d [] /\
  bc_QueryCache (bs "") (4)%Z d [] /\
  bc_QueryNar (1)%Z (bs "h1") (5)%Z (4)%Z d [] /\
  bc_QueryNar (1)%Z (bs "h2") (5)%Z (1)%Z d [] /\
  bc_QueryNar (1)%Z (bs "H1") (3)%Z (-1)%Z d [] /\
  bc_QueryRealisation (1)%Z (bs "o") (-1)%Z (4)%Z d [] /\
  bc_QueryRealisation (1)%Z (bs "p") (0)%Z (0)%Z d [] /\
  bc_QueryNar (2)%Z (bs "h1") (0)%Z (4)%Z d [] /\
  bc_QueryNar (2)%Z (bs "h2") (5)%Z (-1)%Z d [] /\
  bc_QueryNar (2)%Z (bs "H1") (5)%Z (0)%Z d [] /\
  bc_QueryRealisation (2)%Z (bs "o") (1)%Z (2)%Z d [] /\
  bc_QueryRealisation (2)%Z (bs "p") (5)%Z (-1)%Z d [] /\
  bc_QueryNar (3)%Z (bs "h1") (4)%Z (2)%Z d [] /\
  bc_QueryNar (3)%Z (bs "h2") (0)%Z (4)%Z d [] /\
  bc_QueryNar (3)%Z (bs "H1") (5)%Z (5)%Z d [] /\
  bc_QueryRealisation (3)%Z (bs "o") (1)%Z (-1)%Z d [] /\
  bc_QueryRealisation (3)%Z (bs "p") (5)%Z (0)%Z d [] /\
  bc_QueryLastPurge d (Ok None).
Proof. check. Qed.
Example binary_9 : let s := bc_run false [(BInsertNar (3)%Z (bs "h1") (NI (Some (bs "a")) None (Some (bs "a")) None None None (Some (0)%Z) None (Some (bs "a")) (Some (bs "b")) (Some (bs "a"))) (4)%Z, true); (BInsertReal (3)%Z (bs "o") (Some (bs "{}")) (2)%Z, true); (BUpdatePurge (Some (4)%Z), true); (BInsertNar (1)%Z (bs "h2") (NI (Some (bs "a")) (Some (bs "a")) None (Some (bs "")) None (Some (bs "")) (Some (2)%Z) (Some (bs "a")) (Some (bs "b")) (Some (bs "b")) None) (8)%Z, true); (BInsertMissing (3)%Z (bs "H1") (7)%Z, true); (BPurge (0)%Z (4)%Z, true); (BInsertCache (bs "http://v") (0)%Z (bs "/s") (1)%Z (5)%Z 0, true); (BInsertMissing (3)%Z (bs "H1") (4)%Z, true); (BInsertNar (1)%Z (bs "h2") (NI None (Some (bs "b")) None (Some (bs "b")) (Some (1)%Z) (Some (bs "a")) (Some (0)%Z) None None (Some (bs "a")) None) (3)%Z, true); (BInsertMissing (2)%Z (bs "h2") (3)%Z, true); (BInsertMissing (3)%Z (bs "H1") (0)%Z, true); (BInsertReal (1)%Z (bs "p") (Some (bs "{}")) (2)%Z, true); (BInsertCache (bs "http://u") (8)%Z (bs "/nix/store") (0)%Z (41)%Z 0, true); (BInsertCache (bs "http://v") (0)%Z (bs "/nix/store") (1)%Z (21)%Z 0, true); (BInsertNar (3)%Z (bs "H1") (NI (Some (bs "a")) (Some (bs "b")) (Some (bs "b")) None (Some (4)%Z) (Some (bs "b")) None None None None (Some (bs ""))) (0)%Z, true); (BInsertNar (2)%Z (bs "H1") (NI (Some (bs "b")) (Some (bs "b")) None (Some (bs "a")) (Some (2)%Z) (Some (bs "b")) None None (Some (bs "a")) (Some (bs "")) (Some (bs "a"))) (6)%Z, true); (BInsertCache (bs "") (5)%Z (bs "/nix/store") (1)%Z (10)%Z 1, true)] in let d := snd s in
  map snd (fst s) = [Ok 0%Z; Ok 0%Z; Ok 0%Z; Ok 0%Z; Ok 0%Z; Ok 0%Z; Ok (1)%Z; Ok 0%Z; Ok 0%Z; Ok 0%Z; Ok 0%Z; Ok 0%Z; Ok (2)%Z; Ok (1)%Z; Ok 0%Z; Ok 0%Z; Ok (4)%Z] /\
  bc_QueryCache (bs "http://u") (0)%Z d [((2)%Z, (bs "/nix/store"), (0)%Z, (41)%Z)] /\
  bc_QueryCache (bs "http://u") (4)%Z d [((2)%Z, (bs "/nix/store"), (0)%Z, (41)%Z)] /\
  bc_QueryCache (bs "http://v") (0)%Z d [] /\
  bc_QueryCache (bs "http://v") (4)%Z d [] /\
  bc_QueryCache (bs "") (0)%Z d [((4)%Z, (bs "/nix/store"), (1)%Z, (10)%Z)] /\
  bc_QueryCache (bs "") (4)%Z d [((4)%Z, (bs "/nix/store"), (1)%Z, (10)%Z)] /\
  bc_QueryNar (1)%Z (bs "h1") (0)%Z (-1)%Z d [] /\
  bc_QueryNar (1)%Z (bs "h2") (0)%Z (4)%Z d [] /\
  bc_QueryNar (1)%Z (bs "H1") (0)%Z (0)%Z d [] /\
  bc_QueryRealisation (1)%Z (bs "o") (2)%Z (5)%Z d [] /\
  bc_QueryRealisation (1)%Z (bs "p") (3)%Z (3)%Z d [] /\
  bc_QueryNar (2)%Z (bs "h1") (1)%Z (0)%Z d [] /\
  bc_QueryNar (2)%Z (bs "h2") (4)%Z (2)%Z d [] /\
  bc_QueryNar (2)%Z (bs "H1") (1)%Z (5)%Z d [((1)%Z, (NI (Some (bs "b")) (Some (bs "b")) None (Some (bs "a")) (Some (2)%Z) (Some (bs "b")) None None (Some (bs "a")) (Some (bs "")) (Some (bs "a"))))] /\
  bc_QueryRealisation (2)%Z (bs "o") (1)%Z (2)%Z d [] /\
  bc_QueryRealisation (2)%Z (bs "p") (2)%Z (0)%Z d [] /\
  bc_QueryNar (3)%Z (bs "h1") (4)%Z (1)%Z d [((1)%Z, (NI (Some (bs "a")) None (Some (bs "a")) None None None (Some (0)%Z) None (Some (bs "a")) (Some (bs "b")) (Some (bs "a"))))] /\
  bc_QueryNar (3)%Z (bs "h2") (2)%Z (5)%Z d [] /\
  bc_QueryNar (3)%Z (bs "H1") (0)%Z (1)%Z d [] /\
  bc_QueryRealisation (3)%Z (bs "o") (5)%Z (3)%Z d [] /\
  bc_QueryRealisation (3)%Z (bs "p") (-1)%Z (0)%Z d [] /\
  bc_QueryLastPurge d (Ok (Some (4)%Z)).
Proof. check. Qed.
Example binary_10 : let s := bc_run true [(BPurge (2)%Z (3)%Z, true); (BInsertCache (bs "http://v") (2)%Z (bs "/nix/store") (1)%Z (43)%Z 0, true); (BInsertMissingReal (3)%Z (bs "p") (8)%Z, true); (BInsertMissing (2)%Z (bs "h2") (7)%Z, true); (BInsertReal (3)%Z (bs "o") (Some (bs "{}")) (5)%Z, true); (BInsertCache (bs "") (1)%Z (bs "/s") (1)%Z (19)%Z 0, true); (BInsertNar (3)%Z (bs "H1") (NI (Some (bs "a")) None (Some (bs "a")) None (Some (-2)%Z) None (Some (2)%Z) None (Some (bs "a")) None (Some (bs "a"))) (8)%Z, true); (BInsertCache (bs "http://v") (2)%Z (bs "/nix/store") (1)%Z (40)%Z 0, true)] in let d := snd s in
  map snd (fst s) = [Ok 0%Z; Ok (1)%Z; Err ErrConstraint; Err ErrConstraint; Err ErrConstraint; Ok (2)%Z; Err ErrConstraint; Ok (1)%Z] /\
  bc_QueryCache (bs "http://u") (0)%Z d [] /\
  bc_QueryCache (bs "http://u") (4)%Z d [] /\
  bc_QueryCache (bs "http://v") (0)%Z d [((1)%Z, (bs "/nix/store"), (1)%Z, (40)%Z)] /\
  bc_QueryCache (bs "http://v") (4)%Z d [] /\
  bc_QueryCache (bs "") (0)%Z d [((2)%Z, (bs "/s"), (1)%Z, (19)%Z)] /\
  bc_QueryCache (bs "") (4)%Z d [] /\
  bc_QueryNar (1)%Z (bs "h1") (4)%Z (3)%Z d [] /\
  bc_QueryNar (1)%Z (bs "h2") (-1)%Z (5)%Z d [] /\
  bc_QueryNar (1)%Z (bs "H1") (2)%Z (1)%Z d [] /\
  bc_QueryRealisation (1)%Z (bs "o") (0)%Z (3)%Z d [] /\
  bc_QueryRealisation (1)%Z (bs "p") (1)%Z (4)%Z d [] /\
  bc_QueryNar (2)%Z (bs "h1") (3)%Z (5)%Z d [] /\
  bc_QueryNar (2)%Z (bs "h2") (4)%Z (2)%Z d [] /\
  bc_QueryNar (2)%Z (bs "H1") (3)%Z (0)%Z d [] /\
  bc_QueryRealisation (2)%Z (bs "o") (2)%Z (0)%Z d [] /\
  bc_QueryRealisation (2)%Z (bs "p") (3)%Z (5)%Z d [] /\
  bc_QueryNar (3)%Z (bs "h1") (-1)%Z (-1)%Z d [] /\
  bc_QueryNar (3)%Z (bs "h2") (0)%Z (-1)%Z d [] /\
  bc_QueryNar (3)%Z (bs "H1") (2)%Z (2)%Z d [] /\
  bc_QueryRealisation (3)%Z (bs "o") (-1)%Z (0)%Z d [] /\
  bc_QueryRealisation (3)%Z (bs "p") (3)%Z (1)%Z d [] /\
  bc_QueryLastPurge d (Err ErrNoRows).
Proof. check. Qed.
Example binary_11 : let s := bc_run false [(BInsertNar (2)%Z (bs "H1") (NI None (Some (bs "")) None (Some (bs "a")) (Some (-2)%Z) (Some (bs "b")) (Some (2)%Z) None (Some (bs "a")) (Some (bs "a")) (Some (bs "b"))) (8)%Z, true); (BInsertCache (bs "http://u") (6)%Z (bs "/s") (0)%Z (46)%Z 0, true); (BUpdatePurge (Some (2)%Z), true); (BInsertReal (3)%Z (bs "p") (Some (bs "{}")) (7)%Z, true); (BInsertMissingReal (2)%Z (bs "p") (0)%Z, true); (BInsertNar (2)%Z (bs "H1") (NI (Some (bs "")) None (Some (bs "a")) None None None (Some (4)%Z) (Some (bs "")) (Some (bs "b")) (Some (bs "")) (Some (bs "b"))) (7)%Z, true); (BUpdatePurge None, true); (BInsertMissingReal (1)%Z (bs "p") (6)%Z, true); (BInsertNar (1)%Z (bs "H1") (NI None (Some (bs "")) None None None None (Some (1)%Z) None (Some (bs "b")) (Some (bs "b")) (Some (bs ""))) (5)%Z, true); (BUpdatePurge (Some (7)%Z), true)] in let d := snd s in
  map snd (fst s) = [Ok 0%Z; Ok (1)%Z; Ok 0%Z; Ok 0%Z; Ok 0%Z; Ok 0%Z; Ok 0%Z; Ok 0%Z; Ok 0%Z; Ok 0%Z] /\
  bc_QueryCache (bs "http://u") (0)%Z d [((1)%Z, (bs "/s"), (0)%Z, (46)%Z)] /\
  bc_QueryCache (bs "http://u") (4)%Z d [((1)%Z, (bs "/s"), (0)%Z, (46)%Z)] /\
  bc_QueryCache (bs "http://v") (0)%Z d [] /\
  bc_QueryCache (bs "http://v") (4)%Z d [] /\
  bc_QueryCache (bs "") (0)%Z d [] /\
  bc_QueryCache (bs "") (4)%Z d [] /\
  bc_QueryNar (1)%Z (bs "h1") (3)%Z (5)%Z d [] /\
  bc_QueryNar (1)%Z (bs "h2") (4)%Z (4)%Z d [] /\
  bc_QueryNar (1)%Z (bs "H1") (3)%Z (1)%Z d [((1)%Z, (NI None (Some (bs "")) None None None None (Some (1)%Z) None (Some (bs "b")) (Some (bs "b")) (Some (bs ""))))] /\
  bc_QueryRealisation (1)%Z (bs "o") (4)%Z (5)%Z d [] /\
  bc_QueryRealisation (1)%Z (bs "p") (2)%Z (1)%Z d [None] /\
  bc_QueryNar (2)%Z (bs "h1") (2)%Z (-1)%Z d [] /\
  bc_QueryNar (2)%Z (bs "h2") (2)%Z (-1)%Z d [] /\
  bc_QueryNar (2)%Z (bs "H1") (2)%Z (4)%Z d [((1)%Z, (NI (Some (bs "")) None (Some (bs "a")) None None None (Some (4)%Z) (Some (bs "")) (Some (bs "b")) (Some (bs "")) (Some (bs "b"))))] /\
  bc_QueryRealisation (2)%Z (bs "o") (3)%Z (0)%Z d [] /\
  bc_QueryRealisation (2)%Z (bs "p") (2)%Z (0)%Z d [] /\
  bc_QueryNar (3)%Z (bs "h1") (2)%Z (5)%Z d [] /\
  bc_QueryNar (3)%Z (bs "h2") (-1)%Z (5)%Z d [] /\
  bc_QueryNar (3)%Z (bs "H1") (5)%Z (5)%Z d [] /\
  bc_QueryRealisation (3)%Z (bs "o") (3)%Z (2)%Z d [] /\
  bc_QueryRealisation (3)%Z (bs "p") (5)%Z (0)%Z d [(Some (bs "{}"))] /\
  bc_QueryLastPurge d (Ok (Some (7)%Z)).
Proof. check. Qed.
Example binary_12 : let s := bc_run true [(BInsertReal (2)%Z (bs "o") None (0)%Z, true); (BPurge (3)%Z (4)%Z, true); (BPurge (3)%Z (3)%Z, true); (BInsertMissingReal (2)%Z (bs "p") (7)%Z, true); (BInsertCache (bs "") (7)%Z (bs "/nix/store") (0)%Z (36)%Z 0, true); (BUpdatePurge (Some (5)%Z), true); (BInsertCache (bs "http://v") (6)%Z (bs "/s") (0)%Z (15)%Z 0, true); (BInsertNar (1)%Z (bs "h2") (NI (Some (bs "b")) None (Some (bs "b")) (Some (bs "")) None (Some (bs "a")) (Some (3)%Z) (Some (bs "")) (Some (bs "a")) (Some (bs "b")) (Some (bs "a"))) (6)%Z, true); (BInsertReal (2)%Z (bs "o") None (3)%Z, true); (BInsertReal (2)%Z (bs "o") (Some (bs "{}")) (1)%Z, true); (BInsertNar (2)%Z (bs "h1") (NI (Some (bs "a")) None (Some (bs "a")) (Some (bs "b")) (Some (1)%Z) (Some (bs "a")) (Some (3)%Z) None (Some (bs "b")) (Some (bs "b")) None) (0)%Z, true)] in let d := snd s in
  map snd (fst s) = [Err ErrConstraint; Ok 0%Z; Ok 0%Z; Err ErrConstraint; Ok (1)%Z; Ok 0%Z; Ok (2)%Z; Ok 0%Z; Ok 0%Z; Ok 0%Z; Ok 0%Z] /\
  bc_QueryCache (bs "http://u") (0)%Z d [] /\
  bc_QueryCache (bs "http://u") (4)%Z d [] /\
  bc_QueryCache (bs "http://v") (0)%Z d [((2)%Z, (bs "/s"), (0)%Z, (15)%Z)] /\
  bc_QueryCache (bs "http://v") (4)%Z d [((2)%Z, (bs "/s"), (0)%Z, (15)%Z)] /\
  bc_QueryCache (bs "") (0)%Z d [((1)%Z, (bs "/nix/store"), (0)%Z, (36)%Z)] /\
  bc_QueryCache (bs "") (4)%Z d [((1)%Z, (bs "/nix/store"), (0)%Z, (36)%Z)] /\
  bc_QueryNar (1)%Z (bs "h1") (-1)%Z (0)%Z d [] /\
  bc_QueryNar (1)%Z (bs "h2") (5)%Z (5)%Z d [((1)%Z, (NI (Some (bs "b")) None (Some (bs "b")) (Some (bs "")) None (Some (bs "a")) (Some (3)%Z) (Some (bs "")) (Some (bs "a")) (Some (bs "b")) (Some (bs "a"))))] /\
  bc_QueryNar (1)%Z (bs "H1") (2)%Z (1)%Z d [] /\
  bc_QueryRealisation (1)%Z (bs "o") (5)%Z (1)%Z d [] /\
  bc_QueryRealisation (1)%Z (bs "p") (5)%Z (-1)%Z d [] /\
  bc_QueryNar (2)%Z (bs "h1") (5)%Z (1)%Z d [] /\
  bc_QueryNar (2)%Z (bs "h2") (1)%Z (4)%Z d [] /\
  bc_QueryNar (2)%Z (bs "H1") (5)%Z (3)%Z d [] /\
  bc_QueryRealisation (2)%Z (bs "o") (5)%Z (1)%Z d [] /\
  bc_QueryRealisation (2)%Z (bs "p") (1)%Z (-1)%Z d [] /\
  bc_QueryNar (3)%Z (bs "h1") (0)%Z (1)%Z d [] /\
  bc_QueryNar (3)%Z (bs "h2") (2)%Z (3)%Z d [] /\
  bc_QueryNar (3)%Z (bs "H1") (5)%Z (0)%Z d [] /\
  bc_QueryRealisation (3)%Z (bs "o") (5)%Z (-1)%Z d [] /\
  bc_QueryRealisation (3)%Z (bs "p") (3)%Z (0)%Z d [] /\
  bc_QueryLastPurge d (Ok (Some (5)%Z)).
Proof. check. Qed.
Example binary_13 : let s := bc_run false [(BInsertReal (1)%Z (bs "o") None (6)%Z, true); (BInsertNar (2)%Z (bs "h1") (NI (Some (bs "a")) (Some (bs "")) None None None (Some (bs "")) (Some (2)%Z) (Some (bs "")) None (Some (bs "")) None) (1)%Z, true); (BInsertMissingReal (1)%Z (bs "o") (2)%Z, true); (BInsertCache (bs "http://v") (6)%Z (bs "/nix/store") (1)%Z (10)%Z 0, true); (BInsertCache (bs "http://u") (3)%Z (bs "/s") (0)%Z (11)%Z 0, true); (BInsertCache (bs "http://u") (0)%Z (bs "/nix/store") (1)%Z (41)%Z 0, true); (BPurge (4)%Z (5)%Z, true)] in let d := snd s in
  map snd (fst s) = [Ok 0%Z; Ok 0%Z; Ok 0%Z; Ok (1)%Z; Ok (2)%Z; Ok (2)%Z; Ok 0%Z] /\
  bc_QueryCache (bs "http://u") (0)%Z d [] /\
  bc_QueryCache (bs "http://u") (4)%Z d [] /\
  bc_QueryCache (bs "http://v") (0)%Z d [((1)%Z, (bs "/nix/store"), (1)%Z, (10)%Z)] /\
  bc_QueryCache (bs "http://v") (4)%Z d [((1)%Z, (bs "/nix/store"), (1)%Z, (10)%Z)] /\
  bc_QueryCache (bs "") (0)%Z d [] /\
  bc_QueryCache (bs "") (4)%Z d [] /\
  bc_QueryNar (1)%Z (bs "h1") (3)%Z (3)%Z d [] /\
  bc_QueryNar (1)%Z (bs "h2") (0)%Z (0)%Z d [] /\
  bc_QueryNar (1)%Z (bs "H1") (2)%Z (-1)%Z d [] /\
  bc_QueryRealisation (1)%Z (bs "o") (5)%Z (1)%Z d [] /\
  bc_QueryRealisation (1)%Z (bs "p") (0)%Z (3)%Z d [] /\
  bc_QueryNar (2)%Z (bs "h1") (3)%Z (-1)%Z d [] /\
  bc_QueryNar (2)%Z (bs "h2") (1)%Z (2)%Z d [] /\
  bc_QueryNar (2)%Z (bs "H1") (2)%Z (5)%Z d [] /\
  bc_QueryRealisation (2)%Z (bs "o") (2)%Z (2)%Z d [] /\
  bc_QueryRealisation (2)%Z (bs "p") (4)%Z (0)%Z d [] /\
  bc_QueryNar (3)%Z (bs "h1") (-1)%Z (5)%Z d [] /\
  bc_QueryNar (3)%Z (bs "h2") (4)%Z (-1)%Z d [] /\
  bc_QueryNar (3)%Z (bs "H1") (-1)%Z (-1)%Z d [] /\
  bc_QueryRealisation (3)%Z (bs "o") (1)%Z (1)%Z d [] /\
  bc_QueryRealisation (3)%Z (bs "p") (-1)%Z (4)%Z d [] /\
  bc_QueryLastPurge d (Err ErrNoRows).
Proof. check. Qed.
Example binary_14 : let s := bc_run true [(BInsertCache (bs "") (0)%Z (bs "/nix/store") (1)%Z (5)%Z 0, true); (BInsertCache (bs "") (1)%Z (bs "/nix/store") (0)%Z (2)%Z 0, true); (BInsertReal (1)%Z (bs "p") (Some (bs "{}")) (2)%Z, true); (BUpdatePurge (Some (7)%Z), true); (BInsertReal (2)%Z (bs "o") None (7)%Z, true); (BInsertCache (bs "http://u") (2)%Z (bs "/s") (0)%Z (15)%Z 1, true); (BInsertNar (1)%Z (bs "H1") (NI (Some (bs "b")) None (Some (bs "a")) (Some (bs "a")) None None (Some (4)%Z) (Some (bs "a")) (Some (bs "")) (Some (bs "")) None) (3)%Z, true)] in let d := snd s in
  map snd (fst s) = [Ok (1)%Z; Ok (1)%Z; Ok 0%Z; Ok 0%Z; Err ErrConstraint; Ok (3)%Z; Ok 0%Z] /\
  bc_QueryCache (bs "http://u") (0)%Z d [((3)%Z, (bs "/s"), (0)%Z, (15)%Z)] /\
  bc_QueryCache (bs "http://u") (4)%Z d [] /\
  bc_QueryCache (bs "http://v") (0)%Z d [] /\
  bc_QueryCache (bs "http://v") (4)%Z d [] /\
  bc_QueryCache (bs "") (0)%Z d [((1)%Z, (bs "/nix/store"), (0)%Z, (2)%Z)] /\
  bc_QueryCache (bs "") (4)%Z d [] /\
  bc_QueryNar (1)%Z (bs "h1") (2)%Z (-1)%Z d [] /\
  bc_QueryNar (1)%Z (bs "h2") (5)%Z (0)%Z d [] /\
  bc_QueryNar (1)%Z (bs "H1") (0)%Z (2)%Z d [((1)%Z, (NI (Some (bs "b")) None (Some (bs "a")) (Some (bs "a")) None None (Some (4)%Z) (Some (bs "a")) (Some (bs "")) (Some (bs "")) None))] /\
  bc_QueryRealisation (1)%Z (bs "o") (2)%Z (-1)%Z d [] /\
  bc_QueryRealisation (1)%Z (bs "p") (0)%Z (2)%Z d [] /\
  bc_QueryNar (2)%Z (bs "h1") (5)%Z (4)%Z d [] /\
  bc_QueryNar (2)%Z (bs "h2") (1)%Z (1)%Z d [] /\
  bc_QueryNar (2)%Z (bs "H1") (5)%Z (3)%Z d [] /\
  bc_QueryRealisation (2)%Z (bs "o") (-1)%Z (3)%Z d [] /\
  bc_QueryRealisation (2)%Z (bs "p") (2)%Z (4)%Z d [] /\
  bc_QueryNar (3)%Z (bs "h1") (-1)%Z (-1)%Z d [] /\
  bc_QueryNar (3)%Z (bs "h2") (4)%Z (3)%Z d [] /\
  bc_QueryNar (3)%Z (bs "H1") (1)%Z (4)%Z d [] /\
  bc_QueryRealisation (3)%Z (bs "o") (2)%Z (1)%Z d [] /\
  bc_QueryRealisation (3)%Z (bs "p") (-1)%Z (0)%Z d [] /\
  bc_QueryLastPurge d (Ok (Some (7)%Z)).
Proof. check. Qed.
Example binary_15 : let s := bc_run false [(BInsertReal (2)%Z (bs "p") (Some (bs "")) (1)%Z, true); (BUpdatePurge None, true); (BPurge (1)%Z (5)%Z, true); (BInsertCache (bs "http://v") (7)%Z (bs "/s") (0)%Z (39)%Z 0, true); (BInsertNar (2)%Z (bs "h2") (NI None (Some (bs "")) (Some (bs "a")) None (Some (3)%Z) None (Some (3)%Z) None (Some (bs "b")) None (Some (bs ""))) (3)%Z, true); (BUpdatePurge None, true); (BInsertMissingReal (2)%Z (bs "o") (5)%Z, true); (BInsertCache (bs "http://v") (6)%Z (bs "/s") (1)%Z (24)%Z 0, true); (BInsertCache (bs "http://u") (7)%Z (bs "/nix/store") (1)%Z (13)%Z 1, true); (BPurge (1)%Z (5)%Z, true); (BInsertCache (bs "http://v") (7)%Z (bs "/s") (1)%Z (39)%Z 0, true); (BInsertMissingReal (3)%Z (bs "o") (4)%Z, true); (BPurge (0)%Z (5)%Z, true); (BInsertCache (bs "http://v") (6)%Z (bs "/nix/store") (1)%Z (41)%Z 0, true); (BInsertNar (2)%Z (bs "h2") (NI (Some (bs "b")) (Some (bs "")) None None None (Some (bs "")) None (Some (bs "b")) (Some (bs "")) (Some (bs "a")) (Some (bs "b"))) (6)%Z, true); (BInsertCache (bs "") (6)%Z (bs "/nix/store") (0)%Z (13)%Z 2, true); (BInsertNar (3)%Z (bs "h1") (NI (Some (bs "a")) None None (Some (bs "a")) None (Some (bs "")) None None (Some (bs "")) (Some (bs "a")) None) (6)%Z, true)] in let d := snd s in
  map snd (fst s) = [Ok 0%Z; Ok 0%Z; Ok 0%Z; Ok (1)%Z; Ok 0%Z; Ok 0%Z; Ok 0%Z; Ok (1)%Z; Ok (3)%Z; Ok 0%Z; Ok (1)%Z; Ok 0%Z; Ok 0%Z; Ok (1)%Z; Ok 0%Z; Ok (6)%Z; Ok 0%Z] /\
  bc_QueryCache (bs "http://u") (0)%Z d [((3)%Z, (bs "/nix/store"), (1)%Z, (13)%Z)] /\
  bc_QueryCache (bs "http://u") (4)%Z d [((3)%Z, (bs "/nix/store"), (1)%Z, (13)%Z)] /\
  bc_QueryCache (bs "http://v") (0)%Z d [((1)%Z, (bs "/nix/store"), (1)%Z, (41)%Z)] /\
  bc_QueryCache (bs "http://v") (4)%Z d [((1)%Z, (bs "/nix/store"), (1)%Z, (41)%Z)] /\
  bc_QueryCache (bs "") (0)%Z d [((6)%Z, (bs "/nix/store"), (0)%Z, (13)%Z)] /\
  bc_QueryCache (bs "") (4)%Z d [((6)%Z, (bs "/nix/store"), (0)%Z, (13)%Z)] /\
  bc_QueryNar (1)%Z (bs "h1") (3)%Z (3)%Z d [] /\
  bc_QueryNar (1)%Z (bs "h2") (1)%Z (0)%Z d [] /\
  bc_QueryNar (1)%Z (bs "H1") (-1)%Z (-1)%Z d [] /\
  bc_QueryRealisation (1)%Z (bs "o") (0)%Z (2)%Z d [] /\
  bc_QueryRealisation (1)%Z (bs "p") (2)%Z (0)%Z d [] /\
  bc_QueryNar (2)%Z (bs "h1") (-1)%Z (4)%Z d [] /\
  bc_QueryNar (2)%Z (bs "h2") (3)%Z (3)%Z d [((1)%Z, (NI (Some (bs "b")) (Some (bs "")) None None None (Some (bs "")) None (Some (bs "b")) (Some (bs "")) (Some (bs "a")) (Some (bs "b"))))] /\
  bc_QueryNar (2)%Z (bs "H1") (2)%Z (5)%Z d [] /\
  bc_QueryRealisation (2)%Z (bs "o") (2)%Z (-1)%Z d [None] /\
  bc_QueryRealisation (2)%Z (bs "p") (1)%Z (-1)%Z d [(Some (bs ""))] /\
  bc_QueryNar (3)%Z (bs "h1") (3)%Z (3)%Z d [((1)%Z, (NI (Some (bs "a")) None None (Some (bs "a")) None (Some (bs "")) None None (Some (bs "")) (Some (bs "a")) None))] /\
  bc_QueryNar (3)%Z (bs "h2") (2)%Z (1)%Z d [] /\
  bc_QueryNar (3)%Z (bs "H1") (-1)%Z (4)%Z d [] /\
  bc_QueryRealisation (3)%Z (bs "o") (-1)%Z (2)%Z d [None] /\
  bc_QueryRealisation (3)%Z (bs "p") (3)%Z (3)%Z d [] /\
  bc_QueryLastPurge d (Ok None).
Proof. check. Qed.
Example binary_16 : let s := bc_run true [(BInsertCache (bs "http://v") (4)%Z (bs "/nix/store") (0)%Z (1)%Z 0, true); (BPurge (0)%Z (2)%Z, true); (BUpdatePurge (Some (6)%Z), true); (BUpdatePurge (Some (0)%Z), true); (BInsertReal (3)%Z (bs "p") (Some (bs "")) (4)%Z, true); (BInsertMissingReal (2)%Z (bs "o") (8)%Z, true); (BUpdatePurge (Some (8)%Z), true); (BUpdatePurge (Some (4)%Z), true); (BInsertMissingReal (2)%Z (bs "p") (4)%Z, true); (BInsertReal (2)%Z (bs "p") (Some (bs "")) (2)%Z, true); (BInsertCache (bs "") (3)%Z (bs "/s") (1)%Z (29)%Z 0, true); (BPurge (1)%Z (1)%Z, true); (BPurge (1)%Z (3)%Z, true); (BInsertNar (1)%Z (bs "h2") (NI (Some (bs "b")) (Some (bs "")) (Some (bs "a")) (Some (bs "b")) None (Some (bs "b")) (Some (-1)%Z) (Some (bs "a")) (Some (bs "")) (Some (bs "a")) None) (6)%Z, true)] in let d := snd s in
  map snd (fst s) = [Ok (1)%Z; Ok 0%Z; Ok 0%Z; Ok 0%Z; Err ErrConstraint; Err ErrConstraint; Ok 0%Z; Ok 0%Z; Err ErrConstraint; Err ErrConstraint; Ok (2)%Z; Ok 0%Z; Ok 0%Z; Ok 0%Z] /\
  bc_QueryCache (bs "http://u") (0)%Z d [] /\
  bc_QueryCache (bs "http://u") (4)%Z d [] /\
  bc_QueryCache (bs "http://v") (0)%Z d [((1)%Z, (bs "/nix/store"), (0)%Z, (1)%Z)] /\
  bc_QueryCache (bs "http://v") (4)%Z d [] /\
  bc_QueryCache (bs "") (0)%Z d [((2)%Z, (bs "/s"), (1)%Z, (29)%Z)] /\
  bc_QueryCache (bs "") (4)%Z d [] /\
  bc_QueryNar (1)%Z (bs "h1") (2)%Z (-1)%Z d [] /\
  bc_QueryNar (1)%Z (bs "h2") (1)%Z (1)%Z d [((1)%Z, (NI (Some (bs "b")) (Some (bs "")) (Some (bs "a")) (Some (bs "b")) None (Some (bs "b")) (Some (-1)%Z) (Some (bs "a")) (Some (bs "")) (Some (bs "a")) None))] /\
  bc_QueryNar (1)%Z (bs "H1") (3)%Z (3)%Z d [] /\
  bc_QueryRealisation (1)%Z (bs "o") (3)%Z (5)%Z d [] /\
  bc_QueryRealisation (1)%Z (bs "p") (2)%Z (0)%Z d [] /\
  bc_QueryNar (2)%Z (bs "h1") (5)%Z (-1)%Z d [] /\
  bc_QueryNar (2)%Z (bs "h2") (2)%Z (-1)%Z d [] /\
  bc_QueryNar (2)%Z (bs "H1") (5)%Z (-1)%Z d [] /\
  bc_QueryRealisation (2)%Z (bs "o") (0)%Z (-1)%Z d [] /\
  bc_QueryRealisation (2)%Z (bs "p") (4)%Z (-1)%Z d [] /\
  bc_QueryNar (3)%Z (bs "h1") (2)%Z (3)%Z d [] /\
  bc_QueryNar (3)%Z (bs "h2") (1)%Z (1)%Z d [] /\
  bc_QueryNar (3)%Z (bs "H1") (5)%Z (5)%Z d [] /\
  bc_QueryRealisation (3)%Z (bs "o") (1)%Z (1)%Z d [] /\
  bc_QueryRealisation (3)%Z (bs "p") (3)%Z (1)%Z d [] /\
  bc_QueryLastPurge d (Ok (Some (4)%Z)).
Proof. check. Qed.
Example binary_17 : let s := bc_run false [(BInsertCache (bs "http://v") (8)%Z (bs "/nix/store") (0)%Z (46)%Z 0, true); (BInsertNar (1)%Z (bs "h1") (NI None (Some (bs "")) None None None (Some (bs "")) (Some (-2)%Z) (Some (bs "a")) (Some (bs "a")) (Some (bs "")) None) (0)%Z, true); (BInsertReal (3)%Z (bs "o") None (6)%Z, true); (BInsertCache (bs "http://u") (8)%Z (bs "/s") (1)%Z (37)%Z 0, true); (BInsertMissing (1)%Z (bs "h2") (2)%Z, true); (BInsertReal (1)%Z (bs "p") (Some (bs "")) (7)%Z, true); (BInsertNar (3)%Z (bs "h2") (NI (Some (bs "a")) None None None None None (Some (2)%Z) (Some (bs "a")) (Some (bs "")) None (Some (bs "b"))) (6)%Z, true); (BPurge (5)%Z (5)%Z, true)] in let d := snd s in
  map snd (fst s) = [Ok (1)%Z; Ok 0%Z; Ok 0%Z; Ok (2)%Z; Ok 0%Z; Ok 0%Z; Ok 0%Z; Ok 0%Z] /\
  bc_QueryCache (bs "http://u") (0)%Z d [((2)%Z, (bs "/s"), (1)%Z, (37)%Z)] /\
  bc_QueryCache (bs "http://u") (4)%Z d [((2)%Z, (bs "/s"), (1)%Z, (37)%Z)] /\
  bc_QueryCache (bs "http://v") (0)%Z d [((1)%Z, (bs "/nix/store"), (0)%Z, (46)%Z)] /\
  bc_QueryCache (bs "http://v") (4)%Z d [((1)%Z, (bs "/nix/store"), (0)%Z, (46)%Z)] /\
  bc_QueryCache (bs "") (0)%Z d [] /\
  bc_QueryCache (bs "") (4)%Z d [] /\
  bc_QueryNar (1)%Z (bs "h1") (-1)%Z (3)%Z d [] /\
  bc_QueryNar (1)%Z (bs "h2") (2)%Z (2)%Z d [] /\
  bc_QueryNar (1)%Z (bs "H1") (0)%Z (5)%Z d [] /\
  bc_QueryRealisation (1)%Z (bs "o") (5)%Z (3)%Z d [] /\
  bc_QueryRealisation (1)%Z (bs "p") (-1)%Z (2)%Z d [(Some (bs ""))] /\
  bc_QueryNar (2)%Z (bs "h1") (3)%Z (0)%Z d [] /\
  bc_QueryNar (2)%Z (bs "h2") (5)%Z (-1)%Z d [] /\
  bc_QueryNar (2)%Z (bs "H1") (4)%Z (1)%Z d [] /\
  bc_QueryRealisation (2)%Z (bs "o") (3)%Z (0)%Z d [] /\
  bc_QueryRealisation (2)%Z (bs "p") (1)%Z (3)%Z d [] /\
  bc_QueryNar (3)%Z (bs "h1") (2)%Z (0)%Z d [] /\
  bc_QueryNar (3)%Z (bs "h2") (5)%Z (-1)%Z d [((1)%Z, (NI (Some (bs "a")) None None None None None (Some (2)%Z) (Some (bs "a")) (Some (bs "")) None (Some (bs "b"))))] /\
  bc_QueryNar (3)%Z (bs "H1") (4)%Z (-1)%Z d [] /\
  bc_QueryRealisation (3)%Z (bs "o") (5)%Z (-1)%Z d [None] /\
  bc_QueryRealisation (3)%Z (bs "p") (4)%Z (5)%Z d [] /\
  bc_QueryLastPurge d (Err ErrNoRows).
Proof. check. Qed.
Example binary_18 : let s := bc_run true [(BInsertNar (3)%Z (bs "h1") (NI (Some (bs "b")) None (Some (bs "b")) (Some (bs "b")) None None (Some (1)%Z) None (Some (bs "b")) (Some (bs "")) (Some (bs "a"))) (2)%Z, true); (BInsertNar (3)%Z (bs "h1") (NI (Some (bs "")) (Some (bs "a")) None None None (Some (bs "b")) None (Some (bs "b")) (Some (bs "b")) None None) (6)%Z, true); (BPurge (1)%Z (5)%Z, true); (BInsertCache (bs "http://u") (3)%Z (bs "/nix/store") (0)%Z (36)%Z 0, true); (BInsertCache (bs "") (0)%Z (bs "/s") (0)%Z (0)%Z 0, true); (BInsertNar (2)%Z (bs "H1") (NI None None (Some (bs "b")) None None None (Some (-1)%Z) (Some (bs "b")) None (Some (bs "a")) (Some (bs "b"))) (3)%Z, true); (BInsertNar (3)%Z (bs "h1") (NI (Some (bs "")) None (Some (bs "")) None None None (Some (3)%Z) (Some (bs "b")) (Some (bs "a")) (Some (bs "")) None) (8)%Z, true)] in let d := snd s in
  map snd (fst s) = [Err ErrConstraint; Err ErrConstraint; Ok 0%Z; Ok (1)%Z; Ok (2)%Z; Ok 0%Z; Err ErrConstraint] /\
  bc_QueryCache (bs "http://u") (0)%Z d [((1)%Z, (bs "/nix/store"), (0)%Z, (36)%Z)] /\
  bc_QueryCache (bs "http://u") (4)%Z d [] /\
  bc_QueryCache (bs "http://v") (0)%Z d [] /\
  bc_QueryCache (bs "http://v") (4)%Z d [] /\
  bc_QueryCache (bs "") (0)%Z d [] /\
  bc_QueryCache (bs "") (4)%Z d [] /\
  bc_QueryNar (1)%Z (bs "h1") (0)%Z (1)%Z d [] /\
  bc_QueryNar (1)%Z (bs "h2") (5)%Z (3)%Z d [] /\
  bc_QueryNar (1)%Z (bs "H1") (3)%Z (0)%Z d [] /\
  bc_QueryRealisation (1)%Z (bs "o") (5)%Z (2)%Z d [] /\
  bc_QueryRealisation (1)%Z (bs "p") (1)%Z (3)%Z d [] /\
  bc_QueryNar (2)%Z (bs "h1") (1)%Z (5)%Z d [] /\
  bc_QueryNar (2)%Z (bs "h2") (5)%Z (-1)%Z d [] /\
  bc_QueryNar (2)%Z (bs "H1") (5)%Z (1)%Z d [((1)%Z, (NI None None (Some (bs "b")) None None None (Some (-1)%Z) (Some (bs "b")) None (Some (bs "a")) (Some (bs "b"))))] /\
  bc_QueryRealisation (2)%Z (bs "o") (2)%Z (2)%Z d [] /\
  bc_QueryRealisation (2)%Z (bs "p") (-1)%Z (3)%Z d [] /\
  bc_QueryNar (3)%Z (bs "h1") (-1)%Z (0)%Z d [] /\
  bc_QueryNar (3)%Z (bs "h2") (3)%Z (4)%Z d [] /\
  bc_QueryNar (3)%Z (bs "H1") (1)%Z (-1)%Z d [] /\
  bc_QueryRealisation (3)%Z (bs "o") (5)%Z (5)%Z d [] /\
  bc_QueryRealisation (3)%Z (bs "p") (3)%Z (1)%Z d [] /\
  bc_QueryLastPurge d (Err ErrNoRows).
Proof. check. Qed.
Example binary_19 : let s := bc_run false [(BInsertMissing (3)%Z (bs "h2") (8)%Z, true); (BInsertNar (2)%Z (bs "H1") (NI None (Some (bs "a")) None (Some (bs "")) (Some (2)%Z) (Some (bs "a")) None (Some (bs "a")) (Some (bs "b")) None (Some (bs "b"))) (4)%Z, true); (BInsertNar (1)%Z (bs "h1") (NI None None None None None (Some (bs "")) (Some (1)%Z) (Some (bs "a")) (Some (bs "b")) (Some (bs "b")) None) (2)%Z, true); (BUpdatePurge None, true); (BPurge (5)%Z (1)%Z, true); (BUpdatePurge (Some (2)%Z), true); (BInsertCache (bs "http://v") (2)%Z (bs "/nix/store") (0)%Z (31)%Z 0, true); (BInsertReal (1)%Z (bs "o") (Some (bs "")) (8)%Z, true); (BPurge (2)%Z (0)%Z, true); (BInsertReal (2)%Z (bs "o") None (2)%Z, true); (BInsertCache (bs "http://v") (6)%Z (bs "/nix/store") (0)%Z (46)%Z 0, true); (BInsertCache (bs "http://v") (5)%Z (bs "/s") (0)%Z (25)%Z 0, true); (BInsertMissing (1)%Z (bs "h2") (5)%Z, true); (BInsertCache (bs "http://v") (3)%Z (bs "/s") (1)%Z (12)%Z 0, true)] in let d := snd s in
  map snd (fst s) = [Ok 0%Z; Ok 0%Z; Ok 0%Z; Ok 0%Z; Ok 0%Z; Ok 0%Z; Ok (1)%Z; Ok 0%Z; Ok 0%Z; Ok 0%Z; Ok (1)%Z; Ok (1)%Z; Ok 0%Z; Ok (1)%Z] /\
  bc_QueryCache (bs "http://u") (0)%Z d [] /\
  bc_QueryCache (bs "http://u") (4)%Z d [] /\
  bc_QueryCache (bs "http://v") (0)%Z d [((1)%Z, (bs "/s"), (1)%Z, (12)%Z)] /\
  bc_QueryCache (bs "http://v") (4)%Z d [] /\
  bc_QueryCache (bs "") (0)%Z d [] /\
  bc_QueryCache (bs "") (4)%Z d [] /\
  bc_QueryNar (1)%Z (bs "h1") (-1)%Z (2)%Z d [] /\
  bc_QueryNar (1)%Z (bs "h2") (1)%Z (1)%Z d [((0)%Z, (NI None None None None None None None None None None None))] /\
  bc_QueryNar (1)%Z (bs "H1") (3)%Z (1)%Z d [] /\
  bc_QueryRealisation (1)%Z (bs "o") (5)%Z (5)%Z d [(Some (bs ""))] /\
  bc_QueryRealisation (1)%Z (bs "p") (4)%Z (0)%Z d [] /\
  bc_QueryNar (2)%Z (bs "h1") (0)%Z (5)%Z d [] /\
  bc_QueryNar (2)%Z (bs "h2") (4)%Z (3)%Z d [] /\
  bc_QueryNar (2)%Z (bs "H1") (3)%Z (5)%Z d [] /\
  bc_QueryRealisation (2)%Z (bs "o") (-1)%Z (1)%Z d [None] /\
  bc_QueryRealisation (2)%Z (bs "p") (1)%Z (5)%Z d [] /\
  bc_QueryNar (3)%Z (bs "h1") (1)%Z (0)%Z d [] /\
  bc_QueryNar (3)%Z (bs "h2") (3)%Z (4)%Z d [((0)%Z, (NI None None None None None None None None None None None))] /\
  bc_QueryNar (3)%Z (bs "H1") (5)%Z (5)%Z d [] /\
  bc_QueryRealisation (3)%Z (bs "o") (4)%Z (3)%Z d [] /\
  bc_QueryRealisation (3)%Z (bs "p") (2)%Z (5)%Z d [] /\
  bc_QueryLastPurge d (Ok (Some (2)%Z)).
Proof. check. Qed.
Example nix_0 : let s := nx_run false [(NAddOut (5)%Z (bs "out") (bs "/o1"), true); (NRegister (bs "/c") (PI (bs "h") (8)%Z (Some (bs "y")) (Some (5)%Z) None (Some (bs "")) None) 0, true); (NRegister (bs "/b") (PI (bs "h") (8)%Z (Some (bs "x")) (Some (8)%Z) None None (Some (bs "y"))) 0, true); (NUpdate (Some (4)%Z) (bs "h") None (Some (bs "")) None (bs "/c"), true); (NRegister (bs "/a") (PI (bs "g") (7)%Z None (Some (6)%Z) None (Some (bs "")) None) 0, true); (NAddOut (1)%Z (bs "out") (bs "/o1"), true); (NInvalidate (bs "/a"), true); (NRegister (bs "/c") (PI (bs "g") (6)%Z (Some (bs "x")) None (Some (3)%Z) (Some (bs "x")) None) 0, true); (NRegister (bs "/b") (PI (bs "g") (3)%Z None (Some (3)%Z) (Some (8)%Z) None None) 0, true); (NAddRef (1)%Z (2)%Z, true); (NAddOut (4)%Z (bs "dev") (bs "/o2"), true); (NAddRef (1)%Z (4)%Z, true); (NRegister (bs "/aa") (PI (bs "h") (0)%Z (Some (bs "y")) None None (Some (bs "y")) None) 0, true); (NAddRef (5)%Z (3)%Z, true); (NAddRef (5)%Z (4)%Z, true)] in let d := snd s in
  map snd (fst s) = [Ok tt; Ok tt; Ok tt; Ok tt; Ok tt; Ok tt; Ok tt; Err ErrConstraint; Err ErrConstraint; Ok tt; Ok tt; Ok tt; Ok tt; Ok tt; Ok tt] /\
  nx_QueryPathInfo (bs "/a") d (Err ErrNoRows) /\
  nx_QueryReferrers (bs "/a") d [] /\
  nx_QueryPathInfo (bs "/b") d (Ok ((2)%Z, PI (bs "h") (8)%Z (Some (bs "x")) (Some (8)%Z) None None (Some (bs "y")))) /\
  nx_QueryReferrers (bs "/b") d [(bs "/c")] /\
  nx_QueryPathInfo (bs "/c") d (Ok ((1)%Z, PI (bs "h") (8)%Z (Some (bs "y")) (Some (4)%Z) None (Some (bs "")) None)) /\
  nx_QueryReferrers (bs "/c") d [] /\
  nx_QueryPathInfo (bs "/aa") d (Ok ((4)%Z, PI (bs "h") (0)%Z (Some (bs "y")) None None (Some (bs "y")) None)) /\
  nx_QueryReferrers (bs "/aa") d [(bs "/c")] /\
  nx_QueryReferences (1)%Z d [(bs "/b"); (bs "/aa")] /\
  nx_QueryDerivationOutputs (1)%Z d [((bs "out"), (bs "/o1"))] /\
  nx_QueryReferences (2)%Z d [] /\
  nx_QueryDerivationOutputs (2)%Z d [] /\
  nx_QueryReferences (3)%Z d [] /\
  nx_QueryDerivationOutputs (3)%Z d [] /\
  nx_QueryReferences (4)%Z d [] /\
  nx_QueryDerivationOutputs (4)%Z d [((bs "dev"), (bs "/o2"))] /\
  nx_QueryReferences (5)%Z d [(bs "/aa")] /\
  nx_QueryDerivationOutputs (5)%Z d [((bs "out"), (bs "/o1"))] /\
  nx_QueryValidDerivers (bs "/o1") d [((1)%Z, (bs "/c"))] /\
  nx_QueryValidDerivers (bs "/o2") d [((4)%Z, (bs "/aa"))] /\
  nx_QueryValidDerivers (bs "/a") d [] /\
  nx_QueryPathFromHashPart (bs "/") d (Ok (bs "/aa")) /\
  nx_QueryPathFromHashPart (bs "/a") d (Ok (bs "/aa")) /\
  nx_QueryPathFromHashPart (bs "/ab") d (Ok (bs "/b")) /\
  nx_QueryPathFromHashPart (bs "/b") d (Ok (bs "/b")) /\
  nx_QueryPathFromHashPart (bs "/z") d (Err ErrNoRows).
Proof. check. Qed.
Example nix_1 : let s := nx_run true [(NAddOut (4)%Z (bs "dev") (bs "/o2"), true); (NAddRef (1)%Z (2)%Z, true); (NRegister (bs "/a") (PI (bs "h") (5)%Z (Some (bs "")) (Some (4)%Z) (Some (5)%Z) (Some (bs "x")) (Some (bs ""))) 0, true); (NAddOut (1)%Z (bs "dev") (bs "/o1"), true); (NRegister (bs "/b") (PI (bs "h") (8)%Z (Some (bs "")) None (Some (7)%Z) (Some (bs "x")) None) 0, true); (NAddRef (4)%Z (1)%Z, true); (NAddOut (1)%Z (bs "dev") (bs "/o2"), true); (NUpdate None (bs "h") (Some (7)%Z) None None (bs "/aa"), true)] in let d := snd s in
  map snd (fst s) = [Err ErrConstraint; Err ErrConstraint; Ok tt; Ok tt; Ok tt; Err ErrConstraint; Ok tt; Ok tt] /\
  nx_QueryPathInfo (bs "/a") d (Ok ((1)%Z, PI (bs "h") (5)%Z (Some (bs "")) (Some (4)%Z) (Some (5)%Z) (Some (bs "x")) (Some (bs "")))) /\
  nx_QueryReferrers (bs "/a") d [] /\
  nx_QueryPathInfo (bs "/b") d (Ok ((2)%Z, PI (bs "h") (8)%Z (Some (bs "")) None (Some (7)%Z) (Some (bs "x")) None)) /\
  nx_QueryReferrers (bs "/b") d [] /\
  nx_QueryPathInfo (bs "/c") d (Err ErrNoRows) /\
  nx_QueryReferrers (bs "/c") d [] /\
  nx_QueryPathInfo (bs "/aa") d (Err ErrNoRows) /\
  nx_QueryReferrers (bs "/aa") d [] /\
  nx_QueryReferences (1)%Z d [] /\
  nx_QueryDerivationOutputs (1)%Z d [((bs "dev"), (bs "/o2"))] /\
  nx_QueryReferences (2)%Z d [] /\
  nx_QueryDerivationOutputs (2)%Z d [] /\
  nx_QueryReferences (3)%Z d [] /\
  nx_QueryDerivationOutputs (3)%Z d [] /\
  nx_QueryReferences (4)%Z d [] /\
  nx_QueryDerivationOutputs (4)%Z d [] /\
  nx_QueryReferences (5)%Z d [] /\
  nx_QueryDerivationOutputs (5)%Z d [] /\
  nx_QueryValidDerivers (bs "/o1") d [] /\
  nx_QueryValidDerivers (bs "/o2") d [((1)%Z, (bs "/a"))] /\
  nx_QueryValidDerivers (bs "/a") d [] /\
  nx_QueryPathFromHashPart (bs "/") d (Ok (bs "/a")) /\
  nx_QueryPathFromHashPart (bs "/a") d (Ok (bs "/a")) /\
  nx_QueryPathFromHashPart (bs "/ab") d (Ok (bs "/b")) /\
  nx_QueryPathFromHashPart (bs "/b") d (Ok (bs "/b")) /\
  nx_QueryPathFromHashPart (bs "/z") d (Err ErrNoRows).
Proof. check. Qed.
Example nix_2 : let s := nx_run true [(NAddRef (3)%Z (1)%Z, true); (NUpdate None (bs "g") (Some (4)%Z) (Some (bs "")) (Some (bs "")) (bs "/aa"), true); (NInvalidate (bs "/b"), true); (NAddRef (5)%Z (2)%Z, true); (NAddRef (1)%Z (3)%Z, true); (NAddOut (3)%Z (bs "dev") (bs "/o2"), true); (NUpdate None (bs "g") (Some (6)%Z) (Some (bs "y")) (Some (bs "x")) (bs "/aa"), true); (NAddOut (4)%Z (bs "out") (bs "/o1"), true); (NRegister (bs "/b") (PI (bs "g") (7)%Z (Some (bs "y")) None None (Some (bs "")) (Some (bs "y"))) 0, true); (NRegister (bs "/c") (PI (bs "g") (5)%Z None None (Some (8)%Z) (Some (bs "")) (Some (bs "y"))) 0, true)] in let d := snd s in
  map snd (fst s) = [Err ErrConstraint; Ok tt; Ok tt; Err ErrConstraint; Err ErrConstraint; Err ErrConstraint; Ok tt; Err ErrConstraint; Ok tt; Ok tt] /\
  nx_QueryPathInfo (bs "/a") d (Err ErrNoRows) /\
  nx_QueryReferrers (bs "/a") d [] /\
  nx_QueryPathInfo (bs "/b") d (Ok ((1)%Z, PI (bs "g") (7)%Z (Some (bs "y")) None None (Some (bs "")) (Some (bs "y")))) /\
  nx_QueryReferrers (bs "/b") d [] /\
  nx_QueryPathInfo (bs "/c") d (Ok ((2)%Z, PI (bs "g") (5)%Z None None (Some (8)%Z) (Some (bs "")) (Some (bs "y")))) /\
  nx_QueryReferrers (bs "/c") d [] /\
  nx_QueryPathInfo (bs "/aa") d (Err ErrNoRows) /\
  nx_QueryReferrers (bs "/aa") d [] /\
  nx_QueryReferences (1)%Z d [] /\
  nx_QueryDerivationOutputs (1)%Z d [] /\
  nx_QueryReferences (2)%Z d [] /\
  nx_QueryDerivationOutputs (2)%Z d [] /\
  nx_QueryReferences (3)%Z d [] /\
  nx_QueryDerivationOutputs (3)%Z d [] /\
  nx_QueryReferences (4)%Z d [] /\
  nx_QueryDerivationOutputs (4)%Z d [] /\
  nx_QueryReferences (5)%Z d [] /\
  nx_QueryDerivationOutputs (5)%Z d [] /\
  nx_QueryValidDerivers (bs "/o1") d [] /\
  nx_QueryValidDerivers (bs "/o2") d [] /\
  nx_QueryValidDerivers (bs "/a") d [] /\
  nx_QueryPathFromHashPart (bs "/") d (Ok (bs "/b")) /\
  nx_QueryPathFromHashPart (bs "/a") d (Ok (bs "/b")) /\
  nx_QueryPathFromHashPart (bs "/ab") d (Ok (bs "/b")) /\
  nx_QueryPathFromHashPart (bs "/b") d (Ok (bs "/b")) /\
  nx_QueryPathFromHashPart (bs "/z") d (Err ErrNoRows).
Proof. check. Qed.
Example nix_3 : let s := nx_run false [(NAddRef (5)%Z (3)%Z, true); (NRegister (bs "/b") (PI (bs "g") (0)%Z (Some (bs "x")) (Some (1)%Z) (Some (1)%Z) None (Some (bs "y"))) 0, true); (NUpdate (Some (4)%Z) (bs "g") None (Some (bs "y")) None (bs "/c"), true); (NRegister (bs "/c") (PI (bs "g") (7)%Z (Some (bs "y")) (Some (6)%Z) (Some (2)%Z) (Some (bs "")) None) 0, true); (NAddOut (5)%Z (bs "out") (bs "/o1"), true); (NAddOut (3)%Z (bs "out") (bs "/o1"), true); (NRegister (bs "/a") (PI (bs "g") (7)%Z None None None None (Some (bs "y"))) 0, true); (NRegister (bs "/b") (PI (bs "h") (1)%Z None None None (Some (bs "y")) None) 0, true); (NRegister (bs "/c") (PI (bs "h") (4)%Z (Some (bs "")) None None (Some (bs "x")) (Some (bs "x"))) 0, true); (NInvalidate (bs "/a"), true); (NRegister (bs "/c") (PI (bs "g") (2)%Z (Some (bs "y")) (Some (7)%Z) (Some (8)%Z) None (Some (bs "y"))) 0, true); (NAddOut (3)%Z (bs "dev") (bs "/o1"), true)] in let d := snd s in
  map snd (fst s) = [Ok tt; Ok tt; Ok tt; Ok tt; Ok tt; Ok tt; Ok tt; Err ErrConstraint; Err ErrConstraint; Ok tt; Err ErrConstraint; Ok tt] /\
  nx_QueryPathInfo (bs "/a") d (Err ErrNoRows) /\
  nx_QueryReferrers (bs "/a") d [] /\
  nx_QueryPathInfo (bs "/b") d (Ok ((1)%Z, PI (bs "g") (0)%Z (Some (bs "x")) (Some (1)%Z) (Some (1)%Z) None (Some (bs "y")))) /\
  nx_QueryReferrers (bs "/b") d [] /\
  nx_QueryPathInfo (bs "/c") d (Ok ((2)%Z, PI (bs "g") (7)%Z (Some (bs "y")) (Some (6)%Z) (Some (2)%Z) (Some (bs "")) None)) /\
  nx_QueryReferrers (bs "/c") d [] /\
  nx_QueryPathInfo (bs "/aa") d (Err ErrNoRows) /\
  nx_QueryReferrers (bs "/aa") d [] /\
  nx_QueryReferences (1)%Z d [] /\
  nx_QueryDerivationOutputs (1)%Z d [] /\
  nx_QueryReferences (2)%Z d [] /\
  nx_QueryDerivationOutputs (2)%Z d [] /\
  nx_QueryReferences (3)%Z d [] /\
  nx_QueryDerivationOutputs (3)%Z d [((bs "dev"), (bs "/o1")); ((bs "out"), (bs "/o1"))] /\
  nx_QueryReferences (4)%Z d [] /\
  nx_QueryDerivationOutputs (4)%Z d [] /\
  nx_QueryReferences (5)%Z d [] /\
  nx_QueryDerivationOutputs (5)%Z d [((bs "out"), (bs "/o1"))] /\
  nx_QueryValidDerivers (bs "/o1") d [] /\
  nx_QueryValidDerivers (bs "/o2") d [] /\
  nx_QueryValidDerivers (bs "/a") d [] /\
  nx_QueryPathFromHashPart (bs "/") d (Ok (bs "/b")) /\
  nx_QueryPathFromHashPart (bs "/a") d (Ok (bs "/b")) /\
  nx_QueryPathFromHashPart (bs "/ab") d (Ok (bs "/b")) /\
  nx_QueryPathFromHashPart (bs "/b") d (Ok (bs "/b")) /\
  nx_QueryPathFromHashPart (bs "/z") d (Err ErrNoRows).
Proof. check. Qed.
Example nix_4 : let s := nx_run true [(NAddRef (4)%Z (3)%Z, true); (NRegister (bs "/c") (PI (bs "g") (5)%Z (Some (bs "")) None None None (Some (bs "y"))) 0, true); (NAddRef (5)%Z (1)%Z, true); (NRegister (bs "/b") (PI (bs "h") (5)%Z (Some (bs "y")) (Some (0)%Z) None (Some (bs "y")) (Some (bs "x"))) 0, true); (NAddRef (1)%Z (1)%Z, true); (NRegister (bs "/aa") (PI (bs "g") (6)%Z (Some (bs "x")) (Some (6)%Z) None (Some (bs "x")) (Some (bs "x"))) 0, true); (NUpdate None (bs "g") None (Some (bs "")) (Some (bs "")) (bs "/aa"), true); (NInvalidate (bs "/c"), true); (NAddRef (5)%Z (3)%Z, true); (NInvalidate (bs "/b"), true); (NAddRef (3)%Z (2)%Z, true); (NAddRef (3)%Z (2)%Z, true); (NRegister (bs "/a") (PI (bs "h") (1)%Z (Some (bs "x")) (Some (1)%Z) (Some (6)%Z) (Some (bs "x")) None) 0, true); (NInvalidate (bs "/a"), true); (NRegister (bs "/aa") (PI (bs "g") (1)%Z (Some (bs "x")) (Some (0)%Z) (Some (5)%Z) (Some (bs "x")) None) 0, true); (NRegister (bs "/c") (PI (bs "g") (4)%Z (Some (bs "")) None (Some (2)%Z) None None) 0, true)] in let d := snd s in
  map snd (fst s) = [Err ErrConstraint; Ok tt; Err ErrConstraint; Ok tt; Ok tt; Ok tt; Ok tt; Ok tt; Err ErrConstraint; Ok tt; Err ErrConstraint; Err ErrConstraint; Ok tt; Ok tt; Err ErrConstraint; Ok tt] /\
  nx_QueryPathInfo (bs "/a") d (Err ErrNoRows) /\
  nx_QueryReferrers (bs "/a") d [] /\
  nx_QueryPathInfo (bs "/b") d (Err ErrNoRows) /\
  nx_QueryReferrers (bs "/b") d [] /\
  nx_QueryPathInfo (bs "/c") d (Ok ((5)%Z, PI (bs "g") (4)%Z (Some (bs "")) None (Some (2)%Z) None None)) /\
  nx_QueryReferrers (bs "/c") d [] /\
  nx_QueryPathInfo (bs "/aa") d (Ok ((3)%Z, PI (bs "g") (6)%Z (Some (bs "x")) None None (Some (bs "")) (Some (bs "")))) /\
  nx_QueryReferrers (bs "/aa") d [] /\
  nx_QueryReferences (1)%Z d [] /\
  nx_QueryDerivationOutputs (1)%Z d [] /\
  nx_QueryReferences (2)%Z d [] /\
  nx_QueryDerivationOutputs (2)%Z d [] /\
  nx_QueryReferences (3)%Z d [] /\
  nx_QueryDerivationOutputs (3)%Z d [] /\
  nx_QueryReferences (4)%Z d [] /\
  nx_QueryDerivationOutputs (4)%Z d [] /\
  nx_QueryReferences (5)%Z d [] /\
  nx_QueryDerivationOutputs (5)%Z d [] /\
  nx_QueryValidDerivers (bs "/o1") d [] /\
  nx_QueryValidDerivers (bs "/o2") d [] /\
  nx_QueryValidDerivers (bs "/a") d [] /\
  nx_QueryPathFromHashPart (bs "/") d (Ok (bs "/aa")) /\
  nx_QueryPathFromHashPart (bs "/a") d (Ok (bs "/aa")) /\
  nx_QueryPathFromHashPart (bs "/ab") d (Ok (bs "/c")) /\
  nx_QueryPathFromHashPart (bs "/b") d (Ok (bs "/c")) /\
  nx_QueryPathFromHashPart (bs "/z") d (Err ErrNoRows).
Proof. check. Qed.
Example nix_5 : let s := nx_run true [(NAddRef (2)%Z (1)%Z, true); (NRegister (bs "/a") (PI (bs "g") (7)%Z (Some (bs "x")) (Some (1)%Z) (Some (0)%Z) (Some (bs "x")) (Some (bs ""))) 0, true); (NAddRef (4)%Z (4)%Z, true); (NRegister (bs "/aa") (PI (bs "h") (1)%Z (Some (bs "y")) (Some (3)%Z) None None None) 0, true); (NAddOut (4)%Z (bs "dev") (bs "/o1"), true); (NRegister (bs "/aa") (PI (bs "h") (8)%Z (Some (bs "")) (Some (2)%Z) (Some (0)%Z) (Some (bs "y")) (Some (bs ""))) 0, true); (NAddRef (3)%Z (2)%Z, true); (NAddOut (4)%Z (bs "out") (bs "/o2"), true); (NInvalidate (bs "/b"), true); (NUpdate (Some (5)%Z) (bs "g") (Some (8)%Z) (Some (bs "x")) (Some (bs "y")) (bs "/aa"), true); (NAddOut (5)%Z (bs "out") (bs "/o2"), true); (NUpdate (Some (8)%Z) (bs "h") (Some (7)%Z) (Some (bs "x")) (Some (bs "x")) (bs "/b"), true); (NRegister (bs "/c") (PI (bs "h") (1)%Z (Some (bs "")) None None None (Some (bs ""))) 0, true); (NAddRef (5)%Z (3)%Z, true); (NAddRef (1)%Z (3)%Z, true); (NAddOut (1)%Z (bs "dev") (bs "/o2"), true); (NAddOut (3)%Z (bs "dev") (bs "/o2"), true); (NUpdate (Some (3)%Z) (bs "g") (Some (4)%Z) None (Some (bs "x")) (bs "/a"), true); (NUpdate (Some (7)%Z) (bs "h") (Some (1)%Z) (Some (bs "")) None (bs "/b"), true)] in let d := snd s in
  map snd (fst s) = [Err ErrConstraint; Ok tt; Err ErrConstraint; Ok tt; Err ErrConstraint; Err ErrConstraint; Err ErrConstraint; Err ErrConstraint; Ok tt; Ok tt; Err ErrConstraint; Ok tt; Ok tt; Err ErrConstraint; Ok tt; Ok tt; Ok tt; Ok tt; Ok tt] /\
  nx_QueryPathInfo (bs "/a") d (Ok ((1)%Z, PI (bs "g") (7)%Z (Some (bs "x")) (Some (3)%Z) (Some (4)%Z) None (Some (bs "x")))) /\
  nx_QueryReferrers (bs "/a") d [] /\
  nx_QueryPathInfo (bs "/b") d (Err ErrNoRows) /\
  nx_QueryReferrers (bs "/b") d [] /\
  nx_QueryPathInfo (bs "/c") d (Ok ((3)%Z, PI (bs "h") (1)%Z (Some (bs "")) None None None (Some (bs "")))) /\
  nx_QueryReferrers (bs "/c") d [(bs "/a")] /\
  nx_QueryPathInfo (bs "/aa") d (Ok ((2)%Z, PI (bs "g") (1)%Z (Some (bs "y")) (Some (5)%Z) (Some (8)%Z) (Some (bs "x")) (Some (bs "y")))) /\
  nx_QueryReferrers (bs "/aa") d [] /\
  nx_QueryReferences (1)%Z d [(bs "/c")] /\
  nx_QueryDerivationOutputs (1)%Z d [((bs "dev"), (bs "/o2"))] /\
  nx_QueryReferences (2)%Z d [] /\
  nx_QueryDerivationOutputs (2)%Z d [] /\
  nx_QueryReferences (3)%Z d [] /\
  nx_QueryDerivationOutputs (3)%Z d [((bs "dev"), (bs "/o2"))] /\
  nx_QueryReferences (4)%Z d [] /\
  nx_QueryDerivationOutputs (4)%Z d [] /\
  nx_QueryReferences (5)%Z d [] /\
  nx_QueryDerivationOutputs (5)%Z d [] /\
  nx_QueryValidDerivers (bs "/o1") d [] /\
  nx_QueryValidDerivers (bs "/o2") d [((1)%Z, (bs "/a")); ((3)%Z, (bs "/c"))] /\
  nx_QueryValidDerivers (bs "/a") d [] /\
  nx_QueryPathFromHashPart (bs "/") d (Ok (bs "/a")) /\
  nx_QueryPathFromHashPart (bs "/a") d (Ok (bs "/a")) /\
  nx_QueryPathFromHashPart (bs "/ab") d (Ok (bs "/c")) /\
  nx_QueryPathFromHashPart (bs "/b") d (Ok (bs "/c")) /\
  nx_QueryPathFromHashPart (bs "/z") d (Err ErrNoRows).
Proof. check. Qed.
Example nix_6 : let s := nx_run false [(NAddOut (4)%Z (bs "dev") (bs "/o1"), true); (NUpdate None (bs "h") None (Some (bs "y")) (Some (bs "y")) (bs "/c"), true); (NRegister (bs "/b") (PI (bs "g") (7)%Z (Some (bs "y")) None (Some (1)%Z) None None) 0, true); (NAddRef (4)%Z (2)%Z, true); (NAddRef (3)%Z (2)%Z, true); (NAddRef (3)%Z (2)%Z, true); (NAddOut (2)%Z (bs "out") (bs "/o1"), true); (NRegister (bs "/a") (PI (bs "h") (2)%Z None (Some (2)%Z) (Some (5)%Z) (Some (bs "")) (Some (bs ""))) 0, true); (NRegister (bs "/c") (PI (bs "h") (7)%Z (Some (bs "")) None (Some (5)%Z) (Some (bs "x")) None) 0, true); (NAddOut (5)%Z (bs "dev") (bs "/o2"), true); (NAddRef (2)%Z (5)%Z, true); (NRegister (bs "/c") (PI (bs "h") (3)%Z None None (Some (4)%Z) (Some (bs "y")) None) 0, true); (NAddOut (5)%Z (bs "out") (bs "/o1"), true); (NAddRef (5)%Z (4)%Z, true); (NInvalidate (bs "/a"), true); (NRegister (bs "/aa") (PI (bs "g") (8)%Z (Some (bs "y")) None (Some (4)%Z) (Some (bs "")) (Some (bs "x"))) 0, true); (NAddRef (3)%Z (4)%Z, true)] in let d := snd s in
  map snd (fst s) = [Ok tt; Ok tt; Ok tt; Ok tt; Ok tt; Ok tt; Ok tt; Ok tt; Ok tt; Ok tt; Ok tt; Err ErrConstraint; Ok tt; Ok tt; Ok tt; Ok tt; Ok tt] /\
  nx_QueryPathInfo (bs "/a") d (Err ErrNoRows) /\
  nx_QueryReferrers (bs "/a") d [] /\
  nx_QueryPathInfo (bs "/b") d (Ok ((1)%Z, PI (bs "g") (7)%Z (Some (bs "y")) None (Some (1)%Z) None None)) /\
  nx_QueryReferrers (bs "/b") d [] /\
  nx_QueryPathInfo (bs "/c") d (Ok ((3)%Z, PI (bs "h") (7)%Z (Some (bs "")) None (Some (5)%Z) (Some (bs "x")) None)) /\
  nx_QueryReferrers (bs "/c") d [] /\
  nx_QueryPathInfo (bs "/aa") d (Ok ((4)%Z, PI (bs "g") (8)%Z (Some (bs "y")) None (Some (4)%Z) (Some (bs "")) (Some (bs "x")))) /\
  nx_QueryReferrers (bs "/aa") d [(bs "/c")] /\
  nx_QueryReferences (1)%Z d [] /\
  nx_QueryDerivationOutputs (1)%Z d [] /\
  nx_QueryReferences (2)%Z d [] /\
  nx_QueryDerivationOutputs (2)%Z d [((bs "out"), (bs "/o1"))] /\
  nx_QueryReferences (3)%Z d [(bs "/aa")] /\
  nx_QueryDerivationOutputs (3)%Z d [] /\
  nx_QueryReferences (4)%Z d [] /\
  nx_QueryDerivationOutputs (4)%Z d [((bs "dev"), (bs "/o1"))] /\
  nx_QueryReferences (5)%Z d [(bs "/aa")] /\
  nx_QueryDerivationOutputs (5)%Z d [((bs "dev"), (bs "/o2")); ((bs "out"), (bs "/o1"))] /\
  nx_QueryValidDerivers (bs "/o1") d [((4)%Z, (bs "/aa"))] /\
  nx_QueryValidDerivers (bs "/o2") d [] /\
  nx_QueryValidDerivers (bs "/a") d [] /\
  nx_QueryPathFromHashPart (bs "/") d (Ok (bs "/aa")) /\
  nx_QueryPathFromHashPart (bs "/a") d (Ok (bs "/aa")) /\
  nx_QueryPathFromHashPart (bs "/ab") d (Ok (bs "/b")) /\
  nx_QueryPathFromHashPart (bs "/b") d (Ok (bs "/b")) /\
  nx_QueryPathFromHashPart (bs "/z") d (Err ErrNoRows).
Proof. check. Qed.
Example nix_7 : let s := nx_run true [(NAddRef (4)%Z (5)%Z, true); (NAddRef (4)%Z (4)%Z, true); (NAddOut (1)%Z (bs "dev") (bs "/o2"), true); (NInvalidate (bs "/a"), true); (NRegister (bs "/b") (PI (bs "h") (1)%Z None (Some (5)%Z) (Some (0)%Z) (Some (bs "y")) None) 0, true); (NRegister (bs "/aa") (PI (bs "h") (4)%Z None None (Some (5)%Z) (Some (bs "")) (Some (bs "x"))) 0, true); (NUpdate (Some (4)%Z) (bs "g") None (Some (bs "x")) (Some (bs "y")) (bs "/aa"), true); (NRegister (bs "/b") (PI (bs "g") (5)%Z (Some (bs "")) None (Some (3)%Z) (Some (bs "")) None) 0, true); (NRegister (bs "/b") (PI (bs "g") (4)%Z None (Some (1)%Z) (Some (6)%Z) None None) 0, true); (NUpdate (Some (5)%Z) (bs "g") (Some (2)%Z) None (Some (bs "y")) (bs "/aa"), true); (NAddRef (1)%Z (5)%Z, true); (NAddRef (4)%Z (4)%Z, true); (NInvalidate (bs "/a"), true); (NAddOut (1)%Z (bs "dev") (bs "/o1"), true); (NRegister (bs "/b") (PI (bs "h") (6)%Z None (Some (7)%Z) None None (Some (bs "x"))) 0, true); (NInvalidate (bs "/c"), true); (NUpdate (Some (8)%Z) (bs "h") (Some (4)%Z) (Some (bs "x")) (Some (bs "")) (bs "/b"), true)] in let d := snd s in
  map snd (fst s) = [Err ErrConstraint; Err ErrConstraint; Err ErrConstraint; Ok tt; Ok tt; Ok tt; Ok tt; Err ErrConstraint; Err ErrConstraint; Ok tt; Err ErrConstraint; Err ErrConstraint; Ok tt; Ok tt; Err ErrConstraint; Ok tt; Ok tt] /\
  nx_QueryPathInfo (bs "/a") d (Err ErrNoRows) /\
  nx_QueryReferrers (bs "/a") d [] /\
  nx_QueryPathInfo (bs "/b") d (Ok ((1)%Z, PI (bs "h") (1)%Z None (Some (8)%Z) (Some (4)%Z) (Some (bs "x")) (Some (bs "")))) /\
  nx_QueryReferrers (bs "/b") d [] /\
  nx_QueryPathInfo (bs "/c") d (Err ErrNoRows) /\
  nx_QueryReferrers (bs "/c") d [] /\
  nx_QueryPathInfo (bs "/aa") d (Ok ((2)%Z, PI (bs "g") (4)%Z None (Some (5)%Z) (Some (2)%Z) None (Some (bs "y")))) /\
  nx_QueryReferrers (bs "/aa") d [] /\
  nx_QueryReferences (1)%Z d [] /\
  nx_QueryDerivationOutputs (1)%Z d [((bs "dev"), (bs "/o1"))] /\
  nx_QueryReferences (2)%Z d [] /\
  nx_QueryDerivationOutputs (2)%Z d [] /\
  nx_QueryReferences (3)%Z d [] /\
  nx_QueryDerivationOutputs (3)%Z d [] /\
  nx_QueryReferences (4)%Z d [] /\
  nx_QueryDerivationOutputs (4)%Z d [] /\
  nx_QueryReferences (5)%Z d [] /\
  nx_QueryDerivationOutputs (5)%Z d [] /\
  nx_QueryValidDerivers (bs "/o1") d [((1)%Z, (bs "/b"))] /\
  nx_QueryValidDerivers (bs "/o2") d [] /\
  nx_QueryValidDerivers (bs "/a") d [] /\
  nx_QueryPathFromHashPart (bs "/") d (Ok (bs "/aa")) /\
  nx_QueryPathFromHashPart (bs "/a") d (Ok (bs "/aa")) /\
  nx_QueryPathFromHashPart (bs "/ab") d (Ok (bs "/b")) /\
  nx_QueryPathFromHashPart (bs "/b") d (Ok (bs "/b")) /\
  nx_QueryPathFromHashPart (bs "/z") d (Err ErrNoRows).
Proof. check. Qed.
Example nix_8 : let s := nx_run true [(NAddRef (1)%Z (4)%Z, true); (NAddRef (2)%Z (1)%Z, true); (NUpdate (Some (4)%Z) (bs "g") None (Some (bs "x")) (Some (bs "x")) (bs "/aa"), true); (NRegister (bs "/a") (PI (bs "g") (5)%Z None None (Some (8)%Z) None (Some (bs "x"))) 0, true); (NAddRef (3)%Z (5)%Z, true); (NAddOut (4)%Z (bs "dev") (bs "/o1"), true); (NRegister (bs "/c") (PI (bs "h") (5)%Z (Some (bs "")) (Some (6)%Z) None (Some (bs "")) (Some (bs ""))) 0, true); (NRegister (bs "/a") (PI (bs "g") (8)%Z (Some (bs "")) None (Some (8)%Z) None (Some (bs "x"))) 0, true); (NAddOut (1)%Z (bs "out") (bs "/o1"), true); (NInvalidate (bs "/b"), true); (NAddOut (4)%Z (bs "dev") (bs "/o1"), true); (NRegister (bs "/c") (PI (bs "g") (4)%Z (Some (bs "y")) None (Some (4)%Z) (Some (bs "y")) (Some (bs ""))) 0, true); (NRegister (bs "/c") (PI (bs "h") (8)%Z None (Some (3)%Z) (Some (0)%Z) None (Some (bs "x"))) 0, true)] in let d := snd s in
  map snd (fst s) = [Err ErrConstraint; Err ErrConstraint; Ok tt; Ok tt; Err ErrConstraint; Err ErrConstraint; Ok tt; Err ErrConstraint; Ok tt; Ok tt; Err ErrConstraint; Err ErrConstraint; Err ErrConstraint] /\
  nx_QueryPathInfo (bs "/a") d (Ok ((1)%Z, PI (bs "g") (5)%Z None None (Some (8)%Z) None (Some (bs "x")))) /\
  nx_QueryReferrers (bs "/a") d [] /\
  nx_QueryPathInfo (bs "/b") d (Err ErrNoRows) /\
  nx_QueryReferrers (bs "/b") d [] /\
  nx_QueryPathInfo (bs "/c") d (Ok ((2)%Z, PI (bs "h") (5)%Z (Some (bs "")) (Some (6)%Z) None (Some (bs "")) (Some (bs "")))) /\
  nx_QueryReferrers (bs "/c") d [] /\
  nx_QueryPathInfo (bs "/aa") d (Err ErrNoRows) /\
  nx_QueryReferrers (bs "/aa") d [] /\
  nx_QueryReferences (1)%Z d [] /\
  nx_QueryDerivationOutputs (1)%Z d [((bs "out"), (bs "/o1"))] /\
  nx_QueryReferences (2)%Z d [] /\
  nx_QueryDerivationOutputs (2)%Z d [] /\
  nx_QueryReferences (3)%Z d [] /\
  nx_QueryDerivationOutputs (3)%Z d [] /\
  nx_QueryReferences (4)%Z d [] /\
  nx_QueryDerivationOutputs (4)%Z d [] /\
  nx_QueryReferences (5)%Z d [] /\
  nx_QueryDerivationOutputs (5)%Z d [] /\
  nx_QueryValidDerivers (bs "/o1") d [((1)%Z, (bs "/a"))] /\
  nx_QueryValidDerivers (bs "/o2") d [] /\
  nx_QueryValidDerivers (bs "/a") d [] /\
  nx_QueryPathFromHashPart (bs "/") d (Ok (bs "/a")) /\
  nx_QueryPathFromHashPart (bs "/a") d (Ok (bs "/a")) /\
  nx_QueryPathFromHashPart (bs "/ab") d (Ok (bs "/c")) /\
  nx_QueryPathFromHashPart (bs "/b") d (Ok (bs "/c")) /\
  nx_QueryPathFromHashPart (bs "/z") d (Err ErrNoRows).
Proof. check. Qed.
Example nix_9 : let s := nx_run false [(NAddOut (1)%Z (bs "out") (bs "/o1"), true); (NRegister (bs "/a") (PI (bs "g") (0)%Z (Some (bs "x")) (Some (4)%Z) (Some (4)%Z) (Some (bs "x")) None) 0, true); (NUpdate None (bs "g") (Some (7)%Z) None (Some (bs "x")) (bs "/b"), true); (NAddRef (5)%Z (5)%Z, true); (NUpdate None (bs "g") (Some (6)%Z) (Some (bs "")) None (bs "/a"), true); (NAddRef (1)%Z (2)%Z, true); (NUpdate (Some (5)%Z) (bs "g") (Some (0)%Z) None (Some (bs "x")) (bs "/aa"), true); (NAddOut (1)%Z (bs "out") (bs "/o1"), true); (NRegister (bs "/c") (PI (bs "g") (8)%Z (Some (bs "")) None (Some (3)%Z) (Some (bs "y")) (Some (bs "x"))) 0, true); (NAddRef (2)%Z (3)%Z, true); (NRegister (bs "/aa") (PI (bs "g") (5)%Z (Some (bs "y")) (Some (0)%Z) (Some (2)%Z) (Some (bs "y")) None) 0, true); (NInvalidate (bs "/c"), true); (NRegister (bs "/b") (PI (bs "h") (4)%Z (Some (bs "")) None (Some (3)%Z) (Some (bs "x")) None) 0, true)] in let d := snd s in
  map snd (fst s) = [Ok tt; Ok tt; Ok tt; Ok tt; Ok tt; Ok tt; Ok tt; Ok tt; Ok tt; Ok tt; Ok tt; Ok tt; Ok tt] /\
  nx_QueryPathInfo (bs "/a") d (Ok ((1)%Z, PI (bs "g") (0)%Z (Some (bs "x")) None (Some (6)%Z) (Some (bs "")) None)) /\
  nx_QueryReferrers (bs "/a") d [] /\
  nx_QueryPathInfo (bs "/b") d (Ok ((4)%Z, PI (bs "h") (4)%Z (Some (bs "")) None (Some (3)%Z) (Some (bs "x")) None)) /\
  nx_QueryReferrers (bs "/b") d [] /\
  nx_QueryPathInfo (bs "/c") d (Err ErrNoRows) /\
  nx_QueryReferrers (bs "/c") d [] /\
  nx_QueryPathInfo (bs "/aa") d (Ok ((3)%Z, PI (bs "g") (5)%Z (Some (bs "y")) (Some (0)%Z) (Some (2)%Z) (Some (bs "y")) None)) /\
  nx_QueryReferrers (bs "/aa") d [] /\
  nx_QueryReferences (1)%Z d [] /\
  nx_QueryDerivationOutputs (1)%Z d [((bs "out"), (bs "/o1"))] /\
  nx_QueryReferences (2)%Z d [(bs "/aa")] /\
  nx_QueryDerivationOutputs (2)%Z d [] /\
  nx_QueryReferences (3)%Z d [] /\
  nx_QueryDerivationOutputs (3)%Z d [] /\
  nx_QueryReferences (4)%Z d [] /\
  nx_QueryDerivationOutputs (4)%Z d [] /\
  nx_QueryReferences (5)%Z d [] /\
  nx_QueryDerivationOutputs (5)%Z d [] /\
  nx_QueryValidDerivers (bs "/o1") d [((1)%Z, (bs "/a"))] /\
  nx_QueryValidDerivers (bs "/o2") d [] /\
  nx_QueryValidDerivers (bs "/a") d [] /\
  nx_QueryPathFromHashPart (bs "/") d (Ok (bs "/a")) /\
  nx_QueryPathFromHashPart (bs "/a") d (Ok (bs "/a")) /\
  nx_QueryPathFromHashPart (bs "/ab") d (Ok (bs "/b")) /\
  nx_QueryPathFromHashPart (bs "/b") d (Ok (bs "/b")) /\
  nx_QueryPathFromHashPart (bs "/z") d (Err ErrNoRows).
Proof. check. Qed.
Example nix_10 : let s := nx_run true [(NInvalidate (bs "/b"), true); (NRegister (bs "/b") (PI (bs "h") (2)%Z (Some (bs "")) (Some (4)%Z) (Some (0)%Z) (Some (bs "x")) None) 0, true); (NInvalidate (bs "/a"), true); (NInvalidate (bs "/b"), true); (NAddRef (3)%Z (3)%Z, true); (NRegister (bs "/c") (PI (bs "g") (5)%Z (Some (bs "x")) None None None (Some (bs "y"))) 0, true); (NAddOut (1)%Z (bs "dev") (bs "/o1"), true); (NRegister (bs "/b") (PI (bs "g") (3)%Z None (Some (4)%Z) (Some (3)%Z) (Some (bs "x")) (Some (bs "x"))) 0, true); (NAddRef (4)%Z (1)%Z, true); (NAddRef (1)%Z (3)%Z, true); (NRegister (bs "/b") (PI (bs "g") (6)%Z None None None (Some (bs "y")) None) 0, true); (NAddRef (5)%Z (1)%Z, true); (NRegister (bs "/c") (PI (bs "g") (6)%Z None (Some (5)%Z) (Some (8)%Z) None (Some (bs ""))) 0, true); (NInvalidate (bs "/a"), true); (NAddOut (5)%Z (bs "dev") (bs "/o2"), true); (NAddRef (5)%Z (4)%Z, true); (NInvalidate (bs "/aa"), true); (NRegister (bs "/c") (PI (bs "g") (4)%Z (Some (bs "y")) None None (Some (bs "x")) (Some (bs "y"))) 0, true); (NRegister (bs "/aa") (PI (bs "h") (2)%Z (Some (bs "")) (Some (2)%Z) None (Some (bs "")) (Some (bs "y"))) 0, true); (NRegister (bs "/b") (PI (bs "h") (1)%Z None (Some (4)%Z) (Some (2)%Z) (Some (bs "y")) (Some (bs "y"))) 0, true); (NAddRef (4)%Z (5)%Z, true); (NAddOut (1)%Z (bs "dev") (bs "/o1"), true)] in let d := snd s in
  map snd (fst s) = [Ok tt; Ok tt; Ok tt; Ok tt; Err ErrConstraint; Ok tt; Err ErrConstraint; Ok tt; Err ErrConstraint; Err ErrConstraint; Err ErrConstraint; Err ErrConstraint; Err ErrConstraint; Ok tt; Err ErrConstraint; Err ErrConstraint; Ok tt; Err ErrConstraint; Ok tt; Err ErrConstraint; Err ErrConstraint; Err ErrConstraint] /\
  nx_QueryPathInfo (bs "/a") d (Err ErrNoRows) /\
  nx_QueryReferrers (bs "/a") d [] /\
  nx_QueryPathInfo (bs "/b") d (Ok ((3)%Z, PI (bs "g") (3)%Z None (Some (4)%Z) (Some (3)%Z) (Some (bs "x")) (Some (bs "x")))) /\
  nx_QueryReferrers (bs "/b") d [] /\
  nx_QueryPathInfo (bs "/c") d (Ok ((2)%Z, PI (bs "g") (5)%Z (Some (bs "x")) None None None (Some (bs "y")))) /\
  nx_QueryReferrers (bs "/c") d [] /\
  nx_QueryPathInfo (bs "/aa") d (Ok ((4)%Z, PI (bs "h") (2)%Z (Some (bs "")) (Some (2)%Z) None (Some (bs "")) (Some (bs "y")))) /\
  nx_QueryReferrers (bs "/aa") d [] /\
  nx_QueryReferences (1)%Z d [] /\
  nx_QueryDerivationOutputs (1)%Z d [] /\
  nx_QueryReferences (2)%Z d [] /\
  nx_QueryDerivationOutputs (2)%Z d [] /\
  nx_QueryReferences (3)%Z d [] /\
  nx_QueryDerivationOutputs (3)%Z d [] /\
  nx_QueryReferences (4)%Z d [] /\
  nx_QueryDerivationOutputs (4)%Z d [] /\
  nx_QueryReferences (5)%Z d [] /\
  nx_QueryDerivationOutputs (5)%Z d [] /\
  nx_QueryValidDerivers (bs "/o1") d [] /\
  nx_QueryValidDerivers (bs "/o2") d [] /\
  nx_QueryValidDerivers (bs "/a") d [] /\
  nx_QueryPathFromHashPart (bs "/") d (Ok (bs "/aa")) /\
  nx_QueryPathFromHashPart (bs "/a") d (Ok (bs "/aa")) /\
  nx_QueryPathFromHashPart (bs "/ab") d (Ok (bs "/b")) /\
  nx_QueryPathFromHashPart (bs "/b") d (Ok (bs "/b")) /\
  nx_QueryPathFromHashPart (bs "/z") d (Err ErrNoRows).
Proof. check. Qed.
Example nix_11 : let s := nx_run true [(NRegister (bs "/aa") (PI (bs "g") (0)%Z (Some (bs "")) (Some (7)%Z) (Some (2)%Z) None None) 0, true); (NUpdate None (bs "g") (Some (5)%Z) (Some (bs "x")) None (bs "/a"), true); (NInvalidate (bs "/aa"), true); (NAddRef (3)%Z (5)%Z, true); (NRegister (bs "/aa") (PI (bs "h") (4)%Z None (Some (8)%Z) (Some (2)%Z) None (Some (bs ""))) 0, true); (NAddRef (4)%Z (4)%Z, true); (NAddRef (4)%Z (4)%Z, true); (NAddOut (1)%Z (bs "out") (bs "/o1"), true); (NAddRef (4)%Z (3)%Z, true); (NAddOut (3)%Z (bs "out") (bs "/o1"), true); (NAddOut (5)%Z (bs "out") (bs "/o2"), true); (NAddRef (4)%Z (4)%Z, true); (NRegister (bs "/aa") (PI (bs "g") (8)%Z None None (Some (0)%Z) (Some (bs "")) (Some (bs ""))) 0, true); (NAddRef (5)%Z (2)%Z, true); (NAddOut (3)%Z (bs "dev") (bs "/o2"), true); (NAddRef (5)%Z (3)%Z, true); (NRegister (bs "/aa") (PI (bs "g") (1)%Z None None None None (Some (bs "x"))) 0, true); (NAddRef (5)%Z (2)%Z, true); (NAddOut (2)%Z (bs "out") (bs "/o1"), true); (NUpdate (Some (2)%Z) (bs "g") (Some (0)%Z) (Some (bs "y")) None (bs "/aa"), true); (NAddRef (2)%Z (5)%Z, true); (NUpdate (Some (2)%Z) (bs "g") None (Some (bs "x")) None (bs "/a"), true); (NUpdate (Some (6)%Z) (bs "g") (Some (5)%Z) (Some (bs "y")) (Some (bs "x")) (bs "/aa"), true)] in let d := snd s in
  map snd (fst s) = [Ok tt; Ok tt; Ok tt; Err ErrConstraint; Ok tt; Err ErrConstraint; Err ErrConstraint; Err ErrConstraint; Err ErrConstraint; Err ErrConstraint; Err ErrConstraint; Err ErrConstraint; Err ErrConstraint; Err ErrConstraint; Err ErrConstraint; Err ErrConstraint; Err ErrConstraint; Err ErrConstraint; Ok tt; Ok tt; Err ErrConstraint; Ok tt; Ok tt] /\
  nx_QueryPathInfo (bs "/a") d (Err ErrNoRows) /\
  nx_QueryReferrers (bs "/a") d [] /\
  nx_QueryPathInfo (bs "/b") d (Err ErrNoRows) /\
  nx_QueryReferrers (bs "/b") d [] /\
  nx_QueryPathInfo (bs "/c") d (Err ErrNoRows) /\
  nx_QueryReferrers (bs "/c") d [] /\
  nx_QueryPathInfo (bs "/aa") d (Ok ((2)%Z, PI (bs "g") (4)%Z None (Some (6)%Z) (Some (5)%Z) (Some (bs "y")) (Some (bs "x")))) /\
  nx_QueryReferrers (bs "/aa") d [] /\
  nx_QueryReferences (1)%Z d [] /\
  nx_QueryDerivationOutputs (1)%Z d [] /\
  nx_QueryReferences (2)%Z d [] /\
  nx_QueryDerivationOutputs (2)%Z d [((bs "out"), (bs "/o1"))] /\
  nx_QueryReferences (3)%Z d [] /\
  nx_QueryDerivationOutputs (3)%Z d [] /\
  nx_QueryReferences (4)%Z d [] /\
  nx_QueryDerivationOutputs (4)%Z d [] /\
  nx_QueryReferences (5)%Z d [] /\
  nx_QueryDerivationOutputs (5)%Z d [] /\
  nx_QueryValidDerivers (bs "/o1") d [((2)%Z, (bs "/aa"))] /\
  nx_QueryValidDerivers (bs "/o2") d [] /\
  nx_QueryValidDerivers (bs "/a") d [] /\
  nx_QueryPathFromHashPart (bs "/") d (Ok (bs "/aa")) /\
  nx_QueryPathFromHashPart (bs "/a") d (Ok (bs "/aa")) /\
  nx_QueryPathFromHashPart (bs "/ab") d (Err ErrNoRows) /\
  nx_QueryPathFromHashPart (bs "/b") d (Err ErrNoRows) /\
  nx_QueryPathFromHashPart (bs "/z") d (Err ErrNoRows).
Proof. check. Qed.
Example nix_12 : let s := nx_run false [(NRegister (bs "/b") (PI (bs "h") (1)%Z (Some (bs "")) None (Some (8)%Z) None None) 0, true); (NAddOut (1)%Z (bs "out") (bs "/o2"), true); (NAddRef (2)%Z (2)%Z, true); (NInvalidate (bs "/c"), true); (NRegister (bs "/a") (PI (bs "h") (1)%Z (Some (bs "x")) (Some (6)%Z) None None (Some (bs "y"))) 0, true); (NUpdate (Some (6)%Z) (bs "g") None (Some (bs "y")) (Some (bs "x")) (bs "/c"), true); (NInvalidate (bs "/a"), true); (NRegister (bs "/aa") (PI (bs "h") (5)%Z (Some (bs "x")) (Some (7)%Z) None (Some (bs "y")) (Some (bs ""))) 0, true); (NAddOut (2)%Z (bs "dev") (bs "/o1"), true); (NRegister (bs "/b") (PI (bs "h") (0)%Z None None (Some (2)%Z) None (Some (bs "x"))) 0, true); (NRegister (bs "/a") (PI (bs "g") (1)%Z None None (Some (7)%Z) None (Some (bs "y"))) 0, true); (NInvalidate (bs "/aa"), true); (NInvalidate (bs "/a"), true); (NUpdate (Some (8)%Z) (bs "g") None None (Some (bs "x")) (bs "/aa"), true); (NRegister (bs "/a") (PI (bs "g") (7)%Z (Some (bs "y")) (Some (3)%Z) None (Some (bs "y")) (Some (bs "x"))) 0, true); (NAddRef (3)%Z (5)%Z, true); (NAddRef (5)%Z (2)%Z, true); (NRegister (bs "/aa") (PI (bs "g") (7)%Z (Some (bs "")) (Some (7)%Z) (Some (1)%Z) (Some (bs "y")) (Some (bs "x"))) 0, true); (NInvalidate (bs "/aa"), true); (NUpdate (Some (5)%Z) (bs "h") (Some (7)%Z) None (Some (bs "y")) (bs "/a"), true); (NRegister (bs "/a") (PI (bs "g") (2)%Z (Some (bs "y")) (Some (7)%Z) (Some (2)%Z) (Some (bs "")) (Some (bs "y"))) 0, true)] in let d := snd s in
  map snd (fst s) = [Ok tt; Ok tt; Ok tt; Ok tt; Ok tt; Ok tt; Ok tt; Ok tt; Ok tt; Err ErrConstraint; Ok tt; Ok tt; Ok tt; Ok tt; Ok tt; Ok tt; Ok tt; Ok tt; Ok tt; Ok tt; Err ErrConstraint] /\
  nx_QueryPathInfo (bs "/a") d (Ok ((5)%Z, PI (bs "h") (7)%Z (Some (bs "y")) (Some (5)%Z) (Some (7)%Z) None (Some (bs "y")))) /\
  nx_QueryReferrers (bs "/a") d [] /\
  nx_QueryPathInfo (bs "/b") d (Ok ((1)%Z, PI (bs "h") (1)%Z (Some (bs "")) None (Some (8)%Z) None None)) /\
  nx_QueryReferrers (bs "/b") d [] /\
  nx_QueryPathInfo (bs "/c") d (Err ErrNoRows) /\
  nx_QueryReferrers (bs "/c") d [] /\
  nx_QueryPathInfo (bs "/aa") d (Err ErrNoRows) /\
  nx_QueryReferrers (bs "/aa") d [] /\
  nx_QueryReferences (1)%Z d [] /\
  nx_QueryDerivationOutputs (1)%Z d [((bs "out"), (bs "/o2"))] /\
  nx_QueryReferences (2)%Z d [] /\
  nx_QueryDerivationOutputs (2)%Z d [((bs "dev"), (bs "/o1"))] /\
  nx_QueryReferences (3)%Z d [(bs "/a")] /\
  nx_QueryDerivationOutputs (3)%Z d [] /\
  nx_QueryReferences (4)%Z d [] /\
  nx_QueryDerivationOutputs (4)%Z d [] /\
  nx_QueryReferences (5)%Z d [] /\
  nx_QueryDerivationOutputs (5)%Z d [] /\
  nx_QueryValidDerivers (bs "/o1") d [] /\
  nx_QueryValidDerivers (bs "/o2") d [((1)%Z, (bs "/b"))] /\
  nx_QueryValidDerivers (bs "/a") d [] /\
  nx_QueryPathFromHashPart (bs "/") d (Ok (bs "/a")) /\
  nx_QueryPathFromHashPart (bs "/a") d (Ok (bs "/a")) /\
  nx_QueryPathFromHashPart (bs "/ab") d (Ok (bs "/b")) /\
  nx_QueryPathFromHashPart (bs "/b") d (Ok (bs "/b")) /\
  nx_QueryPathFromHashPart (bs "/z") d (Err ErrNoRows).
Proof. check. Qed.
Example nix_13 : let s := nx_run true [(NRegister (bs "/a") (PI (bs "g") (2)%Z None None None None (Some (bs "x"))) 0, true); (NUpdate None (bs "g") None (Some (bs "")) (Some (bs "")) (bs "/b"), true); (NAddRef (5)%Z (1)%Z, true); (NAddOut (2)%Z (bs "out") (bs "/o2"), true); (NInvalidate (bs "/b"), true); (NAddOut (1)%Z (bs "dev") (bs "/o1"), true); (NAddOut (1)%Z (bs "out") (bs "/o1"), true); (NRegister (bs "/a") (PI (bs "g") (0)%Z (Some (bs "x")) (Some (0)%Z) (Some (1)%Z) None (Some (bs "y"))) 0, true); (NRegister (bs "/b") (PI (bs "h") (7)%Z (Some (bs "x")) None None (Some (bs "y")) (Some (bs "y"))) 0, true); (NRegister (bs "/a") (PI (bs "g") (2)%Z (Some (bs "x")) (Some (6)%Z) None (Some (bs "")) (Some (bs ""))) 0, true); (NAddRef (1)%Z (2)%Z, true); (NUpdate None (bs "h") None None None (bs "/a"), true); (NAddOut (1)%Z (bs "out") (bs "/o1"), true); (NAddOut (4)%Z (bs "out") (bs "/o2"), true); (NRegister (bs "/aa") (PI (bs "h") (5)%Z (Some (bs "")) (Some (7)%Z) (Some (2)%Z) None None) 0, true); (NRegister (bs "/a") (PI (bs "h") (1)%Z (Some (bs "x")) (Some (6)%Z) (Some (3)%Z) (Some (bs "")) (Some (bs "x"))) 0, true); (NRegister (bs "/b") (PI (bs "g") (4)%Z (Some (bs "")) None (Some (4)%Z) (Some (bs "")) None) 0, true)] in let d := snd s in
  map snd (fst s) = [Ok tt; Ok tt; Err ErrConstraint; Err ErrConstraint; Ok tt; Ok tt; Ok tt; Err ErrConstraint; Ok tt; Err ErrConstraint; Ok tt; Ok tt; Ok tt; Err ErrConstraint; Ok tt; Err ErrConstraint; Err ErrConstraint] /\
  nx_QueryPathInfo (bs "/a") d (Ok ((1)%Z, PI (bs "h") (2)%Z None None None None None)) /\
  nx_QueryReferrers (bs "/a") d [] /\
  nx_QueryPathInfo (bs "/b") d (Ok ((2)%Z, PI (bs "h") (7)%Z (Some (bs "x")) None None (Some (bs "y")) (Some (bs "y")))) /\
  nx_QueryReferrers (bs "/b") d [(bs "/a")] /\
  nx_QueryPathInfo (bs "/c") d (Err ErrNoRows) /\
  nx_QueryReferrers (bs "/c") d [] /\
  nx_QueryPathInfo (bs "/aa") d (Ok ((3)%Z, PI (bs "h") (5)%Z (Some (bs "")) (Some (7)%Z) (Some (2)%Z) None None)) /\
  nx_QueryReferrers (bs "/aa") d [] /\
  nx_QueryReferences (1)%Z d [(bs "/b")] /\
  nx_QueryDerivationOutputs (1)%Z d [((bs "dev"), (bs "/o1")); ((bs "out"), (bs "/o1"))] /\
  nx_QueryReferences (2)%Z d [] /\
  nx_QueryDerivationOutputs (2)%Z d [] /\
  nx_QueryReferences (3)%Z d [] /\
  nx_QueryDerivationOutputs (3)%Z d [] /\
  nx_QueryReferences (4)%Z d [] /\
  nx_QueryDerivationOutputs (4)%Z d [] /\
  nx_QueryReferences (5)%Z d [] /\
  nx_QueryDerivationOutputs (5)%Z d [] /\
  nx_QueryValidDerivers (bs "/o1") d [((1)%Z, (bs "/a")); ((1)%Z, (bs "/a"))] /\
  nx_QueryValidDerivers (bs "/o2") d [] /\
  nx_QueryValidDerivers (bs "/a") d [] /\
  nx_QueryPathFromHashPart (bs "/") d (Ok (bs "/a")) /\
  nx_QueryPathFromHashPart (bs "/a") d (Ok (bs "/a")) /\
  nx_QueryPathFromHashPart (bs "/ab") d (Ok (bs "/b")) /\
  nx_QueryPathFromHashPart (bs "/b") d (Ok (bs "/b")) /\
  nx_QueryPathFromHashPart (bs "/z") d (Err ErrNoRows).
Proof. check. Qed.
Example nix_14 : let s := nx_run true [(NAddOut (2)%Z (bs "dev") (bs "/o1"), true); (NRegister (bs "/b") (PI (bs "g") (8)%Z (Some (bs "y")) (Some (2)%Z) (Some (7)%Z) (Some (bs "y")) (Some (bs "y"))) 0, true); (NRegister (bs "/a") (PI (bs "h") (4)%Z (Some (bs "x")) None (Some (8)%Z) None (Some (bs ""))) 0, true); (NAddOut (3)%Z (bs "dev") (bs "/o2"), true); (NUpdate (Some (1)%Z) (bs "g") (Some (3)%Z) (Some (bs "y")) (Some (bs "y")) (bs "/aa"), true); (NAddOut (1)%Z (bs "out") (bs "/o1"), true); (NAddOut (3)%Z (bs "dev") (bs "/o2"), true); (NUpdate (Some (1)%Z) (bs "g") None (Some (bs "")) None (bs "/b"), true)] in let d := snd s in
  map snd (fst s) = [Err ErrConstraint; Ok tt; Ok tt; Err ErrConstraint; Ok tt; Ok tt; Err ErrConstraint; Ok tt] /\
  nx_QueryPathInfo (bs "/a") d (Ok ((2)%Z, PI (bs "h") (4)%Z (Some (bs "x")) None (Some (8)%Z) None (Some (bs "")))) /\
  nx_QueryReferrers (bs "/a") d [] /\
  nx_QueryPathInfo (bs "/b") d (Ok ((1)%Z, PI (bs "g") (8)%Z (Some (bs "y")) (Some (1)%Z) None (Some (bs "")) None)) /\
  nx_QueryReferrers (bs "/b") d [] /\
  nx_QueryPathInfo (bs "/c") d (Err ErrNoRows) /\
  nx_QueryReferrers (bs "/c") d [] /\
  nx_QueryPathInfo (bs "/aa") d (Err ErrNoRows) /\
  nx_QueryReferrers (bs "/aa") d [] /\
  nx_QueryReferences (1)%Z d [] /\
  nx_QueryDerivationOutputs (1)%Z d [((bs "out"), (bs "/o1"))] /\
  nx_QueryReferences (2)%Z d [] /\
  nx_QueryDerivationOutputs (2)%Z d [] /\
  nx_QueryReferences (3)%Z d [] /\
  nx_QueryDerivationOutputs (3)%Z d [] /\
  nx_QueryReferences (4)%Z d [] /\
  nx_QueryDerivationOutputs (4)%Z d [] /\
  nx_QueryReferences (5)%Z d [] /\
  nx_QueryDerivationOutputs (5)%Z d [] /\
  nx_QueryValidDerivers (bs "/o1") d [((1)%Z, (bs "/b"))] /\
  nx_QueryValidDerivers (bs "/o2") d [] /\
  nx_QueryValidDerivers (bs "/a") d [] /\
  nx_QueryPathFromHashPart (bs "/") d (Ok (bs "/a")) /\
  nx_QueryPathFromHashPart (bs "/a") d (Ok (bs "/a")) /\
  nx_QueryPathFromHashPart (bs "/ab") d (Ok (bs "/b")) /\
  nx_QueryPathFromHashPart (bs "/b") d (Ok (bs "/b")) /\
  nx_QueryPathFromHashPart (bs "/z") d (Err ErrNoRows).
Proof. check. Qed.
Example nix_15 : let s := nx_run false [(NAddRef (4)%Z (3)%Z, true); (NAddRef (4)%Z (3)%Z, true); (NRegister (bs "/c") (PI (bs "h") (2)%Z None None None (Some (bs "x")) (Some (bs ""))) 0, true); (NInvalidate (bs "/aa"), true); (NRegister (bs "/b") (PI (bs "g") (0)%Z (Some (bs "")) (Some (3)%Z) None (Some (bs "x")) None) 0, true); (NAddRef (3)%Z (4)%Z, true); (NAddOut (2)%Z (bs "dev") (bs "/o1"), true); (NAddRef (3)%Z (4)%Z, true); (NAddOut (5)%Z (bs "out") (bs "/o2"), true); (NInvalidate (bs "/aa"), true); (NAddOut (2)%Z (bs "out") (bs "/o2"), true); (NAddOut (3)%Z (bs "out") (bs "/o1"), true); (NRegister (bs "/a") (PI (bs "h") (8)%Z None None (Some (3)%Z) (Some (bs "x")) None) 0, true); (NAddOut (3)%Z (bs "dev") (bs "/o2"), true); (NAddOut (1)%Z (bs "dev") (bs "/o2"), true); (NAddRef (4)%Z (3)%Z, true)] in let d := snd s in
  map snd (fst s) = [Ok tt; Ok tt; Ok tt; Ok tt; Ok tt; Ok tt; Ok tt; Ok tt; Ok tt; Ok tt; Ok tt; Ok tt; Ok tt; Ok tt; Ok tt; Ok tt] /\
  nx_QueryPathInfo (bs "/a") d (Ok ((3)%Z, PI (bs "h") (8)%Z None None (Some (3)%Z) (Some (bs "x")) None)) /\
  nx_QueryReferrers (bs "/a") d [] /\
  nx_QueryPathInfo (bs "/b") d (Ok ((2)%Z, PI (bs "g") (0)%Z (Some (bs "")) (Some (3)%Z) None (Some (bs "x")) None)) /\
  nx_QueryReferrers (bs "/b") d [] /\
  nx_QueryPathInfo (bs "/c") d (Ok ((1)%Z, PI (bs "h") (2)%Z None None None (Some (bs "x")) (Some (bs "")))) /\
  nx_QueryReferrers (bs "/c") d [] /\
  nx_QueryPathInfo (bs "/aa") d (Err ErrNoRows) /\
  nx_QueryReferrers (bs "/aa") d [] /\
  nx_QueryReferences (1)%Z d [] /\
  nx_QueryDerivationOutputs (1)%Z d [((bs "dev"), (bs "/o2"))] /\
  nx_QueryReferences (2)%Z d [] /\
  nx_QueryDerivationOutputs (2)%Z d [((bs "dev"), (bs "/o1")); ((bs "out"), (bs "/o2"))] /\
  nx_QueryReferences (3)%Z d [] /\
  nx_QueryDerivationOutputs (3)%Z d [((bs "dev"), (bs "/o2")); ((bs "out"), (bs "/o1"))] /\
  nx_QueryReferences (4)%Z d [(bs "/a")] /\
  nx_QueryDerivationOutputs (4)%Z d [] /\
  nx_QueryReferences (5)%Z d [] /\
  nx_QueryDerivationOutputs (5)%Z d [((bs "out"), (bs "/o2"))] /\
  nx_QueryValidDerivers (bs "/o1") d [((2)%Z, (bs "/b")); ((3)%Z, (bs "/a"))] /\
  nx_QueryValidDerivers (bs "/o2") d [((2)%Z, (bs "/b")); ((3)%Z, (bs "/a")); ((1)%Z, (bs "/c"))] /\
  nx_QueryValidDerivers (bs "/a") d [] /\
  nx_QueryPathFromHashPart (bs "/") d (Ok (bs "/a")) /\
  nx_QueryPathFromHashPart (bs "/a") d (Ok (bs "/a")) /\
  nx_QueryPathFromHashPart (bs "/ab") d (Ok (bs "/b")) /\
  nx_QueryPathFromHashPart (bs "/b") d (Ok (bs "/b")) /\
  nx_QueryPathFromHashPart (bs "/z") d (Err ErrNoRows).
Proof. check. Qed.
Example nix_16 : let s := nx_run true [(NAddOut (4)%Z (bs "out") (bs "/o2"), true); (NAddOut (2)%Z (bs "out") (bs "/o1"), true); (NAddOut (2)%Z (bs "out") (bs "/o2"), true); (NRegister (bs "/a") (PI (bs "h") (3)%Z None None (Some (0)%Z) None (Some (bs "y"))) 0, true); (NRegister (bs "/aa") (PI (bs "h") (8)%Z (Some (bs "")) None (Some (8)%Z) (Some (bs "x")) (Some (bs "x"))) 0, true); (NRegister (bs "/b") (PI (bs "g") (3)%Z None (Some (4)%Z) None None (Some (bs "x"))) 0, true); (NAddOut (1)%Z (bs "out") (bs "/o1"), true); (NRegister (bs "/b") (PI (bs "g") (8)%Z (Some (bs "x")) (Some (1)%Z) (Some (7)%Z) (Some (bs "")) None) 0, true); (NRegister (bs "/aa") (PI (bs "g") (0)%Z None None (Some (8)%Z) None (Some (bs "x"))) 0, true); (NUpdate (Some (1)%Z) (bs "g") None None None (bs "/c"), true)] in let d := snd s in
  map snd (fst s) = [Err ErrConstraint; Err ErrConstraint; Err ErrConstraint; Ok tt; Ok tt; Ok tt; Ok tt; Err ErrConstraint; Err ErrConstraint; Ok tt] /\
  nx_QueryPathInfo (bs "/a") d (Ok ((1)%Z, PI (bs "h") (3)%Z None None (Some (0)%Z) None (Some (bs "y")))) /\
  nx_QueryReferrers (bs "/a") d [] /\
  nx_QueryPathInfo (bs "/b") d (Ok ((3)%Z, PI (bs "g") (3)%Z None (Some (4)%Z) None None (Some (bs "x")))) /\
  nx_QueryReferrers (bs "/b") d [] /\
  nx_QueryPathInfo (bs "/c") d (Err ErrNoRows) /\
  nx_QueryReferrers (bs "/c") d [] /\
  nx_QueryPathInfo (bs "/aa") d (Ok ((2)%Z, PI (bs "h") (8)%Z (Some (bs "")) None (Some (8)%Z) (Some (bs "x")) (Some (bs "x")))) /\
  nx_QueryReferrers (bs "/aa") d [] /\
  nx_QueryReferences (1)%Z d [] /\
  nx_QueryDerivationOutputs (1)%Z d [((bs "out"), (bs "/o1"))] /\
  nx_QueryReferences (2)%Z d [] /\
  nx_QueryDerivationOutputs (2)%Z d [] /\
  nx_QueryReferences (3)%Z d [] /\
  nx_QueryDerivationOutputs (3)%Z d [] /\
  nx_QueryReferences (4)%Z d [] /\
  nx_QueryDerivationOutputs (4)%Z d [] /\
  nx_QueryReferences (5)%Z d [] /\
  nx_QueryDerivationOutputs (5)%Z d [] /\
  nx_QueryValidDerivers (bs "/o1") d [((1)%Z, (bs "/a"))] /\
  nx_QueryValidDerivers (bs "/o2") d [] /\
  nx_QueryValidDerivers (bs "/a") d [] /\
  nx_QueryPathFromHashPart (bs "/") d (Ok (bs "/a")) /\
  nx_QueryPathFromHashPart (bs "/a") d (Ok (bs "/a")) /\
  nx_QueryPathFromHashPart (bs "/ab") d (Ok (bs "/b")) /\
  nx_QueryPathFromHashPart (bs "/b") d (Ok (bs "/b")) /\
  nx_QueryPathFromHashPart (bs "/z") d (Err ErrNoRows).
Proof. check. Qed.
Example nix_17 : let s := nx_run true [(NUpdate (Some (6)%Z) (bs "g") (Some (3)%Z) (Some (bs "y")) None (bs "/c"), true); (NAddRef (2)%Z (3)%Z, true); (NRegister (bs "/b") (PI (bs "g") (8)%Z None (Some (0)%Z) None (Some (bs "y")) None) 0, true); (NAddRef (4)%Z (4)%Z, true); (NAddOut (3)%Z (bs "dev") (bs "/o1"), true); (NAddOut (1)%Z (bs "dev") (bs "/o1"), true); (NAddRef (4)%Z (5)%Z, true); (NRegister (bs "/aa") (PI (bs "h") (2)%Z (Some (bs "y")) (Some (6)%Z) None (Some (bs "")) (Some (bs "y"))) 0, true); (NAddOut (4)%Z (bs "out") (bs "/o2"), true); (NAddRef (3)%Z (1)%Z, true); (NRegister (bs "/aa") (PI (bs "g") (1)%Z (Some (bs "")) None (Some (4)%Z) (Some (bs "y")) None) 0, true); (NAddOut (3)%Z (bs "dev") (bs "/o2"), true); (NRegister (bs "/a") (PI (bs "g") (4)%Z (Some (bs "x")) (Some (1)%Z) None (Some (bs "x")) (Some (bs ""))) 0, true); (NAddOut (4)%Z (bs "out") (bs "/o2"), true); (NUpdate (Some (6)%Z) (bs "g") (Some (4)%Z) (Some (bs "x")) (Some (bs "x")) (bs "/b"), true); (NRegister (bs "/aa") (PI (bs "g") (4)%Z None None (Some (7)%Z) None None) 0, true); (NAddRef (2)%Z (4)%Z, true); (NAddOut (2)%Z (bs "dev") (bs "/o1"), true); (NAddOut (1)%Z (bs "out") (bs "/o2"), true); (NAddRef (3)%Z (1)%Z, true); (NAddOut (4)%Z (bs "dev") (bs "/o2"), true); (NAddOut (4)%Z (bs "out") (bs "/o2"), true); (NAddOut (3)%Z (bs "dev") (bs "/o2"), true)] in let d := snd s in
  map snd (fst s) = [Ok tt; Err ErrConstraint; Ok tt; Err ErrConstraint; Err ErrConstraint; Ok tt; Err ErrConstraint; Ok tt; Err ErrConstraint; Err ErrConstraint; Err ErrConstraint; Err ErrConstraint; Ok tt; Err ErrConstraint; Ok tt; Err ErrConstraint; Err ErrConstraint; Ok tt; Ok tt; Ok tt; Err ErrConstraint; Err ErrConstraint; Ok tt] /\
  nx_QueryPathInfo (bs "/a") d (Ok ((3)%Z, PI (bs "g") (4)%Z (Some (bs "x")) (Some (1)%Z) None (Some (bs "x")) (Some (bs "")))) /\
  nx_QueryReferrers (bs "/a") d [] /\
  nx_QueryPathInfo (bs "/b") d (Ok ((1)%Z, PI (bs "g") (8)%Z None (Some (6)%Z) (Some (4)%Z) (Some (bs "x")) (Some (bs "x")))) /\
  nx_QueryReferrers (bs "/b") d [(bs "/a")] /\
  nx_QueryPathInfo (bs "/c") d (Err ErrNoRows) /\
  nx_QueryReferrers (bs "/c") d [] /\
  nx_QueryPathInfo (bs "/aa") d (Ok ((2)%Z, PI (bs "h") (2)%Z (Some (bs "y")) (Some (6)%Z) None (Some (bs "")) (Some (bs "y")))) /\
  nx_QueryReferrers (bs "/aa") d [] /\
  nx_QueryReferences (1)%Z d [] /\
  nx_QueryDerivationOutputs (1)%Z d [((bs "dev"), (bs "/o1")); ((bs "out"), (bs "/o2"))] /\
  nx_QueryReferences (2)%Z d [] /\
  nx_QueryDerivationOutputs (2)%Z d [((bs "dev"), (bs "/o1"))] /\
  nx_QueryReferences (3)%Z d [(bs "/b")] /\
  nx_QueryDerivationOutputs (3)%Z d [((bs "dev"), (bs "/o2"))] /\
  nx_QueryReferences (4)%Z d [] /\
  nx_QueryDerivationOutputs (4)%Z d [] /\
  nx_QueryReferences (5)%Z d [] /\
  nx_QueryDerivationOutputs (5)%Z d [] /\
  nx_QueryValidDerivers (bs "/o1") d [((1)%Z, (bs "/b")); ((2)%Z, (bs "/aa"))] /\
  nx_QueryValidDerivers (bs "/o2") d [((1)%Z, (bs "/b")); ((3)%Z, (bs "/a"))] /\
  nx_QueryValidDerivers (bs "/a") d [] /\
  nx_QueryPathFromHashPart (bs "/") d (Ok (bs "/a")) /\
  nx_QueryPathFromHashPart (bs "/a") d (Ok (bs "/a")) /\
  nx_QueryPathFromHashPart (bs "/ab") d (Ok (bs "/b")) /\
  nx_QueryPathFromHashPart (bs "/b") d (Ok (bs "/b")) /\
  nx_QueryPathFromHashPart (bs "/z") d (Err ErrNoRows).
Proof. check. Qed.
Example nix_18 : let s := nx_run false [(NInvalidate (bs "/aa"), true); (NRegister (bs "/b") (PI (bs "g") (5)%Z (Some (bs "")) None None (Some (bs "")) (Some (bs "x"))) 0, true); (NRegister (bs "/a") (PI (bs "g") (0)%Z (Some (bs "x")) (Some (3)%Z) (Some (7)%Z) None (Some (bs "y"))) 0, true); (NAddRef (5)%Z (5)%Z, true); (NInvalidate (bs "/b"), true); (NUpdate (Some (4)%Z) (bs "g") (Some (6)%Z) (Some (bs "")) (Some (bs "")) (bs "/a"), true); (NRegister (bs "/aa") (PI (bs "h") (8)%Z (Some (bs "y")) (Some (6)%Z) (Some (8)%Z) None (Some (bs "y"))) 0, true); (NRegister (bs "/b") (PI (bs "g") (0)%Z (Some (bs "x")) (Some (1)%Z) (Some (0)%Z) (Some (bs "")) (Some (bs "y"))) 0, true); (NAddRef (5)%Z (5)%Z, true); (NAddRef (3)%Z (5)%Z, true); (NAddOut (4)%Z (bs "out") (bs "/o2"), true); (NAddOut (5)%Z (bs "dev") (bs "/o1"), true); (NAddRef (1)%Z (2)%Z, true); (NAddOut (1)%Z (bs "out") (bs "/o1"), true); (NRegister (bs "/c") (PI (bs "g") (2)%Z (Some (bs "")) (Some (8)%Z) (Some (8)%Z) (Some (bs "y")) None) 0, true); (NAddRef (1)%Z (4)%Z, true); (NAddOut (5)%Z (bs "dev") (bs "/o1"), true); (NInvalidate (bs "/c"), true); (NAddRef (5)%Z (2)%Z, true); (NAddOut (5)%Z (bs "out") (bs "/o2"), true); (NUpdate (Some (6)%Z) (bs "h") None (Some (bs "")) (Some (bs "y")) (bs "/a"), true); (NRegister (bs "/c") (PI (bs "h") (6)%Z (Some (bs "")) (Some (8)%Z) (Some (3)%Z) None (Some (bs "y"))) 0, true)] in let d := snd s in
  map snd (fst s) = [Ok tt; Ok tt; Ok tt; Ok tt; Ok tt; Ok tt; Ok tt; Ok tt; Ok tt; Ok tt; Ok tt; Ok tt; Ok tt; Ok tt; Ok tt; Ok tt; Ok tt; Ok tt; Ok tt; Ok tt; Ok tt; Ok tt] /\
  nx_QueryPathInfo (bs "/a") d (Ok ((2)%Z, PI (bs "h") (0)%Z (Some (bs "x")) (Some (6)%Z) None (Some (bs "")) (Some (bs "y")))) /\
  nx_QueryReferrers (bs "/a") d [] /\
  nx_QueryPathInfo (bs "/b") d (Ok ((4)%Z, PI (bs "g") (0)%Z (Some (bs "x")) (Some (1)%Z) (Some (0)%Z) (Some (bs "")) (Some (bs "y")))) /\
  nx_QueryReferrers (bs "/b") d [] /\
  nx_QueryPathInfo (bs "/c") d (Ok ((6)%Z, PI (bs "h") (6)%Z (Some (bs "")) (Some (8)%Z) (Some (3)%Z) None (Some (bs "y")))) /\
  nx_QueryReferrers (bs "/c") d [] /\
  nx_QueryPathInfo (bs "/aa") d (Ok ((3)%Z, PI (bs "h") (8)%Z (Some (bs "y")) (Some (6)%Z) (Some (8)%Z) None (Some (bs "y")))) /\
  nx_QueryReferrers (bs "/aa") d [] /\
  nx_QueryReferences (1)%Z d [(bs "/a"); (bs "/b")] /\
  nx_QueryDerivationOutputs (1)%Z d [((bs "out"), (bs "/o1"))] /\
  nx_QueryReferences (2)%Z d [] /\
  nx_QueryDerivationOutputs (2)%Z d [] /\
  nx_QueryReferences (3)%Z d [] /\
  nx_QueryDerivationOutputs (3)%Z d [] /\
  nx_QueryReferences (4)%Z d [] /\
  nx_QueryDerivationOutputs (4)%Z d [((bs "out"), (bs "/o2"))] /\
  nx_QueryReferences (5)%Z d [(bs "/a")] /\
  nx_QueryDerivationOutputs (5)%Z d [((bs "dev"), (bs "/o1")); ((bs "out"), (bs "/o2"))] /\
  nx_QueryValidDerivers (bs "/o1") d [] /\
  nx_QueryValidDerivers (bs "/o2") d [((4)%Z, (bs "/b"))] /\
  nx_QueryValidDerivers (bs "/a") d [] /\
  nx_QueryPathFromHashPart (bs "/") d (Ok (bs "/a")) /\
  nx_QueryPathFromHashPart (bs "/a") d (Ok (bs "/a")) /\
  nx_QueryPathFromHashPart (bs "/ab") d (Ok (bs "/b")) /\
  nx_QueryPathFromHashPart (bs "/b") d (Ok (bs "/b")) /\
  nx_QueryPathFromHashPart (bs "/z") d (Err ErrNoRows).
Proof. check. Qed.
Example nix_19 : let s := nx_run true [(NInvalidate (bs "/c"), true); (NAddRef (2)%Z (1)%Z, true); (NAddRef (1)%Z (1)%Z, true); (NRegister (bs "/b") (PI (bs "g") (4)%Z (Some (bs "y")) None (Some (6)%Z) (Some (bs "")) None) 0, true); (NRegister (bs "/c") (PI (bs "g") (0)%Z None None (Some (7)%Z) (Some (bs "")) (Some (bs "y"))) 0, true); (NRegister (bs "/a") (PI (bs "h") (5)%Z None None None None None) 0, true); (NUpdate None (bs "g") (Some (3)%Z) (Some (bs "")) (Some (bs "")) (bs "/a"), true); (NRegister (bs "/aa") (PI (bs "h") (6)%Z None (Some (2)%Z) (Some (5)%Z) None None) 0, true); (NAddRef (4)%Z (5)%Z, true); (NAddRef (4)%Z (1)%Z, true)] in let d := snd s in
  map snd (fst s) = [Ok tt; Err ErrConstraint; Err ErrConstraint; Ok tt; Ok tt; Ok tt; Ok tt; Ok tt; Err ErrConstraint; Ok tt] /\
  nx_QueryPathInfo (bs "/a") d (Ok ((3)%Z, PI (bs "g") (5)%Z None None (Some (3)%Z) (Some (bs "")) (Some (bs "")))) /\
  nx_QueryReferrers (bs "/a") d [] /\
  nx_QueryPathInfo (bs "/b") d (Ok ((1)%Z, PI (bs "g") (4)%Z (Some (bs "y")) None (Some (6)%Z) (Some (bs "")) None)) /\
  nx_QueryReferrers (bs "/b") d [(bs "/aa")] /\
  nx_QueryPathInfo (bs "/c") d (Ok ((2)%Z, PI (bs "g") (0)%Z None None (Some (7)%Z) (Some (bs "")) (Some (bs "y")))) /\
  nx_QueryReferrers (bs "/c") d [] /\
  nx_QueryPathInfo (bs "/aa") d (Ok ((4)%Z, PI (bs "h") (6)%Z None (Some (2)%Z) (Some (5)%Z) None None)) /\
  nx_QueryReferrers (bs "/aa") d [] /\
  nx_QueryReferences (1)%Z d [] /\
  nx_QueryDerivationOutputs (1)%Z d [] /\
  nx_QueryReferences (2)%Z d [] /\
  nx_QueryDerivationOutputs (2)%Z d [] /\
  nx_QueryReferences (3)%Z d [] /\
  nx_QueryDerivationOutputs (3)%Z d [] /\
  nx_QueryReferences (4)%Z d [(bs "/b")] /\
  nx_QueryDerivationOutputs (4)%Z d [] /\
  nx_QueryReferences (5)%Z d [] /\
  nx_QueryDerivationOutputs (5)%Z d [] /\
  nx_QueryValidDerivers (bs "/o1") d [] /\
  nx_QueryValidDerivers (bs "/o2") d [] /\
  nx_QueryValidDerivers (bs "/a") d [] /\
  nx_QueryPathFromHashPart (bs "/") d (Ok (bs "/a")) /\
  nx_QueryPathFromHashPart (bs "/a") d (Ok (bs "/a")) /\
  nx_QueryPathFromHashPart (bs "/ab") d (Ok (bs "/b")) /\
  nx_QueryPathFromHashPart (bs "/b") d (Ok (bs "/b")) /\
  nx_QueryPathFromHashPart (bs "/z") d (Err ErrNoRows).
Proof. check. Qed.
Example nix_20 : let s := nx_run true [(NAddRef (4)%Z (5)%Z, true); (NAddOut (2)%Z (bs "dev") (bs "/o2"), true); (NRegister (bs "/b") (PI (bs "h") (2)%Z (Some (bs "x")) None (Some (3)%Z) (Some (bs "x")) (Some (bs ""))) 0, true); (NAddRef (4)%Z (2)%Z, true); (NAddOut (4)%Z (bs "dev") (bs "/o1"), true); (NAddRef (1)%Z (5)%Z, true); (NAddOut (5)%Z (bs "out") (bs "/o2"), true); (NUpdate (Some (4)%Z) (bs "h") (Some (6)%Z) (Some (bs "y")) (Some (bs "x")) (bs "/c"), true); (NInvalidate (bs "/c"), true); (NAddRef (5)%Z (2)%Z, true); (NAddRef (2)%Z (5)%Z, true); (NInvalidate (bs "/b"), true); (NUpdate (Some (2)%Z) (bs "g") None None (Some (bs "y")) (bs "/aa"), true); (NAddOut (2)%Z (bs "dev") (bs "/o2"), true)] in let d := snd s in
  map snd (fst s) = [Err ErrConstraint; Err ErrConstraint; Ok tt; Err ErrConstraint; Err ErrConstraint; Err ErrConstraint; Err ErrConstraint; Ok tt; Ok tt; Err ErrConstraint; Err ErrConstraint; Ok tt; Ok tt; Err ErrConstraint] /\
  nx_QueryPathInfo (bs "/a") d (Err ErrNoRows) /\
  nx_QueryReferrers (bs "/a") d [] /\
  nx_QueryPathInfo (bs "/b") d (Err ErrNoRows) /\
  nx_QueryReferrers (bs "/b") d [] /\
  nx_QueryPathInfo (bs "/c") d (Err ErrNoRows) /\
  nx_QueryReferrers (bs "/c") d [] /\
  nx_QueryPathInfo (bs "/aa") d (Err ErrNoRows) /\
  nx_QueryReferrers (bs "/aa") d [] /\
  nx_QueryReferences (1)%Z d [] /\
  nx_QueryDerivationOutputs (1)%Z d [] /\
  nx_QueryReferences (2)%Z d [] /\
  nx_QueryDerivationOutputs (2)%Z d [] /\
  nx_QueryReferences (3)%Z d [] /\
  nx_QueryDerivationOutputs (3)%Z d [] /\
  nx_QueryReferences (4)%Z d [] /\
  nx_QueryDerivationOutputs (4)%Z d [] /\
  nx_QueryReferences (5)%Z d [] /\
  nx_QueryDerivationOutputs (5)%Z d [] /\
  nx_QueryValidDerivers (bs "/o1") d [] /\
  nx_QueryValidDerivers (bs "/o2") d [] /\
  nx_QueryValidDerivers (bs "/a") d [] /\
  nx_QueryPathFromHashPart (bs "/") d (Err ErrNoRows) /\
  nx_QueryPathFromHashPart (bs "/a") d (Err ErrNoRows) /\
  nx_QueryPathFromHashPart (bs "/ab") d (Err ErrNoRows) /\
  nx_QueryPathFromHashPart (bs "/b") d (Err ErrNoRows) /\
  nx_QueryPathFromHashPart (bs "/z") d (Err ErrNoRows).
Proof. check. Qed.
Example nix_21 : let s := nx_run false [(NAddRef (1)%Z (1)%Z, true); (NUpdate (Some (8)%Z) (bs "g") (Some (6)%Z) None (Some (bs "x")) (bs "/aa"), true); (NAddRef (1)%Z (4)%Z, true); (NRegister (bs "/c") (PI (bs "g") (8)%Z (Some (bs "x")) (Some (5)%Z) (Some (6)%Z) None (Some (bs ""))) 0, true); (NRegister (bs "/a") (PI (bs "g") (7)%Z (Some (bs "y")) (Some (5)%Z) (Some (3)%Z) (Some (bs "y")) (Some (bs ""))) 0, true); (NAddRef (4)%Z (5)%Z, true); (NAddRef (1)%Z (2)%Z, true); (NUpdate None (bs "g") None None None (bs "/a"), true); (NRegister (bs "/c") (PI (bs "h") (1)%Z (Some (bs "")) (Some (1)%Z) (Some (6)%Z) (Some (bs "x")) None) 0, true); (NRegister (bs "/a") (PI (bs "g") (5)%Z (Some (bs "")) (Some (4)%Z) None None (Some (bs "x"))) 0, true); (NRegister (bs "/a") (PI (bs "g") (1)%Z None None None (Some (bs "x")) (Some (bs "y"))) 0, true); (NAddRef (5)%Z (1)%Z, true); (NAddOut (1)%Z (bs "dev") (bs "/o1"), true); (NRegister (bs "/a") (PI (bs "h") (0)%Z None None None (Some (bs "")) (Some (bs ""))) 0, true); (NUpdate (Some (1)%Z) (bs "g") (Some (6)%Z) None (Some (bs "")) (bs "/c"), true); (NRegister (bs "/a") (PI (bs "g") (8)%Z None None None (Some (bs "y")) None) 0, true)] in let d := snd s in
  map snd (fst s) = [Ok tt; Ok tt; Ok tt; Ok tt; Ok tt; Ok tt; Ok tt; Ok tt; Err ErrConstraint; Err ErrConstraint; Err ErrConstraint; Ok tt; Ok tt; Err ErrConstraint; Ok tt; Err ErrConstraint] /\
  nx_QueryPathInfo (bs "/a") d (Ok ((2)%Z, PI (bs "g") (7)%Z (Some (bs "y")) None None None None)) /\
  nx_QueryReferrers (bs "/a") d [(bs "/c")] /\
  nx_QueryPathInfo (bs "/b") d (Err ErrNoRows) /\
  nx_QueryReferrers (bs "/b") d [] /\
  nx_QueryPathInfo (bs "/c") d (Ok ((1)%Z, PI (bs "g") (8)%Z (Some (bs "x")) (Some (1)%Z) (Some (6)%Z) None (Some (bs "")))) /\
  nx_QueryReferrers (bs "/c") d [(bs "/c")] /\
  nx_QueryPathInfo (bs "/aa") d (Err ErrNoRows) /\
  nx_QueryReferrers (bs "/aa") d [] /\
  nx_QueryReferences (1)%Z d [(bs "/c"); (bs "/a")] /\
  nx_QueryDerivationOutputs (1)%Z d [((bs "dev"), (bs "/o1"))] /\
  nx_QueryReferences (2)%Z d [] /\
  nx_QueryDerivationOutputs (2)%Z d [] /\
  nx_QueryReferences (3)%Z d [] /\
  nx_QueryDerivationOutputs (3)%Z d [] /\
  nx_QueryReferences (4)%Z d [] /\
  nx_QueryDerivationOutputs (4)%Z d [] /\
  nx_QueryReferences (5)%Z d [(bs "/c")] /\
  nx_QueryDerivationOutputs (5)%Z d [] /\
  nx_QueryValidDerivers (bs "/o1") d [((1)%Z, (bs "/c"))] /\
  nx_QueryValidDerivers (bs "/o2") d [] /\
  nx_QueryValidDerivers (bs "/a") d [] /\
  nx_QueryPathFromHashPart (bs "/") d (Ok (bs "/a")) /\
  nx_QueryPathFromHashPart (bs "/a") d (Ok (bs "/a")) /\
  nx_QueryPathFromHashPart (bs "/ab") d (Ok (bs "/c")) /\
  nx_QueryPathFromHashPart (bs "/b") d (Ok (bs "/c")) /\
  nx_QueryPathFromHashPart (bs "/z") d (Err ErrNoRows).
Proof. check. Qed.
Example nix_22 : let s := nx_run true [(NRegister (bs "/aa") (PI (bs "g") (3)%Z (Some (bs "y")) (Some (5)%Z) (Some (1)%Z) (Some (bs "")) None) 0, true); (NRegister (bs "/a") (PI (bs "g") (1)%Z None None (Some (7)%Z) (Some (bs "y")) (Some (bs ""))) 0, true); (NAddOut (5)%Z (bs "out") (bs "/o2"), true); (NAddRef (4)%Z (2)%Z, true); (NAddOut (4)%Z (bs "out") (bs "/o2"), true); (NAddOut (5)%Z (bs "out") (bs "/o2"), true); (NAddRef (5)%Z (4)%Z, true); (NRegister (bs "/a") (PI (bs "g") (6)%Z None None (Some (0)%Z) (Some (bs "y")) None) 0, true); (NRegister (bs "/c") (PI (bs "h") (1)%Z (Some (bs "")) None (Some (0)%Z) (Some (bs "y")) (Some (bs "y"))) 0, true); (NRegister (bs "/c") (PI (bs "g") (2)%Z (Some (bs "")) (Some (7)%Z) (Some (2)%Z) (Some (bs "")) (Some (bs ""))) 0, true); (NAddOut (1)%Z (bs "dev") (bs "/o1"), true); (NAddOut (1)%Z (bs "dev") (bs "/o2"), true); (NAddRef (5)%Z (4)%Z, true); (NRegister (bs "/b") (PI (bs "g") (2)%Z (Some (bs "y")) (Some (4)%Z) (Some (7)%Z) (Some (bs "x")) (Some (bs "x"))) 0, true); (NInvalidate (bs "/b"), true)] in let d := snd s in
  map snd (fst s) = [Ok tt; Ok tt; Err ErrConstraint; Err ErrConstraint; Err ErrConstraint; Err ErrConstraint; Err ErrConstraint; Err ErrConstraint; Ok tt; Err ErrConstraint; Ok tt; Ok tt; Err ErrConstraint; Ok tt; Ok tt] /\
  nx_QueryPathInfo (bs "/a") d (Ok ((2)%Z, PI (bs "g") (1)%Z None None (Some (7)%Z) (Some (bs "y")) (Some (bs "")))) /\
  nx_QueryReferrers (bs "/a") d [] /\
  nx_QueryPathInfo (bs "/b") d (Err ErrNoRows) /\
  nx_QueryReferrers (bs "/b") d [] /\
  nx_QueryPathInfo (bs "/c") d (Ok ((3)%Z, PI (bs "h") (1)%Z (Some (bs "")) None (Some (0)%Z) (Some (bs "y")) (Some (bs "y")))) /\
  nx_QueryReferrers (bs "/c") d [] /\
  nx_QueryPathInfo (bs "/aa") d (Ok ((1)%Z, PI (bs "g") (3)%Z (Some (bs "y")) (Some (5)%Z) (Some (1)%Z) (Some (bs "")) None)) /\
  nx_QueryReferrers (bs "/aa") d [] /\
  nx_QueryReferences (1)%Z d [] /\
  nx_QueryDerivationOutputs (1)%Z d [((bs "dev"), (bs "/o2"))] /\
  nx_QueryReferences (2)%Z d [] /\
  nx_QueryDerivationOutputs (2)%Z d [] /\
  nx_QueryReferences (3)%Z d [] /\
  nx_QueryDerivationOutputs (3)%Z d [] /\
  nx_QueryReferences (4)%Z d [] /\
  nx_QueryDerivationOutputs (4)%Z d [] /\
  nx_QueryReferences (5)%Z d [] /\
  nx_QueryDerivationOutputs (5)%Z d [] /\
  nx_QueryValidDerivers (bs "/o1") d [] /\
  nx_QueryValidDerivers (bs "/o2") d [((1)%Z, (bs "/aa"))] /\
  nx_QueryValidDerivers (bs "/a") d [] /\
  nx_QueryPathFromHashPart (bs "/") d (Ok (bs "/a")) /\
  nx_QueryPathFromHashPart (bs "/a") d (Ok (bs "/a")) /\
  nx_QueryPathFromHashPart (bs "/ab") d (Ok (bs "/c")) /\
  nx_QueryPathFromHashPart (bs "/b") d (Ok (bs "/c")) /\
  nx_QueryPathFromHashPart (bs "/z") d (Err ErrNoRows).
Proof. check. Qed.
Example nix_23 : let s := nx_run true [(NInvalidate (bs "/aa"), true); (NAddRef (5)%Z (5)%Z, true); (NAddRef (1)%Z (1)%Z, true); (NRegister (bs "/c") (PI (bs "h") (8)%Z (Some (bs "")) (Some (5)%Z) (Some (3)%Z) None (Some (bs "y"))) 0, true); (NAddOut (4)%Z (bs "dev") (bs "/o2"), true); (NAddRef (4)%Z (3)%Z, true); (NRegister (bs "/c") (PI (bs "h") (1)%Z (Some (bs "y")) None None (Some (bs "x")) None) 0, true); (NAddRef (2)%Z (3)%Z, true); (NAddRef (5)%Z (2)%Z, true)] in let d := snd s in
  map snd (fst s) = [Ok tt; Err ErrConstraint; Err ErrConstraint; Ok tt; Err ErrConstraint; Err ErrConstraint; Err ErrConstraint; Err ErrConstraint; Err ErrConstraint] /\
  nx_QueryPathInfo (bs "/a") d (Err ErrNoRows) /\
  nx_QueryReferrers (bs "/a") d [] /\
  nx_QueryPathInfo (bs "/b") d (Err ErrNoRows) /\
  nx_QueryReferrers (bs "/b") d [] /\
  nx_QueryPathInfo (bs "/c") d (Ok ((1)%Z, PI (bs "h") (8)%Z (Some (bs "")) (Some (5)%Z) (Some (3)%Z) None (Some (bs "y")))) /\
  nx_QueryReferrers (bs "/c") d [] /\
  nx_QueryPathInfo (bs "/aa") d (Err ErrNoRows) /\
  nx_QueryReferrers (bs "/aa") d [] /\
  nx_QueryReferences (1)%Z d [] /\
  nx_QueryDerivationOutputs (1)%Z d [] /\
  nx_QueryReferences (2)%Z d [] /\
  nx_QueryDerivationOutputs (2)%Z d [] /\
  nx_QueryReferences (3)%Z d [] /\
  nx_QueryDerivationOutputs (3)%Z d [] /\
  nx_QueryReferences (4)%Z d [] /\
  nx_QueryDerivationOutputs (4)%Z d [] /\
  nx_QueryReferences (5)%Z d [] /\
  nx_QueryDerivationOutputs (5)%Z d [] /\
  nx_QueryValidDerivers (bs "/o1") d [] /\
  nx_QueryValidDerivers (bs "/o2") d [] /\
  nx_QueryValidDerivers (bs "/a") d [] /\
  nx_QueryPathFromHashPart (bs "/") d (Ok (bs "/c")) /\
  nx_QueryPathFromHashPart (bs "/a") d (Ok (bs "/c")) /\
  nx_QueryPathFromHashPart (bs "/ab") d (Ok (bs "/c")) /\
  nx_QueryPathFromHashPart (bs "/b") d (Ok (bs "/c")) /\
  nx_QueryPathFromHashPart (bs "/z") d (Err ErrNoRows).
Proof. check. Qed.
Example nix_24 : let s := nx_run false [(NUpdate (Some (4)%Z) (bs "h") None (Some (bs "x")) (Some (bs "y")) (bs "/c"), true); (NRegister (bs "/aa") (PI (bs "g") (1)%Z (Some (bs "y")) (Some (4)%Z) (Some (6)%Z) (Some (bs "x")) (Some (bs "x"))) 0, true); (NRegister (bs "/aa") (PI (bs "g") (7)%Z (Some (bs "")) (Some (8)%Z) (Some (0)%Z) (Some (bs "")) (Some (bs "y"))) 0, true); (NRegister (bs "/aa") (PI (bs "h") (8)%Z (Some (bs "y")) None (Some (5)%Z) (Some (bs "")) (Some (bs "x"))) 0, true); (NAddRef (3)%Z (3)%Z, true); (NAddRef (2)%Z (5)%Z, true); (NAddRef (5)%Z (5)%Z, true); (NAddOut (5)%Z (bs "dev") (bs "/o1"), true); (NAddRef (5)%Z (1)%Z, true); (NRegister (bs "/b") (PI (bs "h") (3)%Z None None (Some (8)%Z) (Some (bs "")) (Some (bs "x"))) 0, true); (NRegister (bs "/aa") (PI (bs "h") (1)%Z (Some (bs "")) None None None (Some (bs "x"))) 0, true); (NRegister (bs "/b") (PI (bs "g") (7)%Z None None (Some (6)%Z) None None) 0, true); (NAddRef (4)%Z (4)%Z, true); (NAddRef (3)%Z (1)%Z, true); (NRegister (bs "/aa") (PI (bs "h") (0)%Z None (Some (1)%Z) (Some (8)%Z) None None) 0, true); (NRegister (bs "/c") (PI (bs "g") (2)%Z (Some (bs "y")) (Some (6)%Z) None (Some (bs "y")) None) 0, true); (NAddOut (1)%Z (bs "out") (bs "/o2"), true); (NRegister (bs "/c") (PI (bs "h") (5)%Z (Some (bs "")) None (Some (2)%Z) None (Some (bs "x"))) 0, true); (NAddRef (3)%Z (4)%Z, true); (NAddRef (4)%Z (4)%Z, true); (NAddRef (4)%Z (2)%Z, true)] in let d := snd s in
  map snd (fst s) = [Ok tt; Ok tt; Err ErrConstraint; Err ErrConstraint; Ok tt; Ok tt; Ok tt; Ok tt; Ok tt; Ok tt; Err ErrConstraint; Err ErrConstraint; Ok tt; Ok tt; Err ErrConstraint; Ok tt; Ok tt; Err ErrConstraint; Ok tt; Ok tt; Ok tt] /\
  nx_QueryPathInfo (bs "/a") d (Err ErrNoRows) /\
  nx_QueryReferrers (bs "/a") d [] /\
  nx_QueryPathInfo (bs "/b") d (Ok ((2)%Z, PI (bs "h") (3)%Z None None (Some (8)%Z) (Some (bs "")) (Some (bs "x")))) /\
  nx_QueryReferrers (bs "/b") d [] /\
  nx_QueryPathInfo (bs "/c") d (Ok ((3)%Z, PI (bs "g") (2)%Z (Some (bs "y")) (Some (6)%Z) None (Some (bs "y")) None)) /\
  nx_QueryReferrers (bs "/c") d [(bs "/c")] /\
  nx_QueryPathInfo (bs "/aa") d (Ok ((1)%Z, PI (bs "g") (1)%Z (Some (bs "y")) (Some (4)%Z) (Some (6)%Z) (Some (bs "x")) (Some (bs "x")))) /\
  nx_QueryReferrers (bs "/aa") d [(bs "/c")] /\
  nx_QueryReferences (1)%Z d [] /\
  nx_QueryDerivationOutputs (1)%Z d [((bs "out"), (bs "/o2"))] /\
  nx_QueryReferences (2)%Z d [] /\
  nx_QueryDerivationOutputs (2)%Z d [] /\
  nx_QueryReferences (3)%Z d [(bs "/aa"); (bs "/c")] /\
  nx_QueryDerivationOutputs (3)%Z d [] /\
  nx_QueryReferences (4)%Z d [(bs "/b")] /\
  nx_QueryDerivationOutputs (4)%Z d [] /\
  nx_QueryReferences (5)%Z d [(bs "/aa")] /\
  nx_QueryDerivationOutputs (5)%Z d [((bs "dev"), (bs "/o1"))] /\
  nx_QueryValidDerivers (bs "/o1") d [] /\
  nx_QueryValidDerivers (bs "/o2") d [((1)%Z, (bs "/aa"))] /\
  nx_QueryValidDerivers (bs "/a") d [] /\
  nx_QueryPathFromHashPart (bs "/") d (Ok (bs "/aa")) /\
  nx_QueryPathFromHashPart (bs "/a") d (Ok (bs "/aa")) /\
  nx_QueryPathFromHashPart (bs "/ab") d (Ok (bs "/b")) /\
  nx_QueryPathFromHashPart (bs "/b") d (Ok (bs "/b")) /\
  nx_QueryPathFromHashPart (bs "/z") d (Err ErrNoRows).
Proof. check. Qed.
Example nix_25 : let s := nx_run true [(NRegister (bs "/b") (PI (bs "g") (7)%Z None None (Some (6)%Z) (Some (bs "")) (Some (bs "y"))) 0, true); (NAddRef (1)%Z (5)%Z, true); (NRegister (bs "/b") (PI (bs "g") (6)%Z (Some (bs "x")) (Some (6)%Z) (Some (2)%Z) (Some (bs "")) (Some (bs ""))) 0, true); (NRegister (bs "/a") (PI (bs "g") (2)%Z None (Some (4)%Z) (Some (4)%Z) None None) 0, true); (NAddOut (5)%Z (bs "out") (bs "/o2"), true); (NAddOut (4)%Z (bs "out") (bs "/o1"), true); (NUpdate (Some (3)%Z) (bs "h") None (Some (bs "")) None (bs "/c"), true); (NAddOut (2)%Z (bs "out") (bs "/o1"), true); (NAddOut (2)%Z (bs "out") (bs "/o2"), true); (NUpdate (Some (2)%Z) (bs "h") None (Some (bs "x")) (Some (bs "y")) (bs "/c"), true); (NInvalidate (bs "/c"), true); (NAddOut (2)%Z (bs "dev") (bs "/o2"), true); (NAddOut (2)%Z (bs "out") (bs "/o1"), true); (NRegister (bs "/aa") (PI (bs "g") (7)%Z None (Some (4)%Z) None None None) 0, true); (NAddRef (1)%Z (5)%Z, true); (NUpdate (Some (3)%Z) (bs "g") None (Some (bs "y")) None (bs "/b"), true); (NInvalidate (bs "/a"), true); (NUpdate None (bs "h") (Some (2)%Z) (Some (bs "x")) None (bs "/aa"), true); (NUpdate (Some (7)%Z) (bs "g") (Some (1)%Z) (Some (bs "")) (Some (bs "")) (bs "/c"), true)] in let d := snd s in
  map snd (fst s) = [Ok tt; Err ErrConstraint; Err ErrConstraint; Ok tt; Err ErrConstraint; Err ErrConstraint; Ok tt; Ok tt; Ok tt; Ok tt; Ok tt; Ok tt; Ok tt; Ok tt; Err ErrConstraint; Ok tt; Ok tt; Ok tt; Ok tt] /\
  nx_QueryPathInfo (bs "/a") d (Err ErrNoRows) /\
  nx_QueryReferrers (bs "/a") d [] /\
  nx_QueryPathInfo (bs "/b") d (Ok ((1)%Z, PI (bs "g") (7)%Z None (Some (3)%Z) None (Some (bs "y")) None)) /\
  nx_QueryReferrers (bs "/b") d [] /\
  nx_QueryPathInfo (bs "/c") d (Err ErrNoRows) /\
  nx_QueryReferrers (bs "/c") d [] /\
  nx_QueryPathInfo (bs "/aa") d (Ok ((3)%Z, PI (bs "h") (7)%Z None None (Some (2)%Z) (Some (bs "x")) None)) /\
  nx_QueryReferrers (bs "/aa") d [] /\
  nx_QueryReferences (1)%Z d [] /\
  nx_QueryDerivationOutputs (1)%Z d [] /\
  nx_QueryReferences (2)%Z d [] /\
  nx_QueryDerivationOutputs (2)%Z d [] /\
  nx_QueryReferences (3)%Z d [] /\
  nx_QueryDerivationOutputs (3)%Z d [] /\
  nx_QueryReferences (4)%Z d [] /\
  nx_QueryDerivationOutputs (4)%Z d [] /\
  nx_QueryReferences (5)%Z d [] /\
  nx_QueryDerivationOutputs (5)%Z d [] /\
  nx_QueryValidDerivers (bs "/o1") d [] /\
  nx_QueryValidDerivers (bs "/o2") d [] /\
  nx_QueryValidDerivers (bs "/a") d [] /\
  nx_QueryPathFromHashPart (bs "/") d (Ok (bs "/aa")) /\
  nx_QueryPathFromHashPart (bs "/a") d (Ok (bs "/aa")) /\
  nx_QueryPathFromHashPart (bs "/ab") d (Ok (bs "/b")) /\
  nx_QueryPathFromHashPart (bs "/b") d (Ok (bs "/b")) /\
  nx_QueryPathFromHashPart (bs "/z") d (Err ErrNoRows).
Proof. check. Qed.
Example nix_26 : let s := nx_run true [(NRegister (bs "/a") (PI (bs "h") (7)%Z None None (Some (7)%Z) (Some (bs "x")) None) 0, true); (NRegister (bs "/a") (PI (bs "h") (0)%Z None (Some (1)%Z) None (Some (bs "")) (Some (bs "x"))) 0, true); (NInvalidate (bs "/b"), true); (NRegister (bs "/aa") (PI (bs "g") (3)%Z (Some (bs "x")) None (Some (1)%Z) None (Some (bs "x"))) 0, true); (NAddOut (1)%Z (bs "out") (bs "/o1"), true); (NAddOut (1)%Z (bs "out") (bs "/o2"), true); (NRegister (bs "/c") (PI (bs "h") (6)%Z None None None (Some (bs "y")) None) 0, true); (NUpdate (Some (4)%Z) (bs "h") None None None (bs "/a"), true); (NAddOut (2)%Z (bs "out") (bs "/o1"), true); (NAddRef (4)%Z (4)%Z, true); (NUpdate (Some (2)%Z) (bs "h") None (Some (bs "")) (Some (bs "")) (bs "/b"), true); (NRegister (bs "/c") (PI (bs "h") (3)%Z None (Some (4)%Z) None None (Some (bs ""))) 0, true); (NRegister (bs "/c") (PI (bs "h") (3)%Z (Some (bs "")) (Some (7)%Z) None (Some (bs "y")) None) 0, true); (NAddRef (4)%Z (4)%Z, true); (NAddRef (5)%Z (2)%Z, true); (NAddRef (5)%Z (5)%Z, true); (NAddRef (1)%Z (1)%Z, true); (NRegister (bs "/aa") (PI (bs "h") (5)%Z (Some (bs "x")) (Some (0)%Z) (Some (3)%Z) None (Some (bs "y"))) 0, true); (NInvalidate (bs "/c"), true); (NRegister (bs "/a") (PI (bs "g") (6)%Z None (Some (8)%Z) None (Some (bs "y")) None) 0, true); (NAddOut (2)%Z (bs "out") (bs "/o1"), true); (NRegister (bs "/a") (PI (bs "h") (8)%Z (Some (bs "y")) (Some (5)%Z) (Some (7)%Z) (Some (bs "y")) None) 0, true)] in let d := snd s in
  map snd (fst s) = [Ok tt; Err ErrConstraint; Ok tt; Ok tt; Ok tt; Ok tt; Ok tt; Ok tt; Ok tt; Err ErrConstraint; Ok tt; Err ErrConstraint; Err ErrConstraint; Err ErrConstraint; Err ErrConstraint; Err ErrConstraint; Ok tt; Err ErrConstraint; Ok tt; Err ErrConstraint; Ok tt; Err ErrConstraint] /\
  nx_QueryPathInfo (bs "/a") d (Ok ((1)%Z, PI (bs "h") (7)%Z None (Some (4)%Z) None None None)) /\
  nx_QueryReferrers (bs "/a") d [(bs "/a")] /\
  nx_QueryPathInfo (bs "/b") d (Err ErrNoRows) /\
  nx_QueryReferrers (bs "/b") d [] /\
  nx_QueryPathInfo (bs "/c") d (Err ErrNoRows) /\
  nx_QueryReferrers (bs "/c") d [] /\
  nx_QueryPathInfo (bs "/aa") d (Ok ((2)%Z, PI (bs "g") (3)%Z (Some (bs "x")) None (Some (1)%Z) None (Some (bs "x")))) /\
  nx_QueryReferrers (bs "/aa") d [] /\
  nx_QueryReferences (1)%Z d [(bs "/a")] /\
  nx_QueryDerivationOutputs (1)%Z d [((bs "out"), (bs "/o2"))] /\
  nx_QueryReferences (2)%Z d [] /\
  nx_QueryDerivationOutputs (2)%Z d [((bs "out"), (bs "/o1"))] /\
  nx_QueryReferences (3)%Z d [] /\
  nx_QueryDerivationOutputs (3)%Z d [] /\
  nx_QueryReferences (4)%Z d [] /\
  nx_QueryDerivationOutputs (4)%Z d [] /\
  nx_QueryReferences (5)%Z d [] /\
  nx_QueryDerivationOutputs (5)%Z d [] /\
  nx_QueryValidDerivers (bs "/o1") d [((2)%Z, (bs "/aa"))] /\
  nx_QueryValidDerivers (bs "/o2") d [((1)%Z, (bs "/a"))] /\
  nx_QueryValidDerivers (bs "/a") d [] /\
  nx_QueryPathFromHashPart (bs "/") d (Ok (bs "/a")) /\
  nx_QueryPathFromHashPart (bs "/a") d (Ok (bs "/a")) /\
  nx_QueryPathFromHashPart (bs "/ab") d (Err ErrNoRows) /\
  nx_QueryPathFromHashPart (bs "/b") d (Err ErrNoRows) /\
  nx_QueryPathFromHashPart (bs "/z") d (Err ErrNoRows).
Proof. check. Qed.
Example nix_27 : let s := nx_run false [(NRegister (bs "/b") (PI (bs "g") (7)%Z (Some (bs "y")) (Some (3)%Z) (Some (4)%Z) None (Some (bs "y"))) 0, true); (NAddRef (4)%Z (2)%Z, true); (NInvalidate (bs "/aa"), true); (NRegister (bs "/aa") (PI (bs "g") (5)%Z None None None (Some (bs "x")) None) 0, true); (NUpdate (Some (1)%Z) (bs "h") (Some (3)%Z) (Some (bs "")) (Some (bs "y")) (bs "/c"), true); (NInvalidate (bs "/c"), true); (NAddRef (1)%Z (3)%Z, true); (NUpdate (Some (4)%Z) (bs "h") None (Some (bs "x")) (Some (bs "y")) (bs "/b"), true); (NRegister (bs "/c") (PI (bs "h") (6)%Z None (Some (1)%Z) (Some (4)%Z) None None) 0, true); (NAddRef (3)%Z (2)%Z, true); (NRegister (bs "/aa") (PI (bs "h") (3)%Z (Some (bs "x")) (Some (1)%Z) (Some (3)%Z) (Some (bs "")) (Some (bs "x"))) 0, true); (NRegister (bs "/b") (PI (bs "g") (8)%Z (Some (bs "x")) (Some (1)%Z) None None None) 0, true); (NAddRef (2)%Z (3)%Z, true); (NAddOut (2)%Z (bs "out") (bs "/o2"), true); (NRegister (bs "/b") (PI (bs "g") (6)%Z (Some (bs "x")) (Some (7)%Z) None None (Some (bs ""))) 0, true); (NAddOut (2)%Z (bs "dev") (bs "/o1"), true); (NUpdate None (bs "h") (Some (4)%Z) None (Some (bs "x")) (bs "/aa"), true); (NAddOut (1)%Z (bs "dev") (bs "/o2"), true); (NAddRef (2)%Z (5)%Z, true); (NAddOut (5)%Z (bs "out") (bs "/o1"), true); (NAddOut (1)%Z (bs "out") (bs "/o2"), true)] in let d := snd s in
  map snd (fst s) = [Ok tt; Ok tt; Ok tt; Ok tt; Ok tt; Ok tt; Ok tt; Ok tt; Ok tt; Ok tt; Err ErrConstraint; Err ErrConstraint; Ok tt; Ok tt; Err ErrConstraint; Ok tt; Ok tt; Ok tt; Ok tt; Ok tt; Ok tt] /\
  nx_QueryPathInfo (bs "/a") d (Err ErrNoRows) /\
  nx_QueryReferrers (bs "/a") d [] /\
  nx_QueryPathInfo (bs "/b") d (Ok ((1)%Z, PI (bs "h") (7)%Z (Some (bs "y")) (Some (4)%Z) None (Some (bs "x")) (Some (bs "y")))) /\
  nx_QueryReferrers (bs "/b") d [] /\
  nx_QueryPathInfo (bs "/c") d (Ok ((3)%Z, PI (bs "h") (6)%Z None (Some (1)%Z) (Some (4)%Z) None None)) /\
  nx_QueryReferrers (bs "/c") d [(bs "/b"); (bs "/aa")] /\
  nx_QueryPathInfo (bs "/aa") d (Ok ((2)%Z, PI (bs "h") (5)%Z None None (Some (4)%Z) None (Some (bs "x")))) /\
  nx_QueryReferrers (bs "/aa") d [(bs "/c")] /\
  nx_QueryReferences (1)%Z d [(bs "/c")] /\
  nx_QueryDerivationOutputs (1)%Z d [((bs "dev"), (bs "/o2")); ((bs "out"), (bs "/o2"))] /\
  nx_QueryReferences (2)%Z d [(bs "/c")] /\
  nx_QueryDerivationOutputs (2)%Z d [((bs "dev"), (bs "/o1")); ((bs "out"), (bs "/o2"))] /\
  nx_QueryReferences (3)%Z d [(bs "/aa")] /\
  nx_QueryDerivationOutputs (3)%Z d [] /\
  nx_QueryReferences (4)%Z d [(bs "/aa")] /\
  nx_QueryDerivationOutputs (4)%Z d [] /\
  nx_QueryReferences (5)%Z d [] /\
  nx_QueryDerivationOutputs (5)%Z d [((bs "out"), (bs "/o1"))] /\
  nx_QueryValidDerivers (bs "/o1") d [((2)%Z, (bs "/aa"))] /\
  nx_QueryValidDerivers (bs "/o2") d [((2)%Z, (bs "/aa")); ((1)%Z, (bs "/b")); ((1)%Z, (bs "/b"))] /\
  nx_QueryValidDerivers (bs "/a") d [] /\
  nx_QueryPathFromHashPart (bs "/") d (Ok (bs "/aa")) /\
  nx_QueryPathFromHashPart (bs "/a") d (Ok (bs "/aa")) /\
  nx_QueryPathFromHashPart (bs "/ab") d (Ok (bs "/b")) /\
  nx_QueryPathFromHashPart (bs "/b") d (Ok (bs "/b")) /\
  nx_QueryPathFromHashPart (bs "/z") d (Err ErrNoRows).
Proof. check. Qed.
Example nix_28 : let s := nx_run true [(NAddRef (1)%Z (3)%Z, true); (NUpdate (Some (6)%Z) (bs "g") None None None (bs "/a"), true); (NAddRef (1)%Z (5)%Z, true); (NRegister (bs "/a") (PI (bs "h") (5)%Z None None (Some (7)%Z) None (Some (bs "y"))) 0, true); (NRegister (bs "/a") (PI (bs "g") (4)%Z (Some (bs "y")) (Some (1)%Z) None (Some (bs "y")) (Some (bs "y"))) 0, true); (NRegister (bs "/aa") (PI (bs "g") (0)%Z (Some (bs "")) None None None None) 0, true); (NRegister (bs "/a") (PI (bs "h") (0)%Z (Some (bs "")) None None (Some (bs "y")) (Some (bs "y"))) 0, true); (NAddRef (1)%Z (5)%Z, true); (NInvalidate (bs "/a"), true); (NInvalidate (bs "/b"), true); (NAddRef (5)%Z (4)%Z, true); (NUpdate None (bs "h") None (Some (bs "")) (Some (bs "y")) (bs "/aa"), true); (NAddRef (4)%Z (2)%Z, true); (NRegister (bs "/a") (PI (bs "h") (0)%Z (Some (bs "")) None (Some (0)%Z) None None) 0, true); (NInvalidate (bs "/c"), true); (NAddOut (2)%Z (bs "dev") (bs "/o1"), true); (NRegister (bs "/c") (PI (bs "h") (3)%Z (Some (bs "x")) (Some (4)%Z) None None None) 0, true); (NUpdate None (bs "g") (Some (0)%Z) (Some (bs "")) None (bs "/a"), true); (NAddRef (1)%Z (1)%Z, true); (NAddOut (4)%Z (bs "out") (bs "/o1"), true); (NAddRef (4)%Z (2)%Z, true); (NAddRef (3)%Z (4)%Z, true); (NRegister (bs "/aa") (PI (bs "g") (8)%Z None (Some (3)%Z) None (Some (bs "")) (Some (bs "x"))) 0, true)] in let d := snd s in
  map snd (fst s) = [Err ErrConstraint; Ok tt; Err ErrConstraint; Ok tt; Err ErrConstraint; Ok tt; Err ErrConstraint; Err ErrConstraint; Ok tt; Ok tt; Err ErrConstraint; Ok tt; Err ErrConstraint; Ok tt; Ok tt; Ok tt; Ok tt; Ok tt; Err ErrConstraint; Ok tt; Ok tt; Ok tt; Err ErrConstraint] /\
  nx_QueryPathInfo (bs "/a") d (Ok ((3)%Z, PI (bs "g") (0)%Z (Some (bs "")) None (Some (0)%Z) (Some (bs "")) None)) /\
  nx_QueryReferrers (bs "/a") d [] /\
  nx_QueryPathInfo (bs "/b") d (Err ErrNoRows) /\
  nx_QueryReferrers (bs "/b") d [] /\
  nx_QueryPathInfo (bs "/c") d (Ok ((4)%Z, PI (bs "h") (3)%Z (Some (bs "x")) (Some (4)%Z) None None None)) /\
  nx_QueryReferrers (bs "/c") d [(bs "/a")] /\
  nx_QueryPathInfo (bs "/aa") d (Ok ((2)%Z, PI (bs "h") (0)%Z (Some (bs "")) None None (Some (bs "")) (Some (bs "y")))) /\
  nx_QueryReferrers (bs "/aa") d [(bs "/c")] /\
  nx_QueryReferences (1)%Z d [] /\
  nx_QueryDerivationOutputs (1)%Z d [] /\
  nx_QueryReferences (2)%Z d [] /\
  nx_QueryDerivationOutputs (2)%Z d [((bs "dev"), (bs "/o1"))] /\
  nx_QueryReferences (3)%Z d [(bs "/c")] /\
  nx_QueryDerivationOutputs (3)%Z d [] /\
  nx_QueryReferences (4)%Z d [(bs "/aa")] /\
  nx_QueryDerivationOutputs (4)%Z d [((bs "out"), (bs "/o1"))] /\
  nx_QueryReferences (5)%Z d [] /\
  nx_QueryDerivationOutputs (5)%Z d [] /\
  nx_QueryValidDerivers (bs "/o1") d [((2)%Z, (bs "/aa")); ((4)%Z, (bs "/c"))] /\
  nx_QueryValidDerivers (bs "/o2") d [] /\
  nx_QueryValidDerivers (bs "/a") d [] /\
  nx_QueryPathFromHashPart (bs "/") d (Ok (bs "/a")) /\
  nx_QueryPathFromHashPart (bs "/a") d (Ok (bs "/a")) /\
  nx_QueryPathFromHashPart (bs "/ab") d (Ok (bs "/c")) /\
  nx_QueryPathFromHashPart (bs "/b") d (Ok (bs "/c")) /\
  nx_QueryPathFromHashPart (bs "/z") d (Err ErrNoRows).
Proof. check. Qed.
Example nix_29 : let s := nx_run true [(NRegister (bs "/c") (PI (bs "h") (8)%Z (Some (bs "")) None None (Some (bs "x")) None) 0, true); (NUpdate (Some (4)%Z) (bs "g") (Some (3)%Z) (Some (bs "")) (Some (bs "y")) (bs "/b"), true); (NAddRef (5)%Z (3)%Z, true); (NAddRef (3)%Z (1)%Z, true); (NAddRef (1)%Z (2)%Z, true); (NAddOut (1)%Z (bs "out") (bs "/o2"), true); (NAddRef (4)%Z (5)%Z, true); (NUpdate None (bs "g") (Some (5)%Z) None None (bs "/aa"), true); (NInvalidate (bs "/aa"), true); (NRegister (bs "/c") (PI (bs "g") (5)%Z (Some (bs "")) (Some (5)%Z) (Some (6)%Z) (Some (bs "")) (Some (bs "x"))) 0, true)] in let d := snd s in
  map snd (fst s) = [Ok tt; Ok tt; Err ErrConstraint; Err ErrConstraint; Err ErrConstraint; Ok tt; Err ErrConstraint; Ok tt; Ok tt; Err ErrConstraint] /\
  nx_QueryPathInfo (bs "/a") d (Err ErrNoRows) /\
  nx_QueryReferrers (bs "/a") d [] /\
  nx_QueryPathInfo (bs "/b") d (Err ErrNoRows) /\
  nx_QueryReferrers (bs "/b") d [] /\
  nx_QueryPathInfo (bs "/c") d (Ok ((1)%Z, PI (bs "h") (8)%Z (Some (bs "")) None None (Some (bs "x")) None)) /\
  nx_QueryReferrers (bs "/c") d [] /\
  nx_QueryPathInfo (bs "/aa") d (Err ErrNoRows) /\
  nx_QueryReferrers (bs "/aa") d [] /\
  nx_QueryReferences (1)%Z d [] /\
  nx_QueryDerivationOutputs (1)%Z d [((bs "out"), (bs "/o2"))] /\
  nx_QueryReferences (2)%Z d [] /\
  nx_QueryDerivationOutputs (2)%Z d [] /\
  nx_QueryReferences (3)%Z d [] /\
  nx_QueryDerivationOutputs (3)%Z d [] /\
  nx_QueryReferences (4)%Z d [] /\
  nx_QueryDerivationOutputs (4)%Z d [] /\
  nx_QueryReferences (5)%Z d [] /\
  nx_QueryDerivationOutputs (5)%Z d [] /\
  nx_QueryValidDerivers (bs "/o1") d [] /\
  nx_QueryValidDerivers (bs "/o2") d [((1)%Z, (bs "/c"))] /\
  nx_QueryValidDerivers (bs "/a") d [] /\
  nx_QueryPathFromHashPart (bs "/") d (Ok (bs "/c")) /\
  nx_QueryPathFromHashPart (bs "/a") d (Ok (bs "/c")) /\
  nx_QueryPathFromHashPart (bs "/ab") d (Ok (bs "/c")) /\
  nx_QueryPathFromHashPart (bs "/b") d (Ok (bs "/c")) /\
  nx_QueryPathFromHashPart (bs "/z") d (Err ErrNoRows).
Proof. check. Qed.
