(** Model of /repo/pkg/nar/ls/list.go.  The decoder
    is a parameter here, giving an error or the decoded value; Json.v has encoding/json's. *)
From Verif Require Import Base.Bytes Model.Nar.

(** list.go:18-25 Node.  [Entries] is a Go map of pointers: an association list
    in iteration order, [None] for nil (JSON null). *)
Inductive lnode := LNode
  (ltype : bytes) (lentries : list (bytes * option lnode)) (lsize : Z) (ltarget : bytes) (lexec : bool) (loff : Z).
(** nar/ls/list.go:18-25. *)
Definition ltype n := let '(LNode t _ _ _ _ _) := n in t.
(** nar/ls/list.go:18-25. *)
Definition lentries n := let '(LNode _ e _ _ _ _) := n in e.
(** nar/ls/list.go:18-25. *)
Definition lsize n := let '(LNode _ _ s _ _ _) := n in s.
(** nar/ls/list.go:18-25. *)
Definition ltarget n := let '(LNode _ _ _ t _ _) := n in t.
Definition lexec n := let '(LNode _ _ _ _ x _) := n in x.
(** list.go:12-15 Root. *)
Record lroot := LRoot { lversion : Z; lroot_node : lnode }.

(** list.go:29-69 validateNode: the checks of the node itself sit inside the
    loop over its entries. *)
Fixpoint validateNode (n : lnode) : res unit :=
  let '(LNode ty es size target exec _) := n in
  (fix loop (es : list (bytes * option lnode)) : res unit :=
     match es with
     | [] => Ok tt
     | (k, v) :: es' =>
         if negb (IsValidNodeName k) then Err (EMsg "invalid entry name")
         else if (beq ty TypeRegular || beq ty TypeDirectory) && negb (beq target [])
         then Err (EMsg "LinkTarget is not empty")
         else if (beq ty TypeDirectory || beq ty TypeSymlink) && negb (Z.eqb size 0)
         then Err (EMsg "Size is not 0")
         else if (beq ty TypeDirectory || beq ty TypeSymlink) && exec
         then Err (EMsg "Executable is true")
         else if beq ty TypeSymlink && beq target [] then Err (EMsg "LinkTarget is empty")
         else match v with
              | None => Panic "nil pointer dereference"
              | Some v => let* _ := validateNode v in loop es'
              end
     end) es.

(** list.go:73-95 ParseLS, after Decode gave [d]. *)
Definition ParseLS (d : res lroot) : res lroot :=
  let* root := d in
  if negb (Z.eqb (lversion root) 1) then Err (EMsg "invalid version")
  else let* _ := validateNode (lroot_node root) in Ok root.
