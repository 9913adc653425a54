(** What a history of statements and transactions should amount to (C115). *)
From Verif Require Import Base.Bytes Model.GoIO Model.SqliteTx.

Section S.
Context {D O R : Type} (step : O -> D -> R * D).
(** The statements the n-th transaction executed, with what they returned. *)
Fixpoint own (n : nat) (tr : list (event O * outcome R)) : list (O * R) :=
  match tr with
  | [] => []
  | (EExec (Some m) o _, Ran r) :: tr' => if m =? n then (o, r) :: own n tr' else own n tr'
  | _ :: tr' => own n tr'
  end.
(** The history that counts: statements outside of transactions when they are executed,
    those of a transaction, together, when Commit returns nil. *)
Fixpoint effects_after (past tr : list (event O * outcome R)) : list (O * R) :=
  match tr with
  | [] => []
  | x :: tr' =>
      match x with
      | (EExec None o _, Ran r) => [(o, r)]
      | (ECommit n _, Done) => own n past
      | _ => []
      end ++ effects_after (past ++ [x]) tr'
  end.
Definition effects := effects_after [].
(** Running the statements one after the other returns these results and ends here. *)
Fixpoint replays (d : D) (l : list (O * R)) (d' : D) : Prop :=
  match l with
  | [] => d' = d
  | (o, r) :: l' => exists d1, step o d = (r, d1) /\ replays d1 l' d'
  end.
(** How many transactions were begun. *)
Definition begins (tr : list (event O * outcome R)) : nat := length (filter (fun x => match fst x with EBegin => true | _ => false end) tr).
(** Nobody goes on with a transaction of which a statement failed to be executed. *)
Definition stops_at_failure (tr : list (event O * outcome R)) : Prop :=
  forall tr1 tr2 n o f o' f' out, tr = tr1 ++ (EExec (Some n) o f, Failed) :: tr2 -> ~ In (EExec (Some n) o' f', out) tr2.
End S.
