(** Callers that keep Header structs and change them between calls (C104). *)
From Verif Require Import Base.Bytes Model.GoIO Model.GoStd Model.Wire Model.Nar Model.NarWriter Model.NarWPtr
  Spec.NarSpec Spec.NarWHist.

(** A history on the Writer with pointers: what the calls return, and the Writer at the end. *)
Fixpoint p_run (ops : list p_op) (m : heap) (r : pwr) : list wr_seen * pwr :=
  match ops with
  | [] => ([], r)
  | PSet p h :: ops' => p_run ops' (assign m p h) r
  | PHeader p :: ops' =>
      let '(x, r1) := PWriteHeader m p r in
      let '(l, r2) := p_run ops' m r1 in (SHeader x :: l, r2)
  | PBytes b :: ops' =>
      let '((n, x), r1) := pw_Write b r in
      let '(l, r2) := p_run ops' m r1 in (SWrote n x :: l, r2)
  | PClose :: ops' =>
      let '(x, r1) := pw_Close r in
      let '(l, r2) := p_run ops' m r1 in (SClosed x :: l, r2)
  end.
(** The structs after some operations. *)
Fixpoint heap_after (ops : list p_op) (m : heap) : heap :=
  match ops with
  | [] => m
  | PSet p h :: ops' => heap_after ops' (assign m p h)
  | _ :: ops' => heap_after ops' m
  end.
(** The same calls by value: each WriteHeader with the header as it is at the call. *)
Fixpoint by_value (ops : list p_op) (m : heap) : list wr_op :=
  match ops with
  | [] => []
  | PSet p h :: ops' => by_value ops' (assign m p h)
  | PHeader p :: ops' => WHeader (m p) :: by_value ops' m
  | PBytes b :: ops' => WBytes b :: by_value ops' m
  | PClose :: ops' => WClose :: by_value ops' m
  end.
Definition same_place (h v : header) : Prop := hd_path h = hd_path v /\ hd_type h = hd_type v.
(** Once given to WriteHeader, a struct keeps its Path and Type (the other fields may change). *)
Definition kept (ops : list p_op) (m : heap) : Prop :=
  forall a p b h c, ops = a ++ PHeader p :: b ++ PSet p h :: c -> same_place h (heap_after a m p).
(** [q] is [p] or inside the directory [p]. *)
Definition at_or_below (p q : bytes) : Prop := exists cs ds, p = path_of cs /\ q = path_of (cs ++ ds) /\ Forall entry_name (cs ++ ds).
(** A struct may also be used again once a valid header outside its entry was given to WriteHeader. *)
Definition kept_while_open (ops : list p_op) (m : heap) : Prop :=
  forall a p b h c, ops = a ++ PHeader p :: b ++ PSet p h :: c ->
    same_place h (heap_after a m p) \/
    exists b1 q b2, b = b1 ++ PHeader q :: b2 /\
      let v := heap_after (a ++ PHeader p :: b1) m q in
      hd_Validate v = Ok tt /\ ~ at_or_below (hd_path (heap_after a m p)) (hd_path v).
Definition canonical_headers (ops : list p_op) (m : heap) : Prop :=
  forall a p b, ops = a ++ PHeader p :: b -> canonical_path (hd_path (heap_after a m p)).
(** On the sink [w], every call returns what it would by value, and the same bytes are written. *)
Definition as_by_value (ops : list p_op) (m : heap) (w : sink) : Prop :=
  match PNewWriter w, NewWriter w with
  | (Ok r, w1), (Ok v, w2) => w1 = w2 /\ exists seen r' l v',
      p_run ops m r = (seen, r') /\ wr_run (by_value ops m) v = (l, v') /\ seen = map snd l /\ pw_sink r' = wr_sink v'
  | (Err e, w1), (Err e', w2) => e = e' /\ w1 = w2
  | _, _ => False
  end.
