(** For C108: values and archives one after the other on one stream. *)
From Verif Require Import Base.Bytes Model.GoIO Model.GoStd Model.Wire Model.Nar Model.NarReader Model.NarWriter Model.NarDump
  Spec.WireSpec Spec.NarSpec Spec.NarHist Spec.NarDumpSpec.

(** What is exchanged. *)
Inductive message := MNum (n : N) | MBool (b : bool) | MString (c : bytes) | MTree (t : node).
Definition message_bytes (m : message) : bytes :=
  match m with
  | MNum n => uint_field n
  | MBool b => bool_field b
  | MString c => field c
  | MTree t => nar t
  end.
(** What go-nix can represent (names: see C28). *)
Definition message_ok (m : message) : Prop :=
  match m with
  | MNum n => (n < 2 ^ 64)%N
  | MBool _ => True
  | MString c => (lenN c < 2 ^ 63)%N
  | MTree t => wf_tree reader_name t
  end.

(** The calls of the sender: wire.WriteUint64, WriteBool, WriteString,
    nar.DumpPathFilter. *)
Inductive send_call := SendNum (n : N) | SendBool (b : bool) | SendString (c : bytes)
| SendDump (filter : option (bytes -> bytes -> bool)) (root : bytes) (f : fs).
Definition of_error (e : option error) : wres := match e with None => WOk | Some e => WErr e end.
Definition send (c : send_call) (w : sink) : wres * sink :=
  match c with
  | SendNum n => let '(e, w) := WriteUint64 w n in (of_error e, w)
  | SendBool b => let '(e, w) := WriteBool w b in (of_error e, w)
  | SendString c => let '(e, w) := WriteString w c in (of_error e, w)
  | SendDump flt root f => DumpPathFilter flt root w f
  end.
(** All of them in order, until one fails. *)
Fixpoint send_all (cs : list send_call) (w : sink) : wres * sink :=
  match cs with
  | [] => (WOk, w)
  | c :: cs => let '(x, w) := send c w in match x with WOk => send_all cs w | _ => (x, w) end
  end.
(** The message a call is meant to send. *)
Definition meant (c : send_call) (m : message) : Prop :=
  match c with
  | SendNum n => m = MNum n
  | SendBool b => m = MBool b
  | SendString s => m = MString s
  | SendDump flt root f => fs_ok f /\ exists t, tree_of (keep_of flt) root [] f = Some t /\ m = MTree t
  end.

(** The calls of the receiver: wire.ReadUint64, ReadBool, ReadString, and a new
    nar.Reader with Next and Read calls as in Spec/NarHist.v. *)
Inductive recv_call := RecvNum | RecvBool | RecvString (max : N) | RecvTree (plans : list (list N)).
Inductive received := GotNum (r : res N) | GotBool (r : res bool) | GotString (r : res bytes)
| GotTree (o : list (res header * list (bytes * option error))) | GotNoReader.
Definition recv (c : recv_call) (s : src) : received * src :=
  match c with
  | RecvNum => let '(r, s) := ReadUint64 s in (GotNum r, s)
  | RecvBool => let '(r, s) := ReadBool s in (GotBool r, s)
  | RecvString max => let '(r, s) := ReadString s max in (GotString r, s)
  | RecvTree plans =>
      match NewReader s with
      | (Ok r, _) => let '(o, r') := session plans r in (GotTree o, rd_src r')
      | (_, s) => (GotNoReader, s)
      end
  end.
Fixpoint recv_all (cs : list recv_call) (s : src) : list received * src :=
  match cs with
  | [] => ([], s)
  | c :: cs => let '(g, s) := recv c s in let '(l, s) := recv_all cs s in (g :: l, s)
  end.
(** The right call for a message: enough room, and Next until io.EOF. *)
Definition suits (m : message) (c : recv_call) : Prop :=
  match m, c with
  | MNum _, RecvNum => True
  | MBool _, RecvBool => True
  | MString s, RecvString max => (lenN s <= max)%N
  | MTree t, RecvTree plans => nodes t < length plans
  | _, _ => False
  end.
(** The right answer. *)
Definition conveys (m : message) (c : recv_call) (g : received) : Prop :=
  match m, c, g with
  | MNum n, _, GotNum r => r = Ok n
  | MBool b, _, GotBool r => r = Ok b
  | MString s, _, GotString r => r = Ok s
  | MTree t, RecvTree plans, GotTree o => session_of (items [] t) plans o
  | _, _, _ => False
  end.
Fixpoint all_convey (ms : list message) (cs : list recv_call) (gs : list received) : Prop :=
  match ms, cs, gs with
  | [], [], [] => True
  | m :: ms, c :: cs, g :: gs => conveys m c g /\ all_convey ms cs gs
  | _, _, _ => False
  end.
