(** Specification vocabulary: for which phones a goroutine acts *)
From stdpp Require Import gmap.
From Verif Require Import Base HexM TimeM HeaderM ParamsM MsgM PacketM FrameM ProgM RingM StateM ProcM ServerM ConcM ClientM DatagenM SimConcM.
Local Open Scope N_scope.

(** one of the frames is a message of the phone [q] *)
Definition carries_phone (e : env) (ins : list (res bytes * wres)) (q : str) : Prop :=
  exists frm w p, In (Ok frm, w) ins /\ decodePacket (e_o e) frm = Ok p /\ h_phone (pk_hdr p) = q.
(** the goroutine of the server acts for the phone [q] *)
Definition acts (e : env) (g : goroutine) (q : str) : Prop :=
  match g with
  | GConn _ _ ins | GServe _ ins => carries_phone e ins q
  | GMsg _ p => h_phone (pk_hdr p) = q
  | GTick ph | GGeo ph | GGetParams ph _ | GPutParams ph _ _ _ => ph = q
  | GList | GClock _ | GCount => False
  end.
(** the goroutine of the simulator acts for the phone [q] *)
Definition tacts (e : env) (g : simroutine) (q : str) : Prop :=
  match g with
  | TReceive _ ins => carries_phone e ins q
  | TStatus ph _ | TKeep ph _ _ | TReport _ ph _ _ _ => ph = q
  | TBegin c _ _ => d_phone (genDevice c [] 0) = q
  | TClock _ => False
  end.
(** its session exists *)
Definition tplaced (s : st) (g : simroutine) : Prop :=
  match g with
  | TReceive sl _ | TBegin _ sl _ | TKeep _ sl _ | TReport _ _ _ sl _ => is_Some (st_sess s !! sl)
  | TStatus _ _ | TClock _ => True
  end.
(** memory that belongs to one phone: a device record, a location buffer *)
Definition personal (c : cell) : Prop :=
  match c with CDev _ | CRingSlots _ | CRingReader _ | CRingWriter _ => True | _ => False end.
(** the next actions of the two goroutines race on memory of the kind [P] *)
Definition clash {S A} (P : cell -> Prop) (p q : prog S A) : Prop :=
  exists x y, In x (accesses p) /\ In y (accesses q) /\ P (ac_cell x) /\ conflict x y = true.
