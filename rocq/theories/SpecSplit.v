(** Specification vocabulary for groups of goroutines that have nothing to do with each other
    (C110) *)
From stdpp Require Import gmap.
From Verif Require Import Base HexM TimeM HeaderM ParamsM MsgM PacketM FrameM ProgM RingM StateM ProcM ServerM ConcM SpecCodec SpecState SpecConc.
Local Open Scope N_scope.

(** A group of terminals: its phones, its plates, the client addresses and the connections it uses.
    The rest of the world has all the others. *)
Record group : Type := mkGroup {
  in_phone : str -> bool; in_plate : str -> bool; in_addr : str -> bool; in_conn : nat -> bool
}.

(** the device ([b = true]: of the group; [b = false]: of the rest) has phone, plate, address and
    connection on one side *)
Definition dev_in (k : group) (b : bool) (d : device) : Prop :=
  in_phone k (d_phone d) = b /\ in_plate k (d_plate d) = b /\ in_addr k (d_sid d) = b /\ in_conn k (d_conn d) = b.
Definition sess_in (k : group) (b : bool) (x : session) : Prop :=
  in_addr k (ss_id x) = b /\ in_conn k (ss_conn x) = b.
(** what is registered is of the group or of the rest *)
Definition parted (k : group) (s : st) : Prop :=
  (forall ph d, devAt s ph = Some d -> dev_in k (in_phone k ph) d)
  /\ (forall w d, devWithPlate s w = Some d -> dev_in k (in_plate k w) d)
  /\ (forall a x, sessAt s a = Some x -> sess_in k (in_addr k a) x).

(** the message comes from a phone of the side, and a registration names a plate of it *)
Definition packet_in (e : env) (k : group) (b : bool) (p : packet) : Prop :=
  in_phone k (h_phone (pk_hdr p)) = b
  /\ (h_id (pk_hdr p) = 0x0100 -> forall now m r, msgDecode (e_o e) now K0100 p = Ok m -> m_body m = B0100 r ->
        in_plate k (r_plate r) = b).
Definition frames_in (e : env) (k : group) (b : bool) (ins : list (res bytes * wres)) : Prop :=
  forall frm w p, In (Ok frm, w) ins -> decodePacket (e_o e) frm = Ok p -> packet_in e k b p.
(** the goroutine acts for the side [b] *)
Definition belongs (e : env) (k : group) (s : st) (b : bool) (g : goroutine) : Prop :=
  match g with
  | GConn c addr ins => in_conn k c = b /\ in_addr k addr = b /\ frames_in e k b ins
  | GServe sl ins => (exists x, st_sess s !! sl = Some x /\ sess_in k b x) /\ frames_in e k b ins
  | GMsg sl p => (exists x, st_sess s !! sl = Some x /\ sess_in k b x) /\ packet_in e k b p
  | GTick ph | GGeo ph | GGetParams ph _ | GPutParams ph _ _ _ => in_phone k ph = b
  | GList | GCount | GClock _ => True
  end.

(** all goroutines together, and those of the side [b] without the others; time passes for both *)
Definition together (e : env) (gs : list (bool * goroutine)) (s : st) (sch : list nat) : list (sp unit) * st :=
  psteps (List.map (fun x => code e (snd x)) gs) s sch.
Definition side_code (e : env) (b : bool) (x : bool * goroutine) : sp unit :=
  match snd x with
  | GClock t => code e (GClock t)
  | g => if Bool.eqb (fst x) b then code e g else ret tt
  end.
Definition apart (e : env) (b : bool) (gs : list (bool * goroutine)) (s : st) (sch : list nat) : list (sp unit) * st :=
  psteps (List.map (side_code e b) gs) s sch.

(** the two states agree on everything stored for the side [b], and on what was written to its
    connections *)
Record agree_on (k : group) (b : bool) (s s' : st) : Prop := {
  ag_dev : forall ph, in_phone k ph = b -> devAt s' ph = devAt s ph;
  ag_ring : forall ph, in_phone k ph = b -> ringOf s' ph = ringOf s ph;
  ag_params : forall ph, in_phone k ph = b -> st_params s' !! ph = st_params s !! ph;
  ag_segs : forall ph id, in_phone k ph = b -> ~ In 47 ph -> st_segs s' !! segKey ph id = st_segs s !! segKey ph id;
  ag_jobs : base.filter (fun ph => in_phone k ph = b) (st_jobs s') = base.filter (fun ph => in_phone k ph = b) (st_jobs s);
  ag_plate : forall w, in_plate k w = b -> devWithPlate s' w = devWithPlate s w;
  ag_sess : forall a, in_addr k a = b -> sessAt s' a = sessAt s a;
  ag_conn : forall c, in_conn k c = b -> st_conns s' !! c = st_conns s !! c;
  ag_clock : st_clock s' = st_clock s
}.
(** the [i]-th goroutine acts for the group, all the others for the rest *)
Definition only (e : env) (k : group) (s : st) (gs : list goroutine) (i : nat) : Prop :=
  forall j g, nth_error gs j = Some g -> belongs e k s (Nat.eqb i j) g.
(** the events of one connection: it is accepted as the session at [sl], and the results of Recv and
    Send come in *)
Definition dialogue (c : nat) (addr : str) (sl : nat) (ins : list (res bytes * wres)) : list event :=
  EAccept c addr :: List.map (fun x => EFrame sl (fst x) (snd x)) ins.
(** connections, one after the other: each is accepted, handles all its input, then the next one is
    accepted *)
Fixpoint in_turn (e : env) (cs : list (nat * str * list (res bytes * wres))) (w : world) : world :=
  match cs with
  | [] => w
  | (c, addr, ins) :: t => in_turn e t (fold_left (step e) (dialogue c addr (fresh (dom (st_sess (w_st w)))) ins) w)
  end.
Definition conns_of (cs : list (nat * str * list (res bytes * wres))) : list goroutine :=
  List.map (fun x => GConn (fst (fst x)) (snd (fst x)) (snd x)) cs.

(** A terminal that connects, registers and authenticates: its connection, the address it comes from,
    its phone and plate, and the two frames it sends *)
Record entrant : Type := mkEnt {
  en_conn : nat; en_addr : str; en_phone : str; en_plate : str; en_reg : bytes; en_auth : bytes
}.
Definition entry (t : entrant) : goroutine := GConn (en_conn t) (en_addr t) [(Ok (en_reg t), None); (Ok (en_auth t), None)].
(** the frame is one whole message, from a phone number of digits *)
Definition whole (e : env) (f : bytes) (p : packet) : Prop :=
  (exists c, bytes_ok c = true /\ f = framed c) /\ decodePacket (e_o e) f = Ok p /\ fragment (pk_hdr p) = false
  /\ digits (h_phone (pk_hdr p)) = true /\ length (h_phone (pk_hdr p)) = phone_digits (a_ver (h_attr (pk_hdr p))).
(** the first frame registers the phone with the plate, the second one shows the code for them *)
Definition entering (e : env) (s : st) (t : entrant) : Prop :=
  exists p1 p2 r al code imei sw, whole e (en_reg t) p1 /\ whole e (en_auth t) p2
    /\ carries e s p1 0x0100 (B0100 r) /\ carries e s p2 0x0102 (B0102 al code imei sw)
    /\ h_phone (pk_hdr p1) = en_phone t /\ h_phone (pk_hdr p2) = en_phone t /\ r_plate r = en_plate t
    /\ is_code (r_devid r) (en_plate t) (en_phone t) code.
(** nothing of the terminal is in use *)
Definition unused (s : st) (t : entrant) : Prop :=
  devAt s (en_phone t) = None /\ devWithPlate s (en_plate t) = None /\ sessAt s (en_addr t) = None
  /\ st_conns s !! en_conn t = None
  /\ forall ph d, devAt s ph = Some d -> d_sid d <> en_addr t /\ d_conn d <> en_conn t.
Definition unlike (t t' : entrant) : Prop :=
  en_conn t <> en_conn t' /\ en_addr t <> en_addr t' /\ en_phone t <> en_phone t' /\ en_plate t <> en_plate t'.
Definition all_unlike (ts : list entrant) : Prop :=
  forall i j t t', nth_error ts i = Some t -> nth_error ts j = Some t' -> i <> j -> unlike t t'.
(** what the terminal calls its own *)
Definition own (t : entrant) : group :=
  mkGroup (fun p => bool_decide (p = en_phone t)) (fun w => bool_decide (w = en_plate t)) (fun a => bool_decide (a = en_addr t))
          (fun c => bool_decide (c = en_conn t)).
(** the terminal has been let in: it is online on its connection, found by phone and by plate, watched
    by the keepalive, and both its messages have been answered with success *)
Definition inside (e : env) (s : st) (t : entrant) (s' : st) : Prop :=
  exists d x p1 p2 code m1 m2 f1 f2, devAt s' (en_phone t) = Some d /\ devWithPlate s' (en_plate t) = Some d
    /\ d_phone d = en_phone t /\ d_plate d = en_plate t /\ d_status d = Online
    /\ d_sid d = en_addr t /\ d_conn d = en_conn t /\ d_last d = st_clock s /\ d_auth d = code
    /\ en_phone t ∈ st_jobs s'
    /\ sessAt s' (en_addr t) = Some x /\ ss_conn x = en_conn t
    /\ decodePacket (e_o e) (en_reg t) = Ok p1 /\ decodePacket (e_o e) (en_auth t) = Ok p2
    /\ answers p1 0x8100 (B8100 (h_sn (pk_hdr p1)) 0 code) m1 /\ answers p2 0x8001 (B8001 (h_sn (pk_hdr p2)) 0x0102 0) m2
    /\ encodePacket (e_o e) m1 = Ok f1 /\ encodePacket (e_o e) m2 = Ok f2
    /\ st_conns s' !! en_conn t = Some (mkConn true [f1; f2]).
