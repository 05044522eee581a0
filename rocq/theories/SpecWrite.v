(** Specification vocabulary for what goroutines write to connections (C113) *)
From stdpp Require Import gmap.
From Verif Require Import Base HexM TimeM HeaderM ParamsM GeoM MsgM PacketM FrameM ProgM RingM StateM ProcM ServerM ConcM SpecCodec SpecState.
Local Open Scope N_scope.

(** what was written to the connection so far *)
Definition sent (s : st) (c : nat) : list bytes := match st_conns s !! c with Some x => cn_out x | None => [] end.
(** the part of the frame the connection took *)
Definition taken (w : wres) (b : bytes) : bytes := match w with None => b | Some (n, _) => firstn n b end.
(** [m] is a reply to the packet: it has its header but for the id, and its serial number and id in the
    body; a fragment is acknowledged *)
Definition reply_to (p : packet) (m : msg) : Prop :=
  if fragment (pk_hdr p) && negb (pk_segdone p)
  then h_id (m_hdr m) = 0x8001 /\ m_body m = B8001 (h_sn (pk_hdr p)) (h_id (pk_hdr p)) 0
  else m_hdr m = with_id (pk_hdr p) (h_id (m_hdr m))
    /\ match m_body m with
       | B8001 sn id r => h_id (m_hdr m) = 0x8001 /\ sn = h_sn (pk_hdr p) /\ id = h_id (pk_hdr p)
                          /\ In id [0x0002; 0x0003; 0x0102; 0x0200]
       | B8100 sn r c => h_id (m_hdr m) = 0x8100 /\ sn = h_sn (pk_hdr p) /\ h_id (pk_hdr p) = 0x0100
                         /\ (c = [65; 117; 116; 104; 67; 111; 100; 101] \/ exists id plate phone, is_code id plate phone c)
       | B0001 sn id r => h_id (m_hdr m) = 0x0001 /\ sn = h_sn (pk_hdr p) /\ id = h_id (pk_hdr p) /\ r = 0
                          /\ id = 0x8103
       | B0104 sn _ _ => h_id (m_hdr m) = 0x0104 /\ sn = h_sn (pk_hdr p) /\ h_id (pk_hdr p) = 0x8104
       | B1205 sn _ _ _ => h_id (m_hdr m) = 0x1205 /\ sn = h_sn (pk_hdr p) /\ h_id (pk_hdr p) = 0x9205
       | B0102 _ _ _ _ => h_id (m_hdr m) = 0x0102 /\ h_id (pk_hdr p) = 0x8100
       | _ => False
       end.
(** replies to some of the frames, in their order, at most one to each, on the connection [c] *)
Inductive in_order (e : env) (c : nat) : list (res bytes * wres) -> list (nat * bytes) -> Prop :=
| io_none ins : in_order e c ins []
| io_skip i ins ws : in_order e c ins ws -> in_order e c (i :: ins) ws
| io_reply frm w ins p done m b ws : decodePacket (e_o e) frm = Ok p ->
    reply_to (mkPacket (pk_hdr p) (pk_body p) (pk_code p) done) m -> encodePacket (e_o e) m = Ok b ->
    in_order e c ins ws -> in_order e c ((Ok frm, w) :: ins) ((c, taken w b) :: ws).
(** at most one command with this id and body, for the phone *)
Definition command (e : env) (ph : str) (id : N) (b : body) (w : wres) (ws : list (nat * bytes)) : Prop :=
  ws = [] \/ exists c ver proto sn f, encodePacket (e_o e) (mkMsg (genMsgHeader ver proto ph id sn) b) = Ok f /\ ws = [(c, taken w f)].
(** what a goroutine started in [s] may write *)
Definition may_write (e : env) (s : st) (g : goroutine) (ws : list (nat * bytes)) : Prop :=
  match g with
  | GConn c _ ins => in_order e c ins ws
  | GServe sl ins => exists x, st_sess s !! sl = Some x /\ in_order e (ss_conn x) ins ws
  | GGetParams ph w => command e ph 0x8104 B8104 w ws
  | GPutParams ph _ ps w => command e ph 0x8103 (B8103 0 (Some ps)) w ws
  | _ => ws = []
  end.
(** of a log of writes: those to a connection, and those of the i-th goroutine *)
Definition to_conn (c : nat) (log : list (nat * (nat * bytes))) : list bytes :=
  List.map (fun x => snd (snd x)) (List.filter (fun x => Nat.eqb (fst (snd x)) c) log).
Definition by_gor (i : nat) (log : list (nat * (nat * bytes))) : list (nat * bytes) :=
  List.map snd (List.filter (fun x => Nat.eqb (fst x) i) log).
(** connections are new when they are accepted *)
Definition new_conns (s : st) (gs : list goroutine) : Prop :=
  forall c addr ins, In (GConn c addr ins) gs -> st_conns s !! c = None.
(** no write fails *)
Definition writes_succeed (g : goroutine) : Prop :=
  match g with
  | GConn _ _ ins | GServe _ ins => Forall (fun x => snd x = None) ins
  | GGetParams _ w | GPutParams _ _ _ w => w = None
  | _ => True
  end.
(** a whole frame *)
Definition whole_frame (e : env) (b : bytes) : Prop := exists m, encodePacket (e_o e) m = Ok b.
