(** Specification of C149: a location request while reports come in *)
From stdpp Require Import gmap.
From Verif Require Import Base TimeM HeaderM GeoM MsgM PacketM RingM StateM ProcM ServerM ConcM.
Local Open Scope N_scope.

(** the packet is a location report [m] of the phone [q] *)
Definition report (e : env) (p : packet) (q : str) (m : locrep) : Prop :=
  h_phone (pk_hdr p) = q /\ h_id (pk_hdr p) = 0x0200
  /\ exists t, msgDecode (e_o e) t K0200 p = Ok (mkMsg (pk_hdr p) (B0200 m)).
(** the goroutine handles such a report *)
Definition brings (e : env) (g : goroutine) (q : str) (m : locrep) : Prop :=
  match g with
  | GConn _ _ ins | GServe _ ins =>
      exists frm w p, In (Ok frm, w) ins /\ decodePacket (e_o e) frm = Ok p /\ report e p q m
  | GMsg _ p => report e p q m
  | _ => False
  end.
(** the stored location [g] has the values of the report [m] of the phone [q] *)
Definition from_report (q : str) (m : locrep) (g : devgeo) : Prop :=
  dg_phone g = q /\ dg_meta g = geoDecode (l_status m) /\ dg_lat g = l_lat m /\ dg_lon g = l_lon m
  /\ dg_altitude g = l_altitude m /\ dg_speed g = l_speed m /\ dg_dir g = l_dir m
  /\ exists t, dg_time g = ParseTime t (l_time m).
(** [g] is in the buffer of the phone at the beginning, or reported by one of the goroutines *)
Definition told (e : env) (gs : list goroutine) (s : st) (q : str) (g : devgeo) : Prop :=
  (exists l r, st_geo s !! q = Some l /\ st_rings s !! l = Some r /\ In (Some g) (rg_slots r))
  \/ exists h m, In h gs /\ brings e h q m /\ from_report q m g.
