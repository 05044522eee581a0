(** Specification vocabulary for a device heard recently *)
From stdpp Require Import gmap.
From Verif Require Import Base HexM TimeM HeaderM ParamsM MsgM PacketM FrameM ProgM RingM StateM ProcM ServerM ConcM SpecCodec SpecState.
Local Open Scope N_scope.

(** the packet, if from the phone [ph] of the device [d], is no logout, and no authentication with
    a code other than the device's *)
Definition loyal (e : env) (ph : str) (d : device) (p : packet) : Prop :=
  h_phone (pk_hdr p) = ph ->
  h_id (pk_hdr p) <> 0x0003
  /\ (h_id (pk_hdr p) = 0x0102 -> forall now m al code imei sw,
        msgDecode (e_o e) now K0102 p = Ok m -> m_body m = B0102 al code imei sw -> is_code (d_id d) (d_plate d) ph code).
(** all the goroutine handles is such, and if it is the passing of time, then not beyond the
    keepalive interval after the device was last heard *)
Definition within (d : device) (t : Z) : Prop := (d_last d <= t <= d_last d + d_keep d)%Z.
Definition harmless (e : env) (ph : str) (d : device) (g : goroutine) : Prop :=
  match g with
  | GConn _ _ ins | GServe _ ins => forall frm w p, In (Ok frm, w) ins -> decodePacket (e_o e) frm = Ok p -> loyal e ph d p
  | GMsg _ p => loyal e ph d p
  | GClock t => within d t
  | _ => True
  end.
