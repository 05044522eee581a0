(** Specification vocabulary for phones that are not registered, and for plates in use *)
From stdpp Require Import gmap.
From Verif Require Import Base HexM TimeM HeaderM ParamsM MsgM PacketM FrameM ProgM RingM StateM ProcM ServerM ConcM SpecCodec SpecState.
Local Open Scope N_scope.

(** the goroutine handles no registration of the phone [ph] *)
Definition registers_not (e : env) (ph : str) (g : goroutine) : Prop :=
  match g with
  | GConn _ _ ins | GServe _ ins => forall frm w p, In (Ok frm, w) ins -> decodePacket (e_o e) frm = Ok p ->
                                      h_phone (pk_hdr p) = ph -> h_id (pk_hdr p) <> 0x0100
  | GMsg _ p => h_phone (pk_hdr p) = ph -> h_id (pk_hdr p) <> 0x0100
  | _ => True
  end.
