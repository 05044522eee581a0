(** What is said about messages that are received twice *)
From stdpp Require Import gmap.
From Verif Require Import Base HexM TimeM HeaderM ParamsM GeoM MsgM PacketM ProgM RingM StateM ProcM ServerM SpecCodec SpecState SpecReg.
Local Open Scope N_scope.

(** the message is no location report, and no setting for a phone without parameters *)
Definition repeatable (s : st) (ph : str) (b : body) : Prop :=
  (forall m, b <> B0200 m) /\ (forall n ps, b = B8103 n (Some ps) -> st_params s !! ph <> None).
(** the frame is no fragment of a message *)
Definition single (h : header) : Prop := a_frag (h_attr h) <> 1.
(** the two states have the same devices, locations and parameters *)
Definition same_content (s s' : st) : Prop := exists pl, shows s pl /\ shows s' pl.
(** the header with another serial number *)
Definition with_serial (h : header) (sn : N) : header := mkHeader (h_id h) (h_attr h) (h_proto h) (h_phone h) sn (h_frag h).
