(** Specification of C150: the device list while messages come in *)
From stdpp Require Import gmap.
From Verif Require Import Base StateM SpecState SpecReg.

(** the list has one entry for each device that is registered in the state, and no others; an entry has the
    device's id, plate, phone, session, connection, keepalive time, version and protocol version *)
Definition lists (t : st) (ds : list device) : Prop :=
  base.NoDup (List.map d_phone ds)
  /\ (forall ph d, devAt t ph = Some d -> exists d', In d' ds /\ same_identity d d')
  /\ (forall d', In d' ds -> exists d, devAt t (d_phone d') = Some d /\ same_identity d d').
(** the list is just the devices registered in the state *)
Definition lists_exactly (t : st) (ds : list device) : Prop := forall d, In d ds <-> devAt t (d_phone d) = Some d.
