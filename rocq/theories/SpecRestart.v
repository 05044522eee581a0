(** What the properties of a restarted simulator say (C135) *)
From Coq Require Import ZArith.
From stdpp Require Import gmap.
From Flocq Require Import IEEE754.Bits.
From Verif Require Import Base HexM TimeM HeaderM ParamsM GeoM MsgM PacketM FrameM FloatM ProgM RingM StateM ProcM ServerM ClientM DatagenM NetM
  SpecCodec SpecState SpecSim SpecNet RestartM.
Local Open Scope N_scope.

(** the server knows nothing of a terminal *)
Definition absent (s : st) (c : simconf) : Prop := devAt s (number c) = None /\ devWithPlate s (sm_plate c) = None.
(** the server still has a device with the terminal's number and plate *)
Definition leftover (s : st) (c : simconf) : Prop := exists d, devAt s (number c) = Some d /\ d_plate d = sm_plate c.
(** the terminals are connected and have done nothing yet; the server may still have devices with
    their numbers and plates *)
Definition redialled (o : oracle) (n : net) : Prop :=
  consistent (nt_srv n) /\ apart n
  /\ forall i t, nt_terms n !! i = Some t ->
     able o (tm_conf t) /\ tm_at t = PIdle /\ tm_up t = 0%nat /\ tm_down t = 0%nat
     /\ tm_served t = true /\ tm_runs t = true
     /\ fresh_conn (nt_srv n) (tm_srv t) /\ fresh_conn (nt_cli n) (tm_cli t)
     /\ (absent (nt_srv n) (tm_conf t) \/ leftover (nt_srv n) (tm_conf t)).

(** the simulator is started again with the same vehicles: numbers and plates as before, the rest
    (ids, IMEI, ...) as it may be; connections are new *)
Definition same_vehicle (t : term) (w : newterm) : Prop :=
  number (nw_conf w) = number (tm_conf t) /\ sm_plate (nw_conf w) = sm_plate (tm_conf t).
Definition restartable (o : oracle) (n : net) (ends : list nat) (news : list newterm) : Prop :=
  Forall2 same_vehicle (nt_terms n) news
  /\ Forall (fun w => able o (nw_conf w)) news
  /\ Forall (fun w => st_conns (nt_srv n) !! nw_conn w = None) news
  /\ base.NoDup (List.map nw_conn news) /\ base.NoDup (List.map nw_cconn news)
  /\ Forall (fun sl => is_Some (st_sess (nt_srv n) !! sl)) ends.
(** two of these keepalive checks of the device [d] come after its time is up *)
Definition overdue (d : device) (waits : list (Z * str)) : Prop :=
  exists w1 t1 w2 t2 w3, waits = w1 ++ (t1, d_phone d) :: w2 ++ (t2, d_phone d) :: w3
  /\ (d_last d + d_keep d < t1)%Z /\ (d_last d + d_keep d < t2)%Z.
