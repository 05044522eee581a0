(** What the properties of a fleet of simulated terminals say (C107, C108) *)
From Coq Require Import ZArith.
From stdpp Require Import gmap.
From Flocq Require Import IEEE754.Bits.
From Verif Require Import Base HexM TimeM HeaderM ParamsM GeoM MsgM PacketM FrameM FloatM ProgM RingM StateM ProcM ServerM ClientM DatagenM NetM
  SpecCodec SpecState SpecSim.
Local Open Scope N_scope.

(** the phone number a terminal has on the wire *)
Definition number (c : simconf) : str :=
  match width (sm_version c) with Some n => zeros_before n (sm_phone c) | None => sm_phone c end.
(** a configuration whose strings fit the fields of its protocol version *)
Definition able (o : oracle) (c : simconf) : Prop :=
  digits (sm_phone c) = true
  /\ exists g, gbk_fits o (sm_plate c) g
  /\ ((width (sm_version c) = Some 20%nat /\ (length (sm_phone c) <= 20)%nat /\ text_fits 30 (sm_id c)
       /\ length (sm_imei c) = 15%nat /\ (length g < 948)%nat)
      \/ (width (sm_version c) = Some 12%nat /\ (length (sm_phone c) <= 12)%nat /\ text_fits 7 (sm_id c)
          /\ g <> [] /\ (length g < 987)%nat)).

(** two terminals share no number, plate, session or connection *)
Definition apart (n : net) : Prop :=
  forall i j t u, i <> j -> nt_terms n !! i = Some t -> nt_terms n !! j = Some u ->
  number (tm_conf t) <> number (tm_conf u) /\ sm_plate (tm_conf t) <> sm_plate (tm_conf u)
  /\ tm_srv t <> tm_srv u
  /\ forall x y, st_sess (nt_cli n) !! tm_cli t = Some x -> st_sess (nt_cli n) !! tm_cli u = Some y -> ss_conn x <> ss_conn y.
(** nothing has been sent on an open connection *)
Definition fresh_conn (s : st) (sl : nat) : Prop :=
  exists x, st_sess s !! sl = Some x /\ st_conns s !! ss_conn x = Some (mkConn true []).
(** the terminals are connected and have done nothing yet; the server knows none of them *)
Definition dialled (o : oracle) (n : net) : Prop :=
  consistent (nt_srv n) /\ apart n
  /\ forall i t, nt_terms n !! i = Some t ->
     able o (tm_conf t) /\ tm_at t = PIdle /\ tm_up t = 0%nat /\ tm_down t = 0%nat
     /\ tm_served t = true /\ tm_runs t = true
     /\ fresh_conn (nt_srv n) (tm_srv t) /\ fresh_conn (nt_cli n) (tm_cli t)
     /\ devAt (nt_srv n) (number (tm_conf t)) = None /\ devWithPlate (nt_srv n) (sm_plate (tm_conf t)) = None
     /\ track (nt_srv n) (number (tm_conf t)) [].

Section Runs.
Context (e ec : env) (other : binary64 -> N).
(** no keepalive check finds a device silent for longer than its duration, and reports are made
    between 1969 and 2068, the years the six BCD bytes of a time stand for *)
Definition punctual (n : net) (ev : nevent) : Prop :=
  match ev with
  | NTick i => forall t d, nt_terms n !! i = Some t -> devAt (nt_srv n) (number (tm_conf t)) = Some d ->
               (st_clock (nt_srv n) <= d_last d + d_keep d)%Z
  | NReport _ _ => civil_valid (e_civil ec (st_clock (nt_cli n))) /\ year_window (e_civil ec (st_clock (nt_cli n)))
  | _ => True
  end.
Fixpoint all_punctual (n : net) (evs : list nevent) : Prop :=
  match evs with [] => True | ev :: t => punctual n ev /\ all_punctual (nstep e ec other n ev) t end.

Definition is_online (a : progress) : bool := match a with POnline => true | _ => false end.
(** the location terminal [i] generates when this event happens *)
Definition generated (n : net) (i : nat) (ev : nevent) : list devgeo :=
  match ev, nt_terms n !! i with
  | NReport j r, Some t =>
      if (j =? i)%nat && is_online (tm_at t) then
        let now := e_civil ec (st_clock (nt_cli n)) in
        match m_body (genMsg0200 other (genDevice (tm_conf t) [] 0) (tm_geo t) r now) with
        | B0200 l => [mkDevGeo (number (tm_conf t)) (geoDecode (l_status l)) (l_lat l) (l_lon l) (l_altitude l) (l_speed l) (l_dir l) now]
        | _ => []
        end
      else []
  | _, _ => []
  end.
Fixpoint all_generated (n : net) (i : nat) (evs : list nevent) : list devgeo :=
  match evs with [] => [] | ev :: t => generated n i ev ++ all_generated (nstep e ec other n ev) i t end.
End Runs.

(** both sides have read everything *)
Definition settled (n : net) (t : term) : Prop :=
  tm_up t = length (written (nt_cli n) (tm_cli t)) /\ tm_down t = length (written (nt_srv n) (tm_srv t)).
(** the client takes the terminal for online; the server has it registered on its session with
    its id and plate and does not take it for offline *)
Definition online (n : net) (t : term) : Prop :=
  (exists d, devAt (nt_cli n) (number (tm_conf t)) = Some d /\ d_status d = Online)
  /\ exists x d, st_sess (nt_srv n) !! tm_srv t = Some x /\ devAt (nt_srv n) (number (tm_conf t)) = Some d
     /\ d_id d = sm_id (tm_conf t) /\ d_plate d = sm_plate (tm_conf t) /\ d_phone d = number (tm_conf t)
     /\ d_sid d = ss_id x /\ d_conn d = ss_conn x /\ d_status d <> Offline
     /\ devWithPlate (nt_srv n) (sm_plate (tm_conf t)) = Some d
     /\ is_code (d_id d) (d_plate d) (d_phone d) (d_auth d).
(** what the programs do for terminal [i] until it is online *)
Definition coming_online (i : nat) (ev : nevent) : Prop :=
  ev = NBuild i \/ ev = NRegister i \/ ev = NServe i \/ ev = NClient i \/ ev = NCheck i.
(** nobody in the fleet has this number *)
Definition outside (n : net) (q : str) : Prop := forall i t, nt_terms n !! i = Some t -> q <> number (tm_conf t).

(** a run that never ends: its first [m] events *)
Definition upto (ev : nat -> nevent) (m : nat) : list nevent := List.map ev (seq 0 m).
(** terminal [i] is not neglected: whatever can be done to bring it online is tried again and again *)
Definition fair_for (i : nat) (ev : nat -> nevent) : Prop :=
  forall a, coming_online i a -> forall m, exists m', (m <= m')%nat /\ ev m' = a.
