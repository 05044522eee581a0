(** What the properties of a fleet of simulated terminals in real time say (C132, C133) *)
From Coq Require Import ZArith.
From stdpp Require Import gmap.
From Flocq Require Import IEEE754.Bits.
From Verif Require Import Base HexM TimeM HeaderM ParamsM GeoM MsgM PacketM FrameM FloatM ProgM RingM StateM ProcM ServerM ClientM DatagenM NetM
  SpecCodec SpecState SpecSim SpecNet.
Local Open Scope Z_scope.

(** time, in milliseconds, is the server's *)
Definition time (n : net) : Z := st_clock (nt_srv n).

Section Runs.
Context (e ec : env) (other : binary64 -> N) (n : net) (evs : list nevent).
Let after (a : list nevent) : net := nruns e ec other n a.
(** the clock does not go back *)
Definition forward : Prop := forall a t c, evs = a ++ NClock t :: c -> time (after a) <= t.
(** more than [D] after a moment, whatever was on its way at that moment has been read *)
Definition read_within (D : Z) : Prop := forall a b c i t t', evs = a ++ b ++ c ->
  nt_terms (after a) !! i = Some t -> nt_terms (after (a ++ b)) !! i = Some t' ->
  time (after a) + D < time (after (a ++ b)) ->
  (length (written (nt_cli (after a)) (tm_cli t)) <= tm_up t')%nat
  /\ (length (written (nt_srv (after a)) (tm_srv t)) <= tm_down t')%nat.
(** the status checker (main.go:138-149) looks at least every [S] *)
Definition looks_within (S : Z) : Prop := forall a b c i t, evs = a ++ b ++ c ->
  nt_terms (after a) !! i = Some t -> tm_at t = PSent ->
  time (after a) + S < time (after (a ++ b)) -> In (NCheck i) b.
(** keepalive (main.go:68-74) sends at least every [P] *)
Definition beats_within (P : Z) : Prop := forall a b c i t, evs = a ++ b ++ c ->
  nt_terms (after a) !! i = Some t -> tm_at t = POnline ->
  time (after a) + P < time (after (a ++ b)) -> In (NBeat i) b.
Definition on_time (D S P : Z) : Prop :=
  0 <= D /\ 0 <= S /\ 0 <= P /\ forward /\ read_within D /\ looks_within S /\ beats_within P.
(** reports are made between 1969 and 2068, the years the six BCD bytes of a time stand for *)
Definition dated : Prop := forall a i r c, evs = a ++ NReport i r :: c ->
  civil_valid (e_civil ec (st_clock (nt_cli (after a)))) /\ year_window (e_civil ec (st_clock (nt_cli (after a)))).
End Runs.
