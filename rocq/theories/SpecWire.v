(** What the properties of a fleet over byte streams say (C134) *)
From Coq Require Import ZArith.
From stdpp Require Import gmap.
From Flocq Require Import IEEE754.Bits.
From Verif Require Import Base HexM TimeM HeaderM ParamsM GeoM MsgM PacketM FrameM FloatM ProgM RingM StateM ProcM ServerM ClientM DatagenM NetM WireM
  SpecCodec SpecState SpecSim SpecNet.
Local Open Scope N_scope.

(** nothing has been written on the terminals' connections, and nothing has arrived *)
Definition blank (w : wire) : Prop := st_bytes (wr_in w) = [] /\ ~ In [] (st_next (wr_in w)) /\ wr_sent w = 0%nat.
Definition connected (x : wnet) : Prop :=
  length (wn_up x) = length (nt_terms (wn_net x)) /\ length (wn_down x) = length (nt_terms (wn_net x))
  /\ Forall blank (wn_up x) /\ Forall blank (wn_down x)
  /\ forall i t, nt_terms (wn_net x) !! i = Some t -> tm_up t = 0%nat /\ tm_down t = 0%nat
     /\ written (nt_srv (wn_net x)) (tm_srv t) = [] /\ written (nt_cli (wn_net x)) (tm_cli t) = [].

(** of the frames [fs], written one after the other, the [k]-th is there once [a] bytes have arrived *)
Definition whole_there (fs : list bytes) (k a : nat) : bool := (k <? length fs)%nat && (length (concat (firstn (S k) fs)) <=? a)%nat.
(** the frame that comes next for the server, or for terminal [i], has arrived *)
Definition up_there (x : wnet) (i : nat) : bool :=
  match nt_terms (wn_net x) !! i, wn_up x !! i with
  | Some t, Some w => whole_there (written (nt_cli (wn_net x)) (tm_cli t)) (tm_up t) (wr_sent w)
  | _, _ => false
  end.
Definition down_there (x : wnet) (i : nat) : bool :=
  match nt_terms (wn_net x) !! i, wn_down x !! i with
  | Some t, Some w => whole_there (written (nt_srv (wn_net x)) (tm_srv t)) (tm_down t) (wr_sent w)
  | _, _ => false
  end.
(** what an event is for a network that carries whole frames *)
Definition as_frames (x : wnet) (ev : wevent) : list nevent :=
  match ev with
  | WUp _ _ | WDown _ _ => []
  | WDo (NServe i) => if up_there x i then [NServe i] else []
  | WDo (NClient i) => if down_there x i then [NClient i] else []
  | WDo ev => [ev]
  end.

Section Runs.
Context (e ec : env) (other : binary64 -> N).
Let step := wstep e ec other.
Fixpoint all_as_frames (x : wnet) (evs : list wevent) : list nevent :=
  match evs with [] => [] | ev :: t => as_frames x ev ++ all_as_frames (step x ev) t end.
(** as [punctual], and the locations generated, as [all_generated] *)
Fixpoint wpunctual (x : wnet) (evs : list wevent) : Prop :=
  match evs with
  | [] => True
  | ev :: t => match ev with WDo a => punctual ec (wn_net x) a | _ => True end /\ wpunctual (step x ev) t
  end.
Fixpoint wgenerated (x : wnet) (i : nat) (evs : list wevent) : list devgeo :=
  match evs with
  | [] => []
  | ev :: t => match ev with WDo a => generated ec other (wn_net x) i a | _ => [] end ++ wgenerated (step x ev) i t
  end.
End Runs.
(** a run that never ends: its first [m] events *)
Definition wupto (ev : nat -> wevent) (m : nat) : list wevent := List.map ev (seq 0 m).
(** terminal [i] is not neglected, and what is written on its connection goes on arriving *)
Definition wfair_for (i : nat) (ev : nat -> wevent) : Prop :=
  (forall a, coming_online i a -> forall m, exists m', (m <= m')%nat /\ ev m' = WDo a)
  /\ (forall m, exists m' k, (m <= m')%nat /\ ev m' = WUp i (S k))
  /\ (forall m, exists m' k, (m <= m')%nat /\ ev m' = WDown i (S k)).
