(** Specification vocabulary for the simulator's process (C119) *)
From Coq Require Import List ZArith Bool Arith.
Import ListNotations.
From Verif Require Import SimM.

(** the results of Dial, in order *)
Fixpoint dials (evs : list simEv) : list bool :=
  match evs with
  | [] => []
  | SDial ok :: t => ok :: dials t
  | SStop _ :: t => dials t
  end.
(** how many of them succeeded *)
Definition ups (ds : list bool) : nat := length (filter (fun b => b) ds).
(** one of the first [n] terminals cannot connect seven times in a row *)
Definition hopeless (n : nat) (evs : list simEv) : Prop :=
  exists a b, dials evs = a ++ repeat false 7 ++ b /\ ups a < n.
(** terminal [i] has connected and has stopped after that *)
Definition came_and_went (i : nat) (evs : list simEv) : Prop :=
  exists a b, evs = a ++ SStop i :: b /\ i < ups (dials a).
