(** Specification vocabulary for stopping (C127, C128) *)
From stdpp Require Import gmap.
From Verif Require Import Base ProgM StateM ProcM ServerM StopM.

(** what happens to the connections that are there already *)
Fixpoint without_accepts (vs : list sevent) : list event :=
  match vs with
  | [] => []
  | VOther (EAccept _ _) :: t | VAccept _ :: t | VStop :: t => without_accepts t
  | VOther ev :: t => ev :: without_accepts t
  end.
(** how often Accept is called *)
Fixpoint rounds (vs : list sevent) : nat :=
  match vs with
  | [] => O
  | VAccept _ :: t => S (rounds t)
  | _ :: t => rounds t
  end.
