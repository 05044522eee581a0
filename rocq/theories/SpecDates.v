(** Specification of C148: the time of a device's last message *)
From stdpp Require Import gmap.
From Verif Require Import Base HeaderM MsgM PacketM StateM ProcM ServerM ConcM SpecOwn.

(** no device has been heard of later than now *)
Definition no_later (s : st) : Prop :=
  forall l d, st_devs s !! l = Some d -> (d_last d <= st_clock s)%Z.
(** the clock is never put back, from the time [t] on *)
Fixpoint forward (t : Z) (evs : list event) : Prop :=
  match evs with
  | [] => True
  | EClock t' :: r => (t <= t')%Z /\ forward t' r
  | _ :: r => forward t r
  end.
(** it is not put back at any step of the schedule *)
Definition never_back (e : env) (gs : list goroutine) (s : st) (sch : list nat) : Prop :=
  forall k, (st_clock (snd (running e gs s (firstn k sch))) <= st_clock (snd (running e gs s (firstn (S k) sch))))%Z.
(** the goroutine handles messages of the phone [q] *)
Definition serves_phone (e : env) (g : goroutine) (q : str) : Prop :=
  match g with
  | GConn _ _ ins | GServe _ ins => carries_phone e ins q
  | GMsg _ p => h_phone (pk_hdr p) = q
  | _ => False
  end.
