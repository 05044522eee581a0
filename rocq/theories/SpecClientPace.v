(** Specification for C153 *)
From stdpp Require Import gmap.
From Verif Require Import Base MsgM PacketM FrameM ProgM StateM ProcM ServerM ClientPaceM SpecPace.
Local Open Scope Z_scope.

Definition as_handling (x : Z * Z * Z) : handling := mkHandling (fst (fst x)) (snd (fst x)) (snd x).
(** what a terminal handles of what arrives *)
Definition taken (e : env) (sl : nat) (wake : Z) (ins : list arrival) (s : st) : list handling :=
  List.map as_handling (fst (fst (clientPaced e sl wake ins s))).
(** the result of Recv is handled in the state [s] with an error after which the terminal goes on *)
Definition slips (e : env) (s : st) (sl : nat) (r : res bytes) (x : wres) : Prop :=
  exists y er, st_sess s !! sl = Some y /\ fst (run (processConnRead e sl (ss_conn y) r x) s) = Err er
    /\ ~ In er [ErrEOF; ErrClosedPipe; ErrNetClosed; ErrActiveClose].
(** what is handled, how it ends and the state at the end, after one more at the front *)
Definition before (x : Z * Z * Z) (r : list (Z * Z * Z) * ending * st) : list (Z * Z * Z) * ending * st :=
  (x :: fst (fst r), snd (fst r), snd r).
