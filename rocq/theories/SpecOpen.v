(** Specification vocabulary for connections that stay open *)
From stdpp Require Import gmap.
From Verif Require Import Base ProgM StateM ProcM ServerM ConcM SpecState.
Local Open Scope N_scope.

(** the connection [c] is open *)
Definition still_open (c : nat) (s : st) : Prop := exists k, st_conns s !! c = Some k /\ cn_open k = true.
(** the devices registered over the connection [c] have one of the phones [phs] *)
Definition on_conn (c : nat) (phs : list str) (s : st) : Prop :=
  forall l d, st_devs s !! l = Some d -> d_conn d = c -> In (d_phone d) phs.
(** a Send that does not report the connection closed *)
Definition sound (w : wres) : Prop := forall n er, w = Some (n, er) -> er <> ErrClosedPipe /\ er <> ErrNetClosed.
(** the goroutine serves another connection, checks another device, or sends without finding the
    connection closed *)
Definition elsewhere (c : nat) (phs : list str) (s : st) (g : goroutine) : Prop :=
  match g with
  | GConn c' _ _ => c' <> c
  | GServe sl _ | GMsg sl _ => exists x, st_sess s !! sl = Some x /\ ss_conn x <> c
  | GTick q => ~ In q phs
  | GGetParams _ w | GPutParams _ _ _ w => sound w
  | _ => True
  end.
