(** The goroutines of the simulator: test/client/main.go:122-159 starts five for each terminal.  All terminals
    share the caches of one process. *)
From stdpp Require Import gmap.
From Flocq Require Import Core IEEE754.BinarySingleNaN IEEE754.Binary IEEE754.Bits.
From Verif Require Import Base HexM TimeM HeaderM ParamsM GeoM MsgM PacketM FrameM FloatM ProgM RingM StateM ProcM ServerM ClientM DatagenM.
Local Open Scope N_scope.

Inductive simroutine : Type :=
| TReceive (sl : nat) (ins : list (res bytes * wres))     (* :122-125 Start *)
| TBegin (c : simconf) (sl : nat) (w : wres)              (* :127-136 *)
| TStatus (phone : str) (n : nat)                         (* :138-149, [n] rounds of the loop at most *)
| TKeep (phone : str) (sl : nat) (ws : list wres)         (* :152-155 *)
| TReport (other : binary64 -> N) (phone : str) (g : simgeo) (sl : nat) (rs : list (draw * wres)) (* :156-159 *)
| TClock (t : Z).                                         (* time passes: not a goroutine *)

(** :138-149: the loop ends when the status is Online *)
Fixpoint statusLoop (phone : str) (n : nat) : sp unit :=
  match n with
  | O => ret tt
  | S n => (b <- statusCheck phone ;; if (b : bool) then ret tt else statusLoop phone n)%prog
  end.
(** :127-136.  buildDeviceGeo (:132) is left out: what it writes is an argument of TReport.  The three goroutines
    started then are goroutines of their own; that keepalive and reportLocation wait for the status checker
    (wg.Wait) is left out, so they may run at any time. *)
Definition begin (e : env) (c : simconf) (sl : nat) (w : wres) : sp unit :=
  (l <- buildDevice c sl ;; d <- readConst l ;; register e c (d_phone d) sl w)%prog.
Definition tcode (e : env) (g : simroutine) : sp unit :=
  (match g with
   | TReceive sl ins => clientLoop e sl ins ;;; ret tt
   | TBegin c sl w => begin e c sl w
   | TStatus ph n => statusLoop ph n
   | TKeep ph sl ws => keepalive e ph sl ws
   | TReport other ph g sl rs => reportLocation e other ph g sl rs
   | TClock t => wr1 [] (set_clock t)
   end)%prog.
Definition simulating (e : env) (gs : list simroutine) (s : st) (sch : list nat) : list (sp unit) * st :=
  psteps (List.map (tcode e) gs) s sch.
