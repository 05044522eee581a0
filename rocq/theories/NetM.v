(** A server process and a client process with any number of simulated terminals
    (test/client/main.go:106-161 dialAndSend, once per terminal, :163-181 main), connected by TCP
    connections that deliver every frame, in order, at any later time.  Each process handles one frame at
    a time here; which one comes next is arbitrary.  Writes succeed.  A heartbeat message is built anew each
    time: nothing it is built from changes.  log.Fatal in getDevice ends the goroutine only. *)
From Coq Require Import ZArith.
From stdpp Require Import gmap.
From Flocq Require Import IEEE754.Bits.
From Verif Require Import Base HexM TimeM HeaderM ParamsM GeoM MsgM PacketM FrameM FloatM ProgM RingM StateM ProcM ServerM ClientM DatagenM.
Local Open Scope N_scope.

(** Where the goroutine of main.go:127-160 is: before buildDevice, before register, in the loop of
    the status checker, after it (keepalive and reportLocation run), or ended by a panic *)
Inductive progress : Type := PIdle | PBuilt | PSent | POnline | PDead.
(** A terminal: configuration; its session in the server's and in the client's state; its goroutine;
    how many frames the server and the client have read from the connection; whether serve and Start
    still run *)
Record term : Type := mkTerm {
  tm_conf : simconf; tm_geo : simgeo; tm_srv : nat; tm_cli : nat; tm_at : progress;
  tm_up : nat; tm_down : nat; tm_served : bool; tm_runs : bool }.
Record net : Type := mkNet { nt_srv : st; nt_cli : st; nt_terms : list term }.
Inductive nevent : Type :=
| NBuild (i : nat)               (* main.go:129-132 *)
| NRegister (i : nat)            (* main.go:136 *)
| NServe (i : nat)               (* the server reads the next frame of terminal i *)
| NClient (i : nat)              (* the client reads the next frame for terminal i *)
| NCheck (i : nat)               (* main.go:138-149, one look *)
| NBeat (i : nat)                (* main.go:68-74, one heartbeat *)
| NReport (i : nat) (r : draw)   (* main.go:91-103, one report *)
| NTick (i : nat)                (* the server checks the terminal's keepalive *)
| NClock (t : Z) | NClockC (t : Z). (* the clocks of the two processes *)

(** what has been written to the connection of a session *)
Definition written (s : st) (sl : nat) : list bytes :=
  match st_sess s !! sl with
  | Some x => match st_conns s !! ss_conn x with Some k => cn_out k | None => [] end
  | None => []
  end.
Definition simPhone (c : simconf) : str := d_phone (genDevice c [] 0).

Section Net.
Context (e ec : env) (other : binary64 -> N).
Definition set_term (n : net) (i : nat) (t : term) : list term := <[i := t]> (nt_terms n).
Definition set_at (t : term) (a : progress) : term :=
  mkTerm (tm_conf t) (tm_geo t) (tm_srv t) (tm_cli t) a (tm_up t) (tm_down t) (tm_served t) (tm_runs t).
Definition read_up (t : term) (alive : bool) : term :=
  mkTerm (tm_conf t) (tm_geo t) (tm_srv t) (tm_cli t) (tm_at t) (S (tm_up t)) (tm_down t) alive (tm_runs t).
Definition read_down (t : term) (alive : bool) : term :=
  mkTerm (tm_conf t) (tm_geo t) (tm_srv t) (tm_cli t) (tm_at t) (tm_up t) (S (tm_down t)) (tm_served t) alive.
(** a step of the goroutine: it goes on when the call returns *)
Definition goes {A} (n : net) (i : nat) (t : term) (p : sp A) (a : A -> progress) : net :=
  match run p (nt_cli n) with
  | (Ok r, s') => mkNet (nt_srv n) s' (set_term n i (set_at t (a r)))
  | (_, s') => mkNet (nt_srv n) s' (set_term n i (set_at t PDead))
  end.
Definition act (n : net) (i : nat) (ev : nevent) (t : term) : net :=
  let ph := simPhone (tm_conf t) in
  match ev, tm_at t with
  | NBuild _, PIdle => goes n i t (buildDevice (tm_conf t) (tm_cli t)) (fun _ => PBuilt)
  | NRegister _, PBuilt => goes n i t (register ec (tm_conf t) ph (tm_cli t) None) (fun _ => PSent)
  | NCheck _, PSent => goes n i t (statusCheck ph) (fun b => if b then POnline else PSent)
  | NBeat _, POnline => goes n i t (keepalive ec ph (tm_cli t) [None]) (fun _ => POnline)
  | NReport _ r, POnline => goes n i t (reportLocation ec other ph (tm_geo t) (tm_cli t) [(r, None)]) (fun _ => POnline)
  | NServe _, _ =>
      if tm_served t then
        match nth_error (written (nt_cli n) (tm_cli t)) (tm_up t) with
        | Some f =>
            match run (serveLoop e (tm_srv t) [(Ok f, None)]) (nt_srv n) with
            | (Ok false, s') => mkNet s' (nt_cli n) (set_term n i (read_up t true))
            | (_, s') => mkNet s' (nt_cli n) (set_term n i (read_up t false))
            end
        | None => n
        end
      else n
  | NClient _, _ =>
      if tm_runs t then
        match nth_error (written (nt_srv n) (tm_srv t)) (tm_down t) with
        | Some f =>
            match run (clientLoop ec (tm_cli t) [(Ok f, None)]) (nt_cli n) with
            | (Ok false, s') => mkNet (nt_srv n) s' (set_term n i (read_down t true))
            | (_, s') => mkNet (nt_srv n) s' (set_term n i (read_down t false))
            end
        | None => n
        end
      else n
  | NTick _, _ =>
      if bool_decide (ph ∈ st_jobs (nt_srv n))
      then mkNet (snd (run (checkKeepalive ph) (nt_srv n))) (nt_cli n) (nt_terms n) else n
  | _, _ => n
  end.
Definition nstep (n : net) (ev : nevent) : net :=
  match ev with
  | NBuild i | NRegister i | NServe i | NClient i | NCheck i | NBeat i | NReport i _ | NTick i =>
      match nt_terms n !! i with Some t => act n i ev t | None => n end
  | NClock t => mkNet (set_clock t (nt_srv n)) (nt_cli n) (nt_terms n)
  | NClockC t => mkNet (nt_srv n) (set_clock t (nt_cli n)) (nt_terms n)
  end.
Definition nruns (n : net) (evs : list nevent) : net := fold_left nstep evs n.
End Net.
