(** The server's connections fed from the bytes that arrive: internal/server/tcp_server.go over
    internal/protocol/frame_handler.go *)
From stdpp Require Import gmap.
From Verif Require Import Base HexM TimeM HeaderM ParamsM MsgM PacketM FrameM ProgM RingM StateM ProcM ServerM ConcM.
Local Open Scope N_scope.

(** tcp_server.go:86-109 serve, as serveLoop (ServerM.v), but the results of Recv come from the
    stream [x] (frame_handler.go:46-86, called from pipeline.go:60-66).  [ws] are the results of
    the Send calls, one for each round; when they are used up the run is cut off. *)
Fixpoint serveStream (e : env) (sl : nat) (x : stream) (ws : list wres) : sp bool :=
  match ws with
  | [] => ret false
  | w :: t =>
      let (r, x') := recv x in
      pbindR (serveOne e sl r w)
             (fun q => match q with
                       | Ok true => serveStream e sl x' t
                       | _ => remove sl ;;; ret true
                       end)%prog
  end.
(** tcp_server.go:49-50, 60-72: the goroutine of a connection *)
Definition connStream (e : env) (c : nat) (addr : str) (x : stream) (ws : list wres) : sp bool :=
  (sl <- accept c addr ;; serveStream e sl x ws)%prog.
(** the connections [cs] (number, remote address, bytes that arrive, results of Send) served
    together with other goroutines, after the steps [sch] (ConcM.v) *)
Definition feed : Type := nat * str * stream * list wres.
Definition feedCode (e : env) (x : feed) : sp unit :=
  let '(c, addr, s, ws) := x in (opened c ;;; connStream e c addr s ws ;;; ret tt)%prog.
Definition serving (e : env) (cs : list feed) (gs : list goroutine) (s : st) (sch : list nat) : list (sp unit) * st :=
  psteps (List.map (feedCode e) cs ++ List.map (code e) gs) s sch.
