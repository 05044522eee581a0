(** The goroutines of the server: main.go:40-52 starts the TCP server (one goroutine per
    connection, tcp_server.go:49-50), the HTTP server (one goroutine per request) and gron
    (one goroutine per fired job) *)
From stdpp Require Import gmap.
From Verif Require Import Base HexM TimeM HeaderM ParamsM MsgM PacketM FrameM ProgM RingM StateM ProcM ServerM.
Local Open Scope N_scope.

Inductive goroutine : Type :=
| GConn (c : nat) (addr : str) (ins : list (res bytes * wres)) (* a connection, from Accept on *)
| GServe (sl : nat) (ins : list (res bytes * wres))            (* a connection that is being served *)
| GMsg (sl : nat) (p : packet)                                 (* the handling of one message *)
| GTick (phone : str)                                          (* a fired keepalive job *)
| GList | GGeo (phone : str)                                   (* HTTP requests *)
| GGetParams (phone : str) (w : wres)
| GPutParams (phone : str) (bad : bool) (ps : devparams) (w : wres)
| GClock (t : Z)                                               (* time passes: not a goroutine *)
| GCount.                                                      (* session_cache.go:37-44, one round *)

(** tcp_server.go:43-47: Accept hands over a new open connection *)
Definition opened (c : nat) : sp unit := wr1 [] (set_conns (<[c := mkConn true []]>)).
Definition code (e : env) (g : goroutine) : sp unit :=
  (match g with
   | GConn c addr ins => opened c ;;; connThread e c addr ins ;;; ret tt
   | GServe sl ins => serveLoop e sl ins ;;; ret tt
   | GMsg sl p => process e sl p ;;; ret tt
   | GTick ph => checkKeepalive ph
   | GList => apiList ;;; ret tt
   | GGeo ph => apiGeo ph ;;; ret tt
   | GGetParams ph w => apiGetParams e ph w ;;; ret tt
   | GPutParams ph bad ps w => apiPutParams e ph bad ps w ;;; ret tt
   | GClock t => wr1 [] (set_clock t)
   | GCount => countSession ;;; ret tt
   end)%prog.
(** [gs] running together from the state [s], after the steps [sch] *)
Definition running (e : env) (gs : list goroutine) (s : st) (sch : list nat) : list (sp unit) * st :=
  psteps (List.map (code e) gs) s sch.
