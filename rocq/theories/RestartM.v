(** The simulator ends and is started again (test/client/main.go:163-181), against the same server.
    The server finds the connections of the old process ended (tcp_server.go:86-109, io.EOF) and
    accepts those of the new one (:60-72); the new process starts with empty caches and dials
    (tcp_client.go:24-37).  What the old process had sent may still be read before its connection
    ends: these are [NServe] events before the restart.  A connection whose end the server has not
    noticed is one that is not in [ends].  Between the two processes time passes and the server's
    keepalive checks run (keepalive.go:65-86).  All ended connections are closed before the first new one
    is accepted here. *)
From Coq Require Import ZArith.
From stdpp Require Import gmap.
From Verif Require Import Base HexM TimeM HeaderM ParamsM GeoM MsgM PacketM FrameM FloatM ProgM RingM StateM ProcM ServerM ClientM DatagenM NetM.
Local Open Scope N_scope.

(** tcp_client.go:24-37 Dial, when net.Dial succeeds: a session that is stored nowhere *)
Definition dial (c : nat) (addr : str) : sp nat :=
  Act [] (fun s => set_sess (<[fresh (dom (st_sess s)) := mkSession addr c 0]>) s)
         (fun s => ret (fresh (dom (st_sess s)))).
(** a new terminal: configuration, connection and address as the server sees them, as the client does *)
Record newterm : Type := mkNew { nw_conf : simconf; nw_geo : simgeo; nw_conn : nat; nw_addr : str; nw_cconn : nat; nw_caddr : str }.

(** serve reads io.EOF *)
Definition hangUp (e : env) (s : st) (sl : nat) : st := snd (run (serveLoop e sl [(Err ErrEOF, None)]) s).
(** the new connections, one after the other *)
Fixpoint joined (s sc : st) (news : list newterm) : net :=
  match news with
  | [] => mkNet s sc []
  | w :: ws =>
      match run (accept (nw_conn w) (nw_addr w)) (set_conns (<[nw_conn w := mkConn true []]>) s),
            run (dial (nw_cconn w) (nw_caddr w)) (set_conns (<[nw_cconn w := mkConn true []]>) sc) with
      | (Ok sl, s'), (Ok slc, sc') =>
          let n := joined s' sc' ws in
          mkNet (nt_srv n) (nt_cli n) (mkTerm (nw_conf w) (nw_geo w) sl slc PIdle 0 0 true true :: nt_terms n)
      | (_, s'), (_, sc') => mkNet s' sc' []
      end
  end.
(** a keepalive check of a phone, at this time, if the phone has a job *)
Definition tickAt (s : st) (w : Z * str) : st :=
  let s := set_clock (fst w) s in
  if bool_decide (snd w ∈ st_jobs s) then snd (run (checkKeepalive (snd w)) s) else s.
Definition restart (e : env) (ends : list nat) (waits : list (Z * str)) (now : Z) (news : list newterm) (n : net) : net :=
  joined (fold_left tickAt waits (fold_left (hangUp e) ends (nt_srv n))) (init now) news.
