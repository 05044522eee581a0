(** The server and the client of NetM.v connected by TCP connections that carry bytes: what is written
    on one side arrives on the other in any pieces, at any later time, and
    internal/protocol/frame_handler.go:46-86 Recv puts the frames together again. *)
From Coq Require Import ZArith.
From stdpp Require Import gmap.
From Flocq Require Import IEEE754.Bits.
From Verif Require Import Base HexM TimeM HeaderM ParamsM GeoM MsgM PacketM FrameM FloatM ProgM RingM StateM ProcM ServerM ClientM DatagenM NetM.
Local Open Scope N_scope.

(** One direction of a connection: what has arrived and has not been returned by Recv yet, and how
    many bytes have arrived so far.  The bytes of an unfinished frame, which a waiting Recv holds
    in its local buffer (frame_handler.go:47-69), are counted among the former. *)
Record wire : Type := mkWire { wr_in : stream; wr_sent : nat }.
(** the programs, and the two directions of each terminal's connection *)
Record wnet : Type := mkWnet { wn_net : net; wn_up : list wire; wn_down : list wire }.
Inductive wevent : Type :=
| WDo (ev : nevent)              (* a step of the programs; NServe and NClient: Recv is tried *)
| WUp (i k : nat)                (* at most k more bytes of terminal i arrive at the server *)
| WDown (i k : nat).             (* and at the terminal *)

(** a Read returns the next bytes, at most [k] of those that have been written and not arrived *)
Definition arrive (k : nat) (bs : bytes) (w : wire) : wire :=
  match firstn k (skipn (wr_sent w) bs) with
  | [] => w
  | c => mkWire (mkStream (st_cur (wr_in w)) (st_next (wr_in w) ++ [c]) (st_end (wr_in w))) (wr_sent w + length c)
  end.

Section Wire.
Context (e ec : env) (other : binary64 -> N).
(** tcp_server.go:86-109 and tcp_client.go:37-62, one round with the frame [f], as in NetM.v *)
Definition serveFrame (n : net) (i : nat) (t : term) (f : bytes) : net :=
  match run (serveLoop e (tm_srv t) [(Ok f, None)]) (nt_srv n) with
  | (Ok false, s') => mkNet s' (nt_cli n) (set_term n i (read_up t true))
  | (_, s') => mkNet s' (nt_cli n) (set_term n i (read_up t false))
  end.
Definition clientFrame (n : net) (i : nat) (t : term) (f : bytes) : net :=
  match run (clientLoop ec (tm_cli t) [(Ok f, None)]) (nt_cli n) with
  | (Ok false, s') => mkNet (nt_srv n) s' (set_term n i (read_down t true))
  | (_, s') => mkNet (nt_srv n) s' (set_term n i (read_down t false))
  end.
(** Recv (FrameM.v) on what has arrived: it returns a frame, or it waits *)
Definition wstep (x : wnet) (ev : wevent) : wnet :=
  let n := wn_net x in
  match ev with
  | WUp i k =>
      match nt_terms n !! i, wn_up x !! i with
      | Some t, Some w => mkWnet n (<[i := arrive k (concat (written (nt_cli n) (tm_cli t))) w]> (wn_up x)) (wn_down x)
      | _, _ => x
      end
  | WDown i k =>
      match nt_terms n !! i, wn_down x !! i with
      | Some t, Some w => mkWnet n (wn_up x) (<[i := arrive k (concat (written (nt_srv n) (tm_srv t))) w]> (wn_down x))
      | _, _ => x
      end
  | WDo (NServe i) =>
      match nt_terms n !! i, wn_up x !! i with
      | Some t, Some w =>
          if tm_served t then
            match recv (wr_in w) with
            | (Ok f, r) => mkWnet (serveFrame n i t f) (<[i := mkWire r (wr_sent w)]> (wn_up x)) (wn_down x)
            | _ => x
            end
          else x
      | _, _ => x
      end
  | WDo (NClient i) =>
      match nt_terms n !! i, wn_down x !! i with
      | Some t, Some w =>
          if tm_runs t then
            match recv (wr_in w) with
            | (Ok f, r) => mkWnet (clientFrame n i t f) (wn_up x) (<[i := mkWire r (wr_sent w)]> (wn_down x))
            | _ => x
            end
          else x
      | _, _ => x
      end
  | WDo ev => mkWnet (nstep e ec other n ev) (wn_up x) (wn_down x)
  end.
Definition wruns (x : wnet) (evs : list wevent) : wnet := fold_left wstep evs x.
End Wire.
