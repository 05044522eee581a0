(** The server's Stop and the accept loop around it (internal/server/tcp_server.go) *)
From stdpp Require Import gmap.
From Verif Require Import Base HexM HeaderM ParamsM MsgM PacketM FrameM ProgM StateM ProcM ServerM.

(** [sv_open]: the listener has not been closed; [sv_w]: everything else; [sv_lines]: how often line 45 has logged an
    error.  Start has no way out of its loop. *)
Record serving : Type := mkServing { sv_open : bool; sv_w : world; sv_lines : nat }.
(** what happens: Accept returns (None: an error) while the listener is open; Stop is called; anything else *)
Inductive sevent : Type := VAccept (r : option (nat * str)) | VStop | VOther (ev : event).
(** :41-52 one round of Start's loop.  Accept of a closed listener returns an error at once; a connection is
    accepted and served (EAccept). *)
Definition startRound (e : env) (r : option (nat * str)) (x : serving) : serving :=
  match (if sv_open x then r else None) with
  | Some (c, addr) => mkServing (sv_open x) (step e (sv_w x) (EAccept c addr)) (sv_lines x)
  | None => mkServing (sv_open x) (sv_w x) (S (sv_lines x))
  end.
(** :54-56 *)
Definition serverStop (x : serving) : serving := mkServing false (sv_w x) (sv_lines x).
Definition serving1 (e : env) (x : serving) (v : sevent) : serving :=
  match v with
  | VAccept r => startRound e r x
  | VStop => serverStop x
  | VOther (EAccept _ _) => x
  | VOther ev => mkServing (sv_open x) (step e (sv_w x) ev) (sv_lines x)
  end.
Definition servings (e : env) (vs : list sevent) (x : serving) : serving := fold_left (serving1 e) vs x.
