(** Parameter requests to one device (C136) *)
From stdpp Require Import gmap.
From Verif Require Import Base HeaderM ParamsM MsgM PacketM ProgM StateM ProcM ServerM ConcM SpecState.
Local Open Scope N_scope.

(** GET or PUT /device/:phone/params; [bad]: the body of the PUT request could not be bound *)
Inductive request : Type := RGet | RPut (bad : bool) (ps : devparams).
(** the goroutine of the HTTP server that handles it; writing to the connection succeeds *)
Definition handling (ph : str) (r : request) : goroutine :=
  match r with RGet => GGetParams ph None | RPut bad ps => GPutParams ph bad ps None end.
(** the message for the device with this serial number *)
Definition order_for (d : device) (r : request) (sn : N) : msg :=
  match r with
  | RGet => platform_msg d 0x8104 sn B8104
  | RPut _ ps => platform_msg d 0x8103 sn (B8103 0 (Some ps))
  end.
Definition sendable (e : env) (r : request) : Prop :=
  match r with RGet => True | RPut _ ps => exists b, paramsEncode (e_o e) ps = Ok b end.

(** [s] with another last serial number of the session [x] at [sl], and [out] written to its connection *)
Definition ordered (s : st) (sl : nat) (x : session) (sn : N) (out : list bytes) : st :=
  set_sess (<[sl := mkSession (ss_id x) (ss_conn x) sn]>) (set_conns (<[ss_conn x := mkConn true out]>) s).

(** [outs] are the frames of the orders [ord]: request number and serial number *)
Definition frames_of (e : env) (d : device) (reqs : list request) (ord : list (nat * N)) (outs : list bytes) : Prop :=
  Forall2 (fun o f => exists r, nth_error reqs (fst o) = Some r /\ encodePacket (e_o e) (order_for d r (snd o)) = Ok f) ord outs.

(** the requests one after another *)
Fixpoint in_turn (e : env) (ph : str) (reqs : list request) (s : st) : st :=
  match reqs with [] => s | r :: t => in_turn e ph t (snd (run (code e (handling ph r)) s)) end.
