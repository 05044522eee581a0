(** Property theorems C153: the pauses of a terminal *)
From stdpp Require Import gmap.
From Verif Require Import Base HexM TimeM HeaderM ParamsM GeoM MsgM PacketM FrameM ProgM RingM StateM ProcM ServerM ClientM ClientPaceM
  PaceM SpecPace SpecClientPace PaceP ClientPaceP ExampleData ExampleState Properties_Server Properties_Pace.
Local Open Scope Z_scope.

(** The pause is all that the other model of Start leaves out. *)
Theorem C153_same : forall e sl r w t s, run (clientLoop e sl ((r, w) :: t)) s =
  match run (clientOne e sl r w) s with
  | (Ok (Some _), s') => run (clientLoop e sl t) s'
  | (Ok None, s') => (Ok true, s')
  | (Err er, s') => (Err er, s')
  | (Panic, s') => (Panic, s')
  end.
Proof. exact paced_loop. Qed.
Print Assumptions C153_same.
(** Each result of Recv is handled when it is there and the pause after the one before it is over;
    the pauses are of a second or none. *)
Theorem C153_order : forall e sl ins wake s, successive wake (taken e sl wake ins s)
  /\ Forall (fun x => hg_pause x = 0 \/ hg_pause x = 1000) (taken e sl wake ins s).
Proof. exact taken_successive. Qed.
Print Assumptions C153_order.
(** There is a pause exactly after an error after which the terminal goes on; without an error it goes
    on at once, if it goes on. *)
Theorem C153_pause : forall e sl wake i t s, let now := Z.max (ar_at i) wake in let s0 := set_clock now (ar_others i s) in
  exists y l, taken e sl wake (i :: t) s = y :: l /\ hg_arrived y = ar_at i /\ hg_at y = now
    /\ (slips e s0 sl (ar_in i) (ar_write i) -> hg_pause y = 1000 /\ exists s', l = taken e sl (now + 1000) t s')
    /\ (~ slips e s0 sl (ar_in i) (ar_write i) -> hg_pause y = 0 /\ (l = [] \/ exists s', l = taken e sl now t s')).
Proof. exact taken_next. Qed.
Print Assumptions C153_pause.
(** It goes on with the state that handling the message left: at once, after a second, or not at all. *)
Theorem C153_step : forall e sl wake i t s y q s', let now := Z.max (ar_at i) wake in let s0 := set_clock now (ar_others i s) in
  st_sess s0 !! sl = Some y -> run (processConnRead e sl (ss_conn y) (ar_in i) (ar_write i)) s0 = (q, s') ->
  (forall a, q = Ok a -> clientPaced e sl wake (i :: t) s = before (ar_at i, now, 0) (clientPaced e sl now t s'))
  /\ (forall er, q = Err er -> ~ In er [ErrEOF; ErrClosedPipe; ErrNetClosed; ErrActiveClose] ->
        clientPaced e sl wake (i :: t) s = before (ar_at i, now, 1000) (clientPaced e sl (now + 1000) t s'))
  /\ (forall er, q = Err er -> In er [ErrEOF; ErrClosedPipe; ErrNetClosed; ErrActiveClose] ->
        clientPaced e sl wake (i :: t) s = ([(ar_at i, now, 0)], Returned, s'))
  /\ (q = Panic -> clientPaced e sl wake (i :: t) s = ([(ar_at i, now, 0)], Panicked, s')).
Proof. exact paced_steps. Qed.
Print Assumptions C153_step.
(** Nothing is skipped: what is handled is what arrived first, and all of it while the terminal goes on. *)
Theorem C153_none_skipped : forall e sl ins wake s,
  List.map hg_arrived (taken e sl wake ins s) = List.map ar_at (firstn (length (taken e sl wake ins s)) ins)
  /\ (snd (fst (clientPaced e sl wake ins s)) = Waits -> length (taken e sl wake ins s) = length ins).
Proof. exact paced_prefix. Qed.
Print Assumptions C153_none_skipped.
(** In [m] seconds a terminal handles at most [m] messages that fail. *)
Theorem C153_rate : forall e sl ins wake s a m, wake <= a -> (failing a (a + 1000 * Z.of_nat m) (taken e sl wake ins s) <= m)%nat.
Proof. exact taken_rate. Qed.
Print Assumptions C153_rate.
(** Of what has arrived by [T], each is handled within a second for each one before it. *)
Theorem C153_backlog : forall e sl ins T wake s k x, wake <= T -> Forall (fun i => ar_at i <= T) ins ->
  nth_error (taken e sl wake ins s) k = Some x -> hg_at x <= T + 1000 * Z.of_nat k.
Proof. exact taken_backlog. Qed.
Print Assumptions C153_backlog.
(** two messages with an unknown id, a heartbeat while the device is known, and the end of the stream; the other
    goroutines do nothing *)
Definition ins153 : list arrival :=
  [mkArrival 5000 (Ok f_odd) None id; mkArrival 5100 (Ok f_odd) None id; mkArrival 5200 (Ok f_heart1) None id;
   mkArrival 5300 (Err ErrEOF) None id; mkArrival 5400 (Ok f_heart1) None id].
Example C153_ex : taken e0 0 4000 ins153 s2 = [mkHandling 5000 5000 1000; mkHandling 5100 6000 1000; mkHandling 5200 7000 0; mkHandling 5300 7000 0]
  /\ snd (fst (clientPaced e0 0 4000 ins153 s2)) = Returned
  /\ slips e0 (set_clock 5000 s2) 0 (Ok f_odd) None
  /\ failing 5000 7000 (taken e0 0 4000 ins153 s2) = 2%nat /\ Forall (fun i => ar_at i <= 5400) ins153.
Proof.
  split; [vm_compute; reflexivity|]. split; [vm_compute; reflexivity|]. split.
  { exists x1, ErrMsgIDNotSupportted. split; [vm_compute; reflexivity|]. split; [vm_compute; reflexivity|]. intros [|[|[|[|[]]]]]; discriminate. }
  split; [vm_compute; reflexivity|]. repeat constructor; cbn; lia.
Qed.
