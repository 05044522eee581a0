(** Model of internal/client/tcp_client.go:37-62 with its pause: the receiving goroutine of a terminal in real time *)
From stdpp Require Import gmap.
From Verif Require Import Base MsgM PacketM FrameM ProgM StateM ProcM ServerM.
Local Open Scope Z_scope.

(** One iteration of the loop of Start, :40-60: the milliseconds slept in line 58, None when
    the function returns *)
Definition clientOne (e : env) (sl : nat) (r : res bytes) (w : wres) : sp (option Z) :=
  (x <- readSess sl ;;
   pbindR (processConnRead e sl (ss_conn x) r w)
          (fun q => match q with
                    | Ok _ => ret (Some 0)
                    | Err er => ret (if clientStops er then None else Some 1000)
                    | Panic => panic
                    end))%prog.
(** When the result of a Recv is there, the result, what the write of the reply will give, and
    what the other goroutines of the process have done to its state when it is handled. *)
Record arrival : Type := mkArrival { ar_at : Z; ar_in : res bytes; ar_write : wres; ar_others : st -> st }.
(** Start waits for the next Recv, has returned, or has panicked *)
Inductive ending : Type := Waits | Returned | Panicked.
(** The loop, which goes on at the time [wake]: for each result handled when it arrived, when it
    was handled and the pause after it.  Handling takes no time. *)
Fixpoint clientPaced (e : env) (sl : nat) (wake : Z) (ins : list arrival) (s : st) : list (Z * Z * Z) * ending * st :=
  match ins with
  | [] => ([], Waits, s)
  | i :: t =>
      let now := Z.max (ar_at i) wake in
      match run (clientOne e sl (ar_in i) (ar_write i)) (set_clock now (ar_others i s)) with
      | (Ok (Some n), s') =>
          let '(l, k, s'') := clientPaced e sl (now + n) t s' in ((ar_at i, now, n) :: l, k, s'')
      | (Ok None, s') => ([(ar_at i, now, 0)], Returned, s')
      | (_, s') => ([(ar_at i, now, 0)], Panicked, s')
      end
  end.
