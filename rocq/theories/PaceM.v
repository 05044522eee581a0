(** Model of internal/server/tcp_server.go:86-109 with its pause: the server in real time *)
From stdpp Require Import gmap.
From Verif Require Import Base HexM TimeM HeaderM ParamsM MsgM PacketM FrameM ProgM RingM StateM ProcM ServerM.
Local Open Scope Z_scope.

(** One iteration of the loop of serve, :90-108: the milliseconds slept in line 106, None
    when the function returns *)
Definition pacedOne (e : env) (sl : nat) (r : res bytes) (w : wres) : sp (option Z) :=
  (x <- readSess sl ;;
   pbindR (processConnRead e sl (ss_conn x) r w)
          (fun q => match q with
                    | Ok _ => ret (Some 0)
                    | Err er => ret (if serveStops er then None else Some 1000)
                    | Panic => panic
                    end))%prog.
(** the time slept after handling an input *)
Definition nap (e : env) (s : st) (sl : nat) (r : res bytes) (w : wres) : Z :=
  match fst (run (pacedOne e sl r w) s) with Ok (Some n) => n | _ => 0 end.

(** The server, for each goroutine the results of Recv and Send that have arrived and are not
    yet read, with the time of their arrival, and the time until which it sleeps. *)
Record pworld : Type := mkPWorld
  { p_w : world; p_in : nat -> list (Z * (res bytes * wres)); p_wake : nat -> Z }.
Definition p_clock (p : pworld) : Z := st_clock (w_st (p_w p)).
Definition pworld0 (now : Z) : pworld := mkPWorld (world0 now) (fun _ => []) (fun _ => now).
Inductive pevent : Type :=
| PArrive (sl : nat) (r : res bytes) (w : wres) (* the next result of Recv is there, and what the write of its reply will give *)
| PServe (sl : nat)                             (* the goroutine goes on if it can *)
| PPass (d : N)                                 (* time passes *)
| POther (ev : event).                          (* any other event of ServerM.v *)
Definition at_key {A} (k : nat) (v : A) (f : nat -> A) : nat -> A := fun i => if Nat.eqb i k then v else f i.
(** what the goroutine can handle now: it runs, it is not asleep and something is there *)
Definition next_in (p : pworld) (sl : nat) : option (Z * (res bytes * wres)) :=
  match p_in p sl with
  | i :: _ => if bool_decide (sl ∈ w_live (p_w p)) && (p_wake p sl <=? p_clock p) then Some i else None
  | [] => None
  end.
(** Inputs count as arrived from Accept on; what is there when serve returns is never read.
    Handling an input takes no time. *)
Definition pace (e : env) (p : pworld) (pe : pevent) : pworld :=
  match pe with
  | PArrive sl r x =>
      if bool_decide (sl ∈ w_live (p_w p))
      then mkPWorld (p_w p) (at_key sl (p_in p sl ++ [(p_clock p, (r, x))]) (p_in p)) (p_wake p)
      else p
  | PServe sl =>
      match next_in p sl with
      | Some (_, (r, x)) =>
          let w' := step e (p_w p) (EFrame sl r x) in
          mkPWorld w' (at_key sl (if bool_decide (sl ∈ w_live w') then tail (p_in p sl) else []) (p_in p))
                   (at_key sl (p_clock p + nap e (w_st (p_w p)) sl r x) (p_wake p))
      | None => p
      end
  | PPass d => mkPWorld (step e (p_w p) (EClock (p_clock p + Z.of_N d))) (p_in p) (p_wake p)
  | POther (EFrame _ _ _) | POther (EClock _) => p
  | POther ev => mkPWorld (step e (p_w p) ev) (p_in p) (p_wake p)
  end.
Definition paces (e : env) (p : pworld) (pes : list pevent) : pworld := fold_left (pace e) pes p.
(** the run from the start of the server *)
Definition timed (e : env) (now : Z) (pes : list pevent) : pworld := paces e (pworld0 now) pes.
