(** Model of internal/client/tcp_client.go.  The client runs in its own process with its own
    copy of the shared state; its session is the session [sl] there. *)
From stdpp Require Import gmap.
From Verif Require Import Base HexM TimeM HeaderM ParamsM MsgM PacketM FrameM ProgM RingM StateM ProcM ServerM.
Local Open Scope N_scope.

(** :37-62 Start for the given results of Recv and Send; true: Start has returned, false: it
    waits in Recv.  The sleep of line 58 is left out; a panic leaves Start and is recovered by
    GoSafe (test/client/main.go:122-125). *)
Fixpoint clientLoop (e : env) (sl : nat) (ins : list (res bytes * wres)) : sp bool :=
  match ins with
  | [] => ret false
  | (r, w) :: t =>
      (x <- readSess sl ;;
       pbindR (processConnRead e sl (ss_conn x) r w)
              (fun q => match q with
                        | Ok _ => clientLoop e sl t
                        | Err er => if clientStops er then ret true else clientLoop e sl t
                        | Panic => panic
                        end))%prog
  end.

(** :64-66 Stop, :68-85 Send *)
Definition clientStop (sl : nat) : sp unit :=
  (x <- readSess sl ;; connClose (ss_conn x))%prog.
Definition clientSend (e : env) (sl : nat) (m : msg) (w : wres) : sp unit :=
  (x <- readSess sl ;;
   pbindR (processConnWrite e (ss_conn x) (Some m) w)
          (fun q => match q with
                    | Ok _ => ret tt
                    | Err ErrClosedPipe | Err ErrNetClosed => clientStop sl
                    | Err _ => ret tt
                    | Panic => panic
                    end))%prog.
