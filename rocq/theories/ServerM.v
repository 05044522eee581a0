(** Model of internal/protocol/pipeline.go, internal/server/tcp_server.go,
    internal/client/tcp_client.go, internal/api/api.go and the log level of
    internal/config/config.go *)
From Coq Require Import String.
From stdpp Require Import gmap.
From Verif Require Import Base HexM TimeM HeaderM ParamsM MsgM PacketM FrameM ProgM RingM StateM ProcM.
Local Open Scope N_scope.

(** ** pipeline.go *)
(** :39-45 ProcessConnWrite on the connection [c]: encode (89-99), send (101-107) *)
Definition processConnWrite (e : env) (c : nat) (out : option msg) (w : wres) : sp unit :=
  (match out with
   | None => ret tt
   | Some m => b <- lift (encodePacket (e_o e) m) ;; connSend c b w
   end)%prog.
(** :28-37 ProcessConnRead for the session [sl] on the connection [c]: recv (60-66) gives
    [r], then decode (68-75), process (77-87), encode and send; the first error ends the
    call (47-58) *)
Definition processConnRead (e : env) (sl c : nat) (r : res bytes) (w : wres) : sp unit :=
  (frm <- lift r ;;
   p <- decodeP e frm ;;
   out <- process e sl p ;;
   processConnWrite e c out w)%prog.

(** ** server/tcp_server.go *)
(** :60-72 accept.  Lines 62-69 hold the server's mutex; the session is not shared before
    StoreSession. *)
Definition accept (c : nat) (addr : str) : sp nat :=
  (lock MServ ;;;
   l <- Act [] (fun s => set_sess (<[fresh (dom (st_sess s)) := mkSession addr c 0]>) s)
            (fun s => ret (fresh (dom (st_sess s)))) ;;
   storeSession addr l ;;;
   unlock MServ ;;;
   ret l)%prog.
(** :74-83 remove; the deferred Unlock also runs when session is not a valid pointer *)
Definition remove (sl : nat) : sp unit :=
  (lock MServ ;;;
   pbindR (x <- readSess sl ;;
           connClose (ss_conn x) ;;;
           clearSession (ss_id x))
          (fun r => unlock MServ ;;; Ret r))%prog.

(** :102-107: the errors after which serve returns *)
Definition serveStops (e : gerr) : bool :=
  match e with ErrEOF | ErrClosedPipe | ErrNetClosed | ErrDeviceNotFound => true | _ => false end.
(** One iteration of the loop of serve, :90-108; true: the loop goes on.  A panic leaves
    the function.  The sleep of line 106 is left out; see PaceM.v. *)
Definition serveOne (e : env) (sl : nat) (r : res bytes) (w : wres) : sp bool :=
  (x <- readSess sl ;;
   pbindR (processConnRead e sl (ss_conn x) r w)
          (fun q => match q with
                    | Ok _ => ret true
                    | Err er => ret (negb (serveStops er))
                    | Panic => panic
                    end))%prog.
(** :86-109 serve for the given results of Recv and Send: the deferred remove runs when the
    loop returns and when it panics, and the panic is recovered by GoSafe
    (routines/safe.go:11-34).  When the inputs are used up the goroutine waits in Recv; the
    result tells whether serve has returned. *)
Fixpoint serveLoop (e : env) (sl : nat) (ins : list (res bytes * wres)) : sp bool :=
  match ins with
  | [] => ret false
  | (r, w) :: t =>
      pbindR (serveOne e sl r w)
             (fun q => match q with
                       | Ok true => serveLoop e sl t
                       | _ => remove sl ;;; ret true
                       end)%prog
  end.
(** :49-50 the goroutine of a connection *)
Definition connThread (e : env) (c : nat) (addr : str) (ins : list (res bytes * wres)) : sp bool :=
  (sl <- accept c addr ;; serveLoop e sl ins)%prog.

(** :112-136 Send *)
Definition serverSend (e : env) (id : str) (m : msg) (w : wres) : sp unit :=
  (x <- getSession id ;;
   match x with
   | None => ret tt
   | Some sl =>
       s <- readSess sl ;;
       pbindR (processConnWrite e (ss_conn s) (Some m) w)
              (fun q => match q with
                        | Ok _ => ret tt
                        | Err ErrClosedPipe | Err ErrNetClosed => remove sl
                        | Err _ => ret tt
                        | Panic => panic
                        end)
   end)%prog.

(** ** client/tcp_client.go:54-59: the errors after which the client stops *)
Definition clientStops (e : gerr) : bool :=
  match e with ErrEOF | ErrClosedPipe | ErrNetClosed | ErrActiveClose => true | _ => false end.

(** ** api/api.go; the result is the list of statuses passed to c.JSON (the first one is
    sent), with the device's last location for the geo request.  A panic is recovered
    by gin and is the result Panic here; what is sent then is modelled in HttpM.v. *)
(** :24-26 *)
Definition apiList : sp (list nat) := listDevice.
(** :28-50; mapstructure.Decode is taken to succeed *)
Definition apiGeo (phone : str) : sp (list N * option devgeo) :=
  (d <- getDeviceByPhone phone ;;
   match d with
   | None => ret ([400], None)
   | Some l =>
       readDev l ;;;
       g <- getGeoLatestByPhone phone ;;
       match g with
       | None => ret ([], None)
       | Some x => ret ([200], Some x)
       end
   end)%prog.
(** :59-63 and 82-86: after a failed GetSession the nil session is used *)
Definition apiSession (dv : device) : sp (nat * N) :=
  (x <- getSession (d_sid dv) ;;
   match x with
   | None => panic
   | Some sl => sn <- nextSerial sl ;; ret (sl, sn)
   end)%prog.
(** :52-69 *)
Definition apiGetParams (e : env) (phone : str) (w : wres) : sp (list N) :=
  (d <- getDeviceByPhone phone ;;
   match d with
   | None => ret [400]
   | Some l =>
       dv <- readConst l ;;
       y <- apiSession dv ;;
       x <- readSess (fst y) ;;
       serverSend e (ss_id x)
         (mkMsg (genMsgHeader (d_ver dv) (d_proto dv) (d_phone dv) 0x8104 (snd y)) B8104) w ;;;
       ret []
   end)%prog.
(** :71-92; [bad]: ShouldBind failed, after which the handler goes on with what was bound *)
Definition apiPutParams (e : env) (phone : str) (bad : bool) (ps : devparams) (w : wres) : sp (list N) :=
  let pre := if bad then [400] else [] in
  (d <- getDeviceByPhone phone ;;
   match d with
   | None => ret (pre ++ [400])
   | Some l =>
       dv <- readConst l ;;
       y <- apiSession dv ;;
       x <- readSess (fst y) ;;
       serverSend e (ss_id x)
         (mkMsg (genMsgHeader (d_ver dv) (d_proto dv) (d_phone dv) 0x8103 (snd y))
                (B8103 0 (Some ps))) w ;;;
       ret pre
   end)%prog.

(** ** Histories in which one thing happens at a time *)
Inductive event : Type :=
| EAccept (c : nat) (addr : str)               (* Start accepts a connection *)
| EFrame (sl : nat) (r : res bytes) (w : wres) (* serve handles the next result of Recv *)
| ETick (phone : str)                          (* gron runs the job of a phone *)
| EList | EGeo (phone : str)                   (* HTTP requests *)
| EGetParams (phone : str) (w : wres)
| EPutParams (phone : str) (bad : bool) (ps : devparams) (w : wres)
| EClock (t : Z).
(** the shared state, the sessions whose serve goroutine runs, and whether a panic outside
    the recovered goroutines has ended the process *)
Record world : Type := mkWorld { w_st : st; w_live : gset nat; w_dead : bool }.
Definition world0 (now : Z) : world := mkWorld (init now) ∅ false.
(** An event that cannot happen (a used connection number, a goroutine that does not run, a
    phone without job, anything after the end of the process) changes nothing. *)
Definition step (e : env) (w : world) (ev : event) : world :=
  let s := w_st w in
  if w_dead w then w else
  match ev with
  | EAccept c addr =>
      match st_conns s !! c with
      | Some _ => w
      | None =>
          match run (accept c addr) (set_conns (<[c := mkConn true []]>) s) with
          | (Ok sl, s') => mkWorld s' ({[sl]} ∪ w_live w) false
          | (_, s') => mkWorld s' (w_live w) true
          end
      end
  | EFrame sl r x =>
      if bool_decide (sl ∈ w_live w) then
        match run (serveLoop e sl [(r, x)]) s with
        | (Ok true, s') => mkWorld s' (w_live w ∖ {[sl]}) false
        | (Ok false, s') => mkWorld s' (w_live w) false
        | (_, s') => mkWorld s' (w_live w ∖ {[sl]}) false
        end
      else w
  | ETick phone =>
      if bool_decide (phone ∈ st_jobs s) then
        match run (checkKeepalive phone) s with
        | (Panic, s') => mkWorld s' (w_live w) true
        | (_, s') => mkWorld s' (w_live w) false
        end
      else w
  | EList => w
  | EGeo phone => mkWorld (snd (run (apiGeo phone) s)) (w_live w) false
  | EGetParams phone x => mkWorld (snd (run (apiGetParams e phone x) s)) (w_live w) false
  | EPutParams phone bad ps x =>
      mkWorld (snd (run (apiPutParams e phone bad ps x) s)) (w_live w) false
  | EClock t => mkWorld (set_clock t s) (w_live w) false
  end.
Definition history (e : env) (now : Z) (evs : list event) : world :=
  fold_left (step e) evs (world0 now).

(** ** config/config.go *)
(** zerolog's levels: Debug 0, Info 1, Warn 2, Error 3, Fatal 4 *)
(** :180-193 the switch of ParseLogConf; "FATAl" as in the code; no default case, so any
    other string leaves the zero value, DebugLevel *)
Definition parseLevel (s : string) : N :=
  if (s =? "DEBUG")%string then 0
  else if (s =? "INFO")%string then 1
  else if (s =? "WARN")%string then 2
  else if (s =? "ERROR")%string then 3
  else if (s =? "FATAl")%string then 4
  else 0.
