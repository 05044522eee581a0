(** The answers to HTTP requests (internal/api/api.go), with what is rendered when a handler panics *)
From stdpp Require Import gmap.
From Verif Require Import Base HexM TimeM HeaderM ParamsM MsgM PacketM FrameM ProgM RingM StateM ProcM ServerM.
Local Open Scope N_scope.

(** the values passed to c.JSON: {"err": ...}, the device list, a device with its location *)
Inductive json : Type := JErr | JDevs (ds : list device) | JGeo (d : device) (g : devgeo).
(** The calls of c.JSON a handler makes, and whether it panics after them. *)
Definition handled : Type := list (N * json) * bool.
(** What the client gets.  gin sends the status with the first body, appends the later bodies, sends 200 without
    a body when the handler renders nothing, and 500 when it panics before rendering anything (gin.Default's
    recovery; a status that has been sent stays). *)
Record response : Type := mkResp { rs_status : N; rs_values : list json }.
Definition respond (h : handled) : response :=
  mkResp (match fst h with (c, _) :: _ => c | [] => if snd h then 500 else 200 end) (List.map snd (fst h)).

(** encoding/json reads the records of the list one after the other *)
Fixpoint readAll (ls : list nat) : sp (list device) :=
  match ls with
  | [] => ret []
  | l :: t => (d <- readDev l ;; ds <- readAll t ;; ret (d :: ds))%prog
  end.
(** :24-26 *)
Definition httpList : sp handled := (ls <- listDevice ;; ds <- readAll ls ;; ret ([(200, JDevs ds)], false))%prog.
(** :28-50; mapstructure.Decode, which copies the record, is taken to succeed *)
Definition httpGeo (phone : str) : sp handled :=
  (d <- getDeviceByPhone phone ;;
   match d with
   | None => ret ([(400, JErr)], false)
   | Some l =>
       dv <- readDev l ;;
       g <- getGeoLatestByPhone phone ;;
       match g with
       | None => ret ([], false)
       | Some x => ret ([(200, JGeo dv x)], false)
       end
   end)%prog.
(** :59-67 and :82-91: after a failed GetSession a 400 is rendered and the nil session is used.  [pre] has been
    rendered before. *)
Definition httpSend (e : env) (dv : device) (id : N) (b : body) (w : wres) (pre : list (N * json)) : sp handled :=
  (x <- getSession (d_sid dv) ;;
   match x with
   | None => ret (pre ++ [(400, JErr)], true)
   | Some sl =>
       sn <- nextSerial sl ;;
       x <- readSess sl ;;
       pbindR (serverSend e (ss_id x) (mkMsg (genMsgHeader (d_ver dv) (d_proto dv) (d_phone dv) id sn) b) w)
              (fun q => match q with Panic => ret (pre, true) | _ => ret (pre, false) end)
   end)%prog.
(** :52-69 *)
Definition httpGetParams (e : env) (phone : str) (w : wres) : sp handled :=
  (d <- getDeviceByPhone phone ;;
   match d with
   | None => ret ([(400, JErr)], false)
   | Some l => dv <- readConst l ;; httpSend e dv 0x8104 B8104 w []
   end)%prog.
(** :71-92; [bad]: ShouldBind failed *)
Definition httpPutParams (e : env) (phone : str) (bad : bool) (ps : devparams) (w : wres) : sp handled :=
  let pre := if bad then [(400, JErr)] else [] in
  (d <- getDeviceByPhone phone ;;
   match d with
   | None => ret (pre ++ [(400, JErr)], false)
   | Some l => dv <- readConst l ;; httpSend e dv 0x8103 (B8103 0 (Some ps)) w pre
   end)%prog.

(** the four routes; [w] is what happens when the command is written to the connection *)
Inductive request : Type :=
| RList
| RGeo (phone : str)
| RGetParams (phone : str) (w : wres)
| RPutParams (phone : str) (bad : bool) (ps : devparams) (w : wres).
Definition http (e : env) (r : request) : sp response :=
  (h <- match r with
        | RList => httpList
        | RGeo ph => httpGeo ph
        | RGetParams ph w => httpGetParams e ph w
        | RPutParams ph bad ps w => httpPutParams e ph bad ps w
        end ;;
   ret (respond h))%prog.
