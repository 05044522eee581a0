(** Model of the process-wide state: internal/storage, model/device.go, model/segment.go,
    model/session.go, the keepalive job list and the connections *)
From stdpp Require Import gmap.
From Verif Require Import Base TimeM HeaderM ParamsM GeoM MsgM ProgM RingM.
Local Open Scope N_scope.

(** model/device.go:11-17 DeviceStatus *)
Definition Offline : N := 0.
Definition Online : N := 1.
Definition Sleeping : N := 2.

(** model/device.go:19-40 Device.  Durations and times are in milliseconds (only
    Milliseconds() and UnixMilli() of them are used); a net.Conn is a number; TransProto
    (always TCP for the sessions of this server) is left out. *)
Record device : Type := mkDevice {
  d_id : str; d_plate : str; d_phone : str;
  d_sid : str; d_conn : nat;
  d_keep : Z; d_last : Z; d_status : N;
  d_ver : version; d_proto : N;
  d_auth : str; d_imei : str; d_sw : str
}.
Definition dset_last (d : device) (t : Z) : device :=
  mkDevice (d_id d) (d_plate d) (d_phone d) (d_sid d) (d_conn d) (d_keep d) t (d_status d)
           (d_ver d) (d_proto d) (d_auth d) (d_imei d) (d_sw d).
Definition dset_status (d : device) (x : N) : device :=
  mkDevice (d_id d) (d_plate d) (d_phone d) (d_sid d) (d_conn d) (d_keep d) (d_last d) x
           (d_ver d) (d_proto d) (d_auth d) (d_imei d) (d_sw d).
Definition dset_auth (d : device) (code imei sw : str) : device :=
  mkDevice (d_id d) (d_plate d) (d_phone d) (d_sid d) (d_conn d) (d_keep d) (d_last d) (d_status d)
           (d_ver d) (d_proto d) code imei sw.

(** model/device.go:69-75 DeviceGeo.  The coordinates and the speed are kept as the
    transmitted integers; the float64 values the code stores are locDegree and
    driveSpeed of them (FloatM.v), which determine them (C34). *)
Record devgeo : Type := mkDevGeo {
  dg_phone : str; dg_meta : geometa; dg_lat : N; dg_lon : N; dg_altitude : N;
  dg_speed : N; dg_dir : N; dg_time : civil
}.

(** model/segment.go:4-10 Segment *)
Record segment : Type := mkSeg {
  sg_phone : str; sg_id : N; sg_total : N; sg_no : N; sg_data : bytes
}.

(** model/session.go:32-36 Session *)
Record session : Type := mkSession { ss_id : str; ss_conn : nat; ss_sn : N }.
Definition sset_sn (x : session) (n : N) : session := mkSession (ss_id x) (ss_conn x) n.

(** A TCP connection as seen by the server: whether it was closed here, and what each
    call of JT808FrameHandler.Send wrote to it. *)
Record conn : Type := mkConn { cn_open : bool; cn_out : list bytes }.

(** Everything shared.  Pointers are indices of the heaps [st_devs], [st_rings],
    [st_sess]; objects are never freed.
    storage/device_cache.go:14-18, geo_cache.go:16-19, param_cache.go:13-16,
    segment_cache.go:10-13, session_cache.go:18-21, keepalive.go:14-16.
    DeviceParams are stored by value: Update works in place on the cached object in the
    code, which is the same thing as long as one goroutine handles a phone's messages. *)
Record st : Type := mkSt {
  st_devs : gmap nat device;
  st_byPlate : gmap str nat;
  st_byPhone : gmap str nat;
  st_rings : gmap nat (ring devgeo);
  st_geo : gmap str nat;
  st_params : gmap str devparams;
  st_segs : gmap str segment;
  st_sess : gmap nat session;
  st_byID : gmap str nat;
  st_jobs : list str;
  st_conns : gmap nat conn;
  st_clock : Z
}.
Definition init (now : Z) : st := mkSt ∅ ∅ ∅ ∅ ∅ ∅ ∅ ∅ ∅ [] ∅ now.

Definition set_devs (f : gmap nat device -> gmap nat device) (s : st) : st :=
  mkSt (f (st_devs s)) (st_byPlate s) (st_byPhone s) (st_rings s) (st_geo s) (st_params s)
       (st_segs s) (st_sess s) (st_byID s) (st_jobs s) (st_conns s) (st_clock s).
Definition set_index (f g : gmap str nat -> gmap str nat) (s : st) : st :=
  mkSt (st_devs s) (f (st_byPlate s)) (g (st_byPhone s)) (st_rings s) (st_geo s) (st_params s)
       (st_segs s) (st_sess s) (st_byID s) (st_jobs s) (st_conns s) (st_clock s).
Definition set_rings (f : gmap nat (ring devgeo) -> gmap nat (ring devgeo)) (s : st) : st :=
  mkSt (st_devs s) (st_byPlate s) (st_byPhone s) (f (st_rings s)) (st_geo s) (st_params s)
       (st_segs s) (st_sess s) (st_byID s) (st_jobs s) (st_conns s) (st_clock s).
Definition set_geo (f : gmap str nat -> gmap str nat) (s : st) : st :=
  mkSt (st_devs s) (st_byPlate s) (st_byPhone s) (st_rings s) (f (st_geo s)) (st_params s)
       (st_segs s) (st_sess s) (st_byID s) (st_jobs s) (st_conns s) (st_clock s).
Definition set_params (f : gmap str devparams -> gmap str devparams) (s : st) : st :=
  mkSt (st_devs s) (st_byPlate s) (st_byPhone s) (st_rings s) (st_geo s) (f (st_params s))
       (st_segs s) (st_sess s) (st_byID s) (st_jobs s) (st_conns s) (st_clock s).
Definition set_segs (f : gmap str segment -> gmap str segment) (s : st) : st :=
  mkSt (st_devs s) (st_byPlate s) (st_byPhone s) (st_rings s) (st_geo s) (st_params s)
       (f (st_segs s)) (st_sess s) (st_byID s) (st_jobs s) (st_conns s) (st_clock s).
Definition set_sess (f : gmap nat session -> gmap nat session) (s : st) : st :=
  mkSt (st_devs s) (st_byPlate s) (st_byPhone s) (st_rings s) (st_geo s) (st_params s)
       (st_segs s) (f (st_sess s)) (st_byID s) (st_jobs s) (st_conns s) (st_clock s).
Definition set_byID (f : gmap str nat -> gmap str nat) (s : st) : st :=
  mkSt (st_devs s) (st_byPlate s) (st_byPhone s) (st_rings s) (st_geo s) (st_params s)
       (st_segs s) (st_sess s) (f (st_byID s)) (st_jobs s) (st_conns s) (st_clock s).
Definition set_jobs (f : list str -> list str) (s : st) : st :=
  mkSt (st_devs s) (st_byPlate s) (st_byPhone s) (st_rings s) (st_geo s) (st_params s)
       (st_segs s) (st_sess s) (st_byID s) (f (st_jobs s)) (st_conns s) (st_clock s).
Definition set_conns (f : gmap nat conn -> gmap nat conn) (s : st) : st :=
  mkSt (st_devs s) (st_byPlate s) (st_byPhone s) (st_rings s) (st_geo s) (st_params s)
       (st_segs s) (st_sess s) (st_byID s) (st_jobs s) (f (st_conns s)) (st_clock s).
Definition set_clock (t : Z) (s : st) : st :=
  mkSt (st_devs s) (st_byPlate s) (st_byPhone s) (st_rings s) (st_geo s) (st_params s)
       (st_segs s) (st_sess s) (st_byID s) (st_jobs s) (st_conns s) t.

Notation sp := (prog st).

(** time.Now().UnixMilli() *)
Definition getNow : sp Z := rd1 [] st_clock.

(** ** The device at a pointer *)
(** reading fields that are never written after NewDevice *)
Definition readConst (l : nat) : sp device :=
  Act [] (fun s => s) (fun s => match st_devs s !! l with Some d => ret d | None => panic end).
(** reading Status, LastestComTime, AuthCode, IMEI or SoftwareVersion *)
Definition readDev (l : nat) : sp device :=
  Act [mkAcc (CDev l) false Plain] (fun s => s)
      (fun s => match st_devs s !! l with Some d => ret d | None => panic end).
(** an assignment to such a field *)
Definition writeDev (l : nat) (f : device -> device) : sp unit :=
  wr1 [mkAcc (CDev l) true Plain] (set_devs (alter f l)).
(** &model.Device{...} *)
Definition allocDev (d : device) : sp nat :=
  Act [] (fun s => set_devs (<[fresh (dom (st_devs s)) := d]>) s)
      (fun s => ret (fresh (dom (st_devs s)))).

(** ** storage/device_cache.go *)
(** :34-36 ListDevice, without the lock.  The order of the result is that of a Go map;
    the model lists the values in some fixed order. *)
Definition listDevice : sp (list nat) :=
  rd1 [mkAcc CDevMaps false Plain] (fun s => (map_to_list (st_byPhone s)).*2).
(** :38-45 GetDeviceByPlate; None is ErrDeviceNotFound *)
Definition getDeviceByPlate (plate : str) : sp (option nat) :=
  rd1 [mkAcc CDevMaps false (Locked MDev)] (fun s => st_byPlate s !! plate).
(** :52-59 GetDeviceByPhone *)
Definition getDeviceByPhone (phone : str) : sp (option nat) :=
  rd1 [mkAcc CDevMaps false (Locked MDev)] (fun s => st_byPhone s !! phone).
(** :47-50 HasPlate, :61-64 HasPhone (stored pointers are never nil) *)
Definition hasPlate (plate : str) : sp bool :=
  (d <- getDeviceByPlate plate ;; ret (match d with Some _ => true | None => false end))%prog.
Definition hasPhone (phone : str) : sp bool :=
  (d <- getDeviceByPhone phone ;; ret (match d with Some _ => true | None => false end))%prog.
(** :66-75 CacheDevice *)
Definition cacheDevice (l : nat) : sp unit :=
  wr1 [mkAcc CDevMaps true (Locked MDev)]
      (fun s => match st_devs s !! l with
                | Some d => set_index (<[d_plate d := l]>) (<[d_phone d := l]>) s
                | None => s
                end).
(** :77-91,99-103 DelDeviceByPhone: the plate removed is that of the device found *)
Definition delDeviceByPhone (phone : str) : sp unit :=
  wr1 [mkAcc CDevMaps true (Locked MDev)]
      (fun s => match st_byPhone s !! phone with
                | Some l => match st_devs s !! l with
                            | Some d => set_index (delete (d_plate d)) (delete (d_phone d)) s
                            | None => s
                            end
                | None => s
                end).

(** ** storage/geo_cache.go *)
(** :12 RingCapacity *)
Definition ringCapacity : Z := 100.
(** :34-43 GetGeoRingByPhone *)
Definition getGeoRingByPhone (phone : str) : sp nat :=
  Act [mkAcc CGeoMap true (Locked MGeo)]
      (fun s => match st_geo s !! phone with
                | Some _ => s
                | None => let l := fresh (dom (st_rings s)) in
                          set_geo (<[phone := l]>) (set_rings (<[l := newRing ringCapacity]>) s)
                end)
      (fun s => ret (match st_geo s !! phone with
                     | Some l => l
                     | None => fresh (dom (st_rings s))
                     end)).
(** calls on the ring buffer at [l] *)
Definition ringAt (l : nat) (s : st) : ring devgeo := default (newRing 0) (st_rings s !! l).
Definition onRing {A} (l : nat) (p : prog (ring devgeo) A) : sp A :=
  zoom (ringAt l) (fun r => set_rings (<[l := r]>)) p.
(** :45-51 GetGeoLatestByPhone; None is ErrGisNotFound (the type assertion fails on nil) *)
Definition getGeoLatestByPhone (phone : str) : sp (option devgeo) :=
  (l <- getGeoRingByPhone phone ;; onRing l (ringLatest l))%prog.
(** :53-57 DelGeoByPhone *)
Definition delGeoByPhone (phone : str) : sp unit :=
  wr1 [mkAcc CGeoMap true (Locked MGeo)] (set_geo (delete phone)).

(** ** storage/param_cache.go:31-38, 40-44 *)
Definition getDeviceParamsByPhone (phone : str) : sp (option devparams) :=
  rd1 [mkAcc CParamMap false (Locked MParam)] (fun s => st_params s !! phone).
Definition cacheDeviceParams (d : devparams) : sp unit :=
  wr1 [mkAcc CParamMap true (Locked MParam)] (set_params (<[dp_phone d := d]>)).

(** ** storage/segment_cache.go *)
(** the UTF-8 encoding of rune(id), as strings.Builder.WriteRune writes it; surrogate
    halves are replaced by U+FFFD *)
Definition utf8 (r : N) : bytes :=
  if r <? 0x80 then [r]
  else if r <? 0x800 then [0xc0 + r / 64; 0x80 + r mod 64]
  else if (0xd800 <=? r) && (r <=? 0xdfff) then [0xef; 0xbf; 0xbd]
  else [0xe0 + r / 4096; 0x80 + (r / 64) mod 64; 0x80 + r mod 64].
(** :29-33 *)
Definition segKey (phone : str) (id : N) : str := phone ++ 47 :: utf8 id.
(** model/segment.go:12-14 IsComplete *)
Definition segComplete (x : segment) : bool := sg_no x =? sg_total x.
(** model/segment.go:16-19 Merge *)
Definition segMerge (x y : segment) : segment :=
  mkSeg (sg_phone x) (sg_id x) (sg_total x) (sg_no y) (sg_data x ++ sg_data y).
(** :28-45 CacheSegment: when the key is new, s is nil and s.IsComplete() panics after
    the segment was stored *)
Definition cacheSegment (x : segment) : sp bool :=
  let key := segKey (sg_phone x) (sg_id x) in
  Act [mkAcc CSegMap true (Locked MSeg)]
      (fun s => set_segs (<[key := match st_segs s !! key with
                                   | Some y => segMerge y x
                                   | None => x
                                   end]>) s)
      (fun s => match st_segs s !! key with
                | Some y => ret (segComplete (segMerge y x))
                | None => panic
                end).

(** ** storage/session_cache.go:48-56, 59-64, 67-72, 75-78 *)
Definition getSession (id : str) : sp (option nat) :=
  rd1 [mkAcc CSessMap false (Locked MSess)] (fun s => st_byID s !! id).
Definition storeSession (id : str) (l : nat) : sp unit :=
  wr1 [mkAcc CSessMap true (Locked MSess)] (set_byID (<[id := l]>)).
Definition clearSession (id : str) : sp unit :=
  wr1 [mkAcc CSessMap true (Locked MSess)] (set_byID (delete id)).
Definition countSession : sp nat := rd1 [mkAcc CSessMap false Plain] (fun s => size (st_byID s)).
(** the session at a pointer; its ID and Conn never change *)
Definition readSess (l : nat) : sp session :=
  Act [] (fun s => s) (fun s => match st_sess s !! l with Some x => ret x | None => panic end).
Definition serialAt (l : nat) (s : st) : N := default 0 (ss_sn <$> st_sess s !! l).
(** model/session.go:45-52 on the session at [l] *)
Definition nextSerial (l : nat) : sp N :=
  zoom (serialAt l) (fun n => set_sess (alter (fun x => sset_sn x n) l)) (getNextSerialNum l).

(** ** The job list of gron: Add and Cancel go through the scheduler goroutine, which
    handles them one at a time.  Cancel(id) is taken to remove every entry whose JobID
    is id. *)
Definition timerAdd (phone : str) : sp unit :=
  wr1 [mkAcc CTimer true Atomic] (set_jobs (fun js => js ++ [phone])).
Definition timerCancel (phone : str) : sp unit :=
  wr1 [mkAcc CTimer true Atomic] (set_jobs (base.filter (fun p => p <> phone))).

(** ** Connections *)
(** frame_handler.go:88-109 Send: the payload is written completely, or a prefix of it
    before the error of a Write call (FrameM.v, send_spec); [w] says which.  On a closed
    connection every Write fails with net.ErrClosed and writes nothing. *)
Definition wres := option (nat * gerr).
Definition connSend (c : nat) (payload : bytes) (w : wres) : sp unit :=
  Act [mkAcc (CConn c) true Atomic]
      (fun s => set_conns (alter (fun x =>
         if cn_open x
         then mkConn true (cn_out x ++ [match w with
                                        | None => payload
                                        | Some (n, _) => take n payload
                                        end])
         else x) c) s)
      (fun s => match st_conns s !! c with
                | Some x => if cn_open x
                            then match w with None => ret tt | Some (_, e) => fail e end
                            else fail ErrNetClosed
                | None => panic
                end).
Definition connClose (c : nat) : sp unit :=
  wr1 [mkAcc (CConn c) true Atomic]
      (set_conns (alter (fun x => mkConn false (cn_out x)) c)).
