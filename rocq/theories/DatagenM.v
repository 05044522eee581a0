(** Model of the simulated terminal: test/datagen/datagen.go and the goroutines of
    test/client/main.go.  The strings regen.Generate produces (it ignores errors) and the random
    numbers are arguments; so is the conversion of a float64 to an unsigned integer it does not
    fit, which Go leaves to the implementation. *)
From Coq Require Import ZArith.
From stdpp Require Import gmap.
From Flocq Require Import Core IEEE754.BinarySingleNaN IEEE754.Binary IEEE754.Bits.
From Verif Require Import Base HexM TimeM HeaderM ParamsM GeoM MsgM PacketM FrameM FloatM ProgM RingM StateM ProcM ServerM ClientM.
Local Open Scope N_scope.

(** datagen.go:22-28 atoi: strconv.Atoi, 0 for every error (syntax, or beyond int64) *)
Fixpoint decimalZ (acc : Z) (s : str) : option Z :=
  match s with
  | [] => Some acc
  | c :: t => if (48 <=? c) && (c <=? 57) then decimalZ (acc * 10 + Z.of_N (c - 48)) t else None
  end.
Definition atoi (s : str) : Z :=
  let num d := match d with [] => None | _ => decimalZ 0 d end in
  let r := match s with
           | 45 :: d => option_map Z.opp (num d)
           | 43 :: d => num d
           | d => num d
           end in
  match r with
  | Some z => if ((- 2 ^ 63 <=? z) && (z <? 2 ^ 63))%Z then z else 0%Z
  | None => 0%Z
  end.
(** the conversions byte(x), uint16(x) of an integer *)
Definition toByte (z : Z) : N := Z.to_N (z mod 256).
Definition toWord (z : Z) : N := Z.to_N (z mod 65536).

(** config.go DeviceConf as datagen.go uses it: the strings generated for the expressions, the
    protocol version and the keepalive seconds *)
Record simconf : Type := mkSim {
  sm_id : str; sm_plate : str; sm_phone : str; sm_imei : str; sm_version : str; sm_keep : Z;
  sm_prov : str; sm_city : str; sm_color : str }.

(** :54-61 fillDevicePhone *)
Definition fillDevicePhone (phone : str) (dstLen : nat) : str := repeat 48 (dstLen - length phone) ++ phone.

(** "fakeyanss", "fakeyanss.github.io" *)
Definition fakeyanss : str := [102; 97; 107; 101; 121; 97; 110; 115; 115].
Definition fakeyanssIO : str := fakeyanss ++ [46; 103; 105; 116; 104; 117; 98; 46; 105; 111].

(** :30-52 GenDevice.  No case of the switch applies to other version strings: VersionDesc keeps
    its zero value, which is Version2011, and the phone is not padded.  LastestComTime is the
    zero time, which is not read; buildDevice (main.go:35-44) sets session and connection.
    Milliseconds for the keepalive duration, as everywhere in the model. *)
Definition genDevice (c : simconf) (sid : str) (cn : nat) : device :=
  let '(ver, phone) :=
    if bool_decide (sm_version c = [50; 48; 49; 57]) then (V2019, fillDevicePhone (sm_phone c) 20)
    else if bool_decide (sm_version c = [50; 48; 49; 51]) then (V2013, fillDevicePhone (sm_phone c) 12)
    else if bool_decide (sm_version c = [50; 48; 49; 49]) then (V2011, fillDevicePhone (sm_phone c) 12)
    else (V2011, sm_phone c) in
  mkDevice (sm_id c) (sm_plate c) phone sid cn (sm_keep c * 1000) 0 Offline ver 0 [] (sm_imei c) fakeyanssIO.

(** :63-90 genMsgHeader: the serial number is always 1 *)
Definition simHeader (id : N) (d : device) : header :=
  if version_eqb (d_ver d) V2019
  then mkHeader id (mkAttr 0 0 0 1 0 EncNone false V2019) 1 (d_phone d) 1 None
  else mkHeader id (mkAttr 0 0 0 0 0 EncNone false V2013) 0 (d_phone d) 1 None.
(** :92-96 GenMsg0002, :98-109 GenMsg0100 *)
Definition genMsg0002 (d : device) : msg := mkMsg (simHeader 0x0002 d) B0002.
Definition genMsg0100 (c : simconf) (d : device) : msg :=
  mkMsg (simHeader 0x0100 d)
        (B0100 (mkReg (toWord (atoi (sm_prov c))) (toWord (atoi (sm_city c))) fakeyanss fakeyanss
                      (d_id d) (toByte (atoi (sm_color c))) (d_plate d) [])).

(** :111-134 genGeoMeta: [v i] is the string generated for the i-th field *)
Definition genGeoMeta (v : nat -> str) : geometa :=
  let f i := toByte (atoi (v i)) in
  mkGeo (f 0%nat) (f 1%nat) (f 2%nat) (f 3%nat) (f 4%nat) (f 5%nat) (f 6%nat) (f 7%nat) (f 8%nat) (f 9%nat)
        (f 10%nat) (f 11%nat) (f 12%nat) (f 13%nat) (f 14%nat) (f 15%nat) (f 16%nat) (f 17%nat) (f 18%nat) (f 19%nat).

(** :136-151 GenDeviceGeo, the part of the DeviceGeo that is read again *)
Record simgeo : Type := mkSimGeo { sg_lat : binary64; sg_lon : binary64; sg_altitude : N; sg_speed : binary64 }.
Definition genDeviceGeo (lat lon altitude speed : str) : simgeo :=
  mkSimGeo (f64_of_Z (atoi lat)) (f64_of_Z (atoi lon)) (toWord (atoi altitude)) (f64_of_Z (atoi speed)).

(** the integer part of a float64 *)
Definition f64_trunc (x : binary64) : option Z :=
  match x with
  | B754_zero _ _ _ => Some 0%Z
  | B754_finite _ _ sg m ex _ =>
      let a := match ex with
               | Z0 => Zpos m
               | Zpos p => (Zpos m * 2 ^ Zpos p)%Z
               | Zneg p => (Zpos m / 2 ^ Zpos p)%Z
               end in
      Some (if sg then (- a)%Z else a)
  | _ => None
  end.
(** uint32(x) for bits = 32, uint16(x) for bits = 16: the integer part if it fits; otherwise the
    result is implementation-dependent *)
Definition toUint (other : binary64 -> N) (bits : Z) (x : binary64) : N :=
  match f64_trunc x with
  | Some z => if ((0 <=? z) && (z <? 2 ^ bits))%Z then Z.to_N z else other x mod 2 ^ Z.to_N bits
  | None => other x mod 2 ^ Z.to_N bits
  end.

(** the random numbers of one report: rand.Float64()*2-1 twice, rand.Intn(11)-5,
    rand.Float64()*20-10, rand.Intn(360), and the strings of a new status *)
Record draw : Type := mkDraw {
  dr_lat : binary64; dr_lon : binary64; dr_altitude : Z; dr_speed : binary64; dr_dir : Z; dr_meta : nat -> str }.
(** :157-194 GenMsg0200 at the time [now] *)
Definition scaled (base off : binary64) (accuracy : Z) : binary64 :=
  b64_mult mode_NE (b64_plus mode_NE base off) (f64_of_Z accuracy).
Definition genMsg0200 (other : binary64 -> N) (d : device) (g : simgeo) (r : draw) (now : civil) : msg :=
  let lat := toUint other 32 (scaled (sg_lat g) (dr_lat r) locationAccuracy) in
  let lon := toUint other 32 (scaled (sg_lon g) (dr_lon r) locationAccuracy) in
  let altitude := (sg_altitude g + toWord (dr_altitude r)) mod 65536 in
  let speed := toUint other 16 (scaled (sg_speed g) (dr_speed r) speedAccuracy) in
  mkMsg (simHeader 0x0200 d)
        (B0200 (mkLoc 1024 (geoEncode (genGeoMeta (dr_meta r)))
                      (if 90000000 <? lat then 90000000 else lat)
                      (if 180000000 <? lon then 180000000 else lon)
                      (if 5000 <? altitude then 1000 else altitude)
                      (if 3000 <? speed then 1000 else speed)
                      (toWord (dr_dir r)) (FormatTime now))).

(** test/client/main.go:35-44 buildDevice on the client's session [sl] *)
Definition buildDevice (c : simconf) (sl : nat) : sp nat :=
  (x <- readSess sl ;;
   l <- allocDev (genDevice c (ss_id x) (ss_conn x)) ;;
   cacheDevice l ;;;
   ret l)%prog.
(** :46-54 getDevice; log.Fatal ends the process, here: an error *)
Definition getSim (phone : str) : sp nat :=
  (d <- getDeviceByPhone phone ;;
   match d with Some l => ret l | None => fail ErrDeviceNotFound end)%prog.
(** :56-61 register *)
Definition register (e : env) (c : simconf) (phone : str) (sl : nat) (w : wres) : sp unit :=
  (l <- getSim phone ;; d <- readConst l ;; clientSend e sl (genMsg0100 c d) w)%prog.
(** :63-76 keepalive, for the given results of the writes *)
Fixpoint beats0002 (e : env) (m : msg) (sl : nat) (ws : list wres) : sp unit :=
  match ws with
  | [] => ret tt
  | w :: t => (clientSend e sl m w ;;; beats0002 e m sl t)%prog
  end.
Definition keepalive (e : env) (phone : str) (sl : nat) (ws : list wres) : sp unit :=
  (l <- getSim phone ;; d <- readConst l ;; beats0002 e (genMsg0002 d) sl ws)%prog.
(** :87-104 reportLocation: the DeviceGeo [g] is the one buildDeviceGeo (:78-85) wrote, the only
    one ever written to the client's ring buffer; a new report for each draw *)
Fixpoint reportLocation (e : env) (other : binary64 -> N) (phone : str) (g : simgeo) (sl : nat)
    (rs : list (draw * wres)) : sp unit :=
  match rs with
  | [] => ret tt
  | (r, w) :: t =>
      (l <- getSim phone ;; d <- readConst l ;;
       now <- getNow ;;
       clientSend e sl (genMsg0200 other d g r (e_civil e now)) w ;;;
       reportLocation e other phone g sl t)%prog
  end.
(** :138-149 the status checker, one look: true when keepalive and reportLocation start *)
Definition statusCheck (phone : str) : sp bool :=
  (d <- getDeviceByPhone phone ;;
   match d with
   | Some l => dv <- readDev l ;; ret (d_status dv =? Online)
   | None => panic
   end)%prog.
