(** Specification vocabulary for what the HTTP answers show (C141) *)
From Coq Require Import String.
From stdpp Require Import gmap.
From Verif Require Import Base TimeM HeaderM GeoM StateM SpecCodec JsonM SpecJson.
Local Open Scope N_scope.

(** UTF-8: the scalar values and their encoding *)
Definition scalar (c : N) : Prop := c < 0xD800 \/ 0xE000 <= c < 0x110000.
Definition enc (c : N) : str :=
  if c <? 0x80 then [c]
  else if c <? 0x800 then [0xC0 + c / 64; 0x80 + c mod 64]
  else if c <? 0x10000 then [0xE0 + c / 4096; 0x80 + c / 64 mod 64; 0x80 + c mod 64]
  else [0xF0 + c / 262144; 0x80 + c / 4096 mod 64; 0x80 + c / 64 mod 64; 0x80 + c mod 64].
Definition utf8 (s : str) : Prop := exists cs, Forall scalar cs /\ s = concat (List.map enc cs).

(** a text as it is, if it is one; a number (all of Go's are below 10^20) in decimal *)
Definition shows_text (s : str) (v : jvalue) : Prop := exists t, v = JText t /\ utf8 t /\ (utf8 s -> t = s).
Definition shows_num (n : N) (v : jvalue) : Prop := n < 10 ^ 20 -> number n v.
Definition version_code (v : version) : N := match v with V2011 => 0 | V2013 => 1 | V2019 => 2 end.
Definition nanoseconds (ms : Z) : N := Z.to_N ms * 1000000.

(** a device in the list; the members have these names, up to the case of letters, and no others *)
Definition shows_device (tm : Z -> str) (d : device) (v : jvalue) : Prop :=
  exists l, v = JObj l
    /\ member l "id" (shows_text (d_id d)) /\ member l "plate" (shows_text (d_plate d)) /\ member l "phone" (shows_text (d_phone d))
    /\ member l "sessionId" (shows_text (d_sid d)) /\ member l "transProto" (eq (JText (text "TCP")))
    /\ member l "keepalive" (shows_num (nanoseconds (d_keep d))) /\ member l "lastComTime" (eq (JText (tm (d_last d))))
    /\ member l "status" (shows_num (d_status d)) /\ member l "versionDesc" (shows_num (version_code (d_ver d)))
    /\ member l "protocolVersion" (shows_num (d_proto d)) /\ member l "authcode" (shows_text (d_auth d))
    /\ member l "imei" (shows_text (d_imei d)) /\ member l "softwareVersion" (shows_text (d_sw d)) /\ length l = 13%nat.

(** RFC 3339: the civil time and how many minutes it is ahead of UTC *)
Definition stamp (t : civil) (ahead : Z) : str :=
  d2 (c_year t / 100) ++ d2 (c_year t mod 100) ++ text "-" ++ d2 (c_month t) ++ text "-" ++ d2 (c_day t) ++ text "T"
  ++ d2 (c_hour t) ++ text ":" ++ d2 (c_min t) ++ text ":" ++ d2 (c_sec t)
  ++ (if Z.eqb ahead 0 then text "Z"
      else (if Z.ltb ahead 0 then text "-" else text "+") ++ d2 (Z.to_N (Z.abs ahead) / 60) ++ text ":" ++ d2 (Z.to_N (Z.abs ahead) mod 60)).
(** [v] shows the instant at which it is [t0], [ahead0] minutes ahead of UTC; [secs] counts the seconds of a civil time *)
Definition shows_instant (secs : civil -> Z) (t0 : civil) (ahead0 : Z) (v : jvalue) : Prop :=
  exists t ahead, civil_valid t /\ c_year t < 10000 /\ v = JText (stamp t ahead) /\ (secs t - 60 * ahead = secs t0 - 60 * ahead0)%Z.

(** a location; [flt n d] is the text of the float64 nearest to n/d *)
Definition shows_meta (g : geometa) (v : jvalue) : Prop :=
  exists l, v = JObj l
    /\ member l "accStatus" (shows_num (g_acc g)) /\ member l "locationStatus" (shows_num (g_loc g))
    /\ member l "latitudeType" (shows_num (g_latt g)) /\ member l "longitudeType" (shows_num (g_lont g))
    /\ member l "operatingStatus" (shows_num (g_oper g)) /\ member l "geoEncryptionStatus" (shows_num (g_crypt g))
    /\ member l "loadStatus" (shows_num (g_load g)) /\ member l "fuelSystemStatus" (shows_num (g_fuel g))
    /\ member l "alternatorSystemStatus" (shows_num (g_alt g)) /\ member l "doorLockedStatus" (shows_num (g_lock g))
    /\ member l "frontDoorStatus" (shows_num (g_front g)) /\ member l "midDoorStatus" (shows_num (g_mid g))
    /\ member l "backDoorStatus" (shows_num (g_back g)) /\ member l "driverDoorStatus" (shows_num (g_driver g))
    /\ member l "customDoorStatus" (shows_num (g_custom g)) /\ member l "gpsLocationStatus" (shows_num (g_gps g))
    /\ member l "beidouLocationStatus" (shows_num (g_beidou g)) /\ member l "glonassLocationStatus" (shows_num (g_glonass g))
    /\ member l "galileoLocationStatus" (shows_num (g_galileo g)) /\ member l "drivingStatus" (shows_num (g_driving g)).
Definition shows_location (flt : N -> N -> str) (g : devgeo) (v : jvalue) : Prop :=
  exists l, v = JObj l /\ member l "phone" (shows_text (dg_phone g)) /\ member l "gis" (shows_meta (dg_meta g))
    /\ member l "location" (fun x => exists m, x = JObj m /\ member m "latitude" (eq (JNum (flt (dg_lat g) 1000000)))
                              /\ member m "longitude" (eq (JNum (flt (dg_lon g) 1000000))) /\ member m "altitude" (shows_num (dg_altitude g)))
    /\ member l "drive" (fun x => exists m, x = JObj m /\ member m "speed" (eq (JNum (flt (dg_speed g) 10)))
                              /\ member m "direction" (shows_num (dg_dir g)))
    /\ member l "time" (fun x => civil_valid (dg_time g) -> c_year (dg_time g) < 10000 -> x = JText (stamp (dg_time g) 0)).
(** a device with its location, except for the time of its last message *)
Definition shows_both (flt : N -> N -> str) (d : device) (g : devgeo) (v : jvalue) : Prop :=
  exists l, v = JObj l
    /\ member l "id" (shows_text (d_id d)) /\ member l "plate" (shows_text (d_plate d)) /\ member l "phone" (shows_text (d_phone d))
    /\ member l "sessionId" (shows_text (d_sid d)) /\ member l "transProto" (eq (JText (text "TCP")))
    /\ member l "keepalive" (shows_num (nanoseconds (d_keep d)))
    /\ member l "status" (shows_num (d_status d)) /\ member l "versionDesc" (shows_num (version_code (d_ver d)))
    /\ member l "protocolVersion" (shows_num (d_proto d)) /\ member l "authcode" (shows_text (d_auth d))
    /\ member l "imei" (shows_text (d_imei d)) /\ member l "softwareVersion" (shows_text (d_sw d))
    /\ member l "gis" (shows_location flt g).
