(** What the JSON values of HttpM.v look like: encoding/json on the structs of internal/protocol/model/device.go, as called
    by c.JSON at internal/api/api.go:25 and :49.  The values are those of JsonM.v (what the text denotes). *)
From Coq Require Import String Ascii.
From stdpp Require Import gmap.
From Verif Require Import Base HexM HashM TimeM HeaderM ParamsM GeoM MsgM ProgM StateM ProcM HttpM JsonM.
Local Open Scope N_scope.

(** utf8.DecodeRune: the second byte a first byte allows, and the further ones *)
Definition cont (b : N) : bool := (128 <=? b) && (b <=? 191).
Definition second2 (a b : N) : bool := (194 <=? a) && (a <=? 223) && cont b.
Definition second3 (a b : N) : bool :=
  ((a =? 224) && (160 <=? b) && (b <=? 191)) || ((225 <=? a) && (a <=? 236) && cont b)
  || ((a =? 237) && (128 <=? b) && (b <=? 159)) || ((238 <=? a) && (a <=? 239) && cont b).
Definition second4 (a b : N) : bool :=
  ((a =? 240) && (144 <=? b) && (b <=? 191)) || ((241 <=? a) && (a <=? 243) && cont b)
  || ((a =? 244) && (128 <=? b) && (b <=? 143)).
Definition replacement : str := [239; 191; 189].
(** encoding/json writes U+FFFD for every byte that begins no rune *)
Fixpoint toValid (s : str) : str :=
  match s with
  | [] => []
  | a :: t =>
      if a <? 128 then a :: toValid t
      else match t with
           | b :: t2 =>
               if second2 a b then a :: b :: toValid t2
               else match t2 with
                    | c :: t3 =>
                        if second3 a b && cont c then a :: b :: c :: toValid t3
                        else match t3 with
                             | d :: t4 =>
                                 if second4 a b && cont c && cont d then a :: b :: c :: d :: toValid t4
                                 else replacement ++ toValid t
                             | [] => replacement ++ toValid t
                             end
                    | [] => replacement ++ toValid t
                    end
           | [] => replacement ++ toValid t
           end
  end.
Definition jsonText (s : str) : jvalue := JText (toValid s).
Definition jsonNum (n : N) : jvalue := JNum (itoa n).
Fixpoint lit (s : string) : str := match s with EmptyString => [] | String a t => N_of_ascii a :: lit t end.

(** header.go:119-125 *)
Definition versionNum (v : version) : N := match v with V2011 => 0 | V2013 => 1 | V2019 => 2 end.
(** device.go:19-40 with its json tags; Conn is left out, the keepalive is in nanoseconds, [tm]: the text of the time *)
Definition jsonDevice (tm : Z -> str) (d : device) : jvalue :=
  JObj [(lit "id", jsonText (d_id d)); (lit "plate", jsonText (d_plate d)); (lit "phone", jsonText (d_phone d));
        (lit "sessionId", jsonText (d_sid d)); (lit "transProto", JText (lit "TCP"));
        (lit "keepalive", jsonNum (Z.to_N (d_keep d) * 1000000)); (lit "lastComTime", JText (tm (d_last d)));
        (lit "status", jsonNum (d_status d)); (lit "versionDesc", jsonNum (versionNum (d_ver d)));
        (lit "protocolVersion", jsonNum (d_proto d)); (lit "authcode", jsonText (d_auth d)); (lit "imei", jsonText (d_imei d));
        (lit "softwareVersion", jsonText (d_sw d))].
(** device.go:144-169 *)
Definition jsonMeta (g : geometa) : jvalue :=
  JObj [(lit "accStatus", jsonNum (g_acc g)); (lit "locationStatus", jsonNum (g_loc g)); (lit "latitudeType", jsonNum (g_latt g));
        (lit "longitudeType", jsonNum (g_lont g)); (lit "operatingStatus", jsonNum (g_oper g)); (lit "geoEncryptionStatus", jsonNum (g_crypt g));
        (lit "loadStatus", jsonNum (g_load g)); (lit "FuelSystemStatus", jsonNum (g_fuel g)); (lit "AlternatorSystemStatus", jsonNum (g_alt g));
        (lit "DoorLockedStatus", jsonNum (g_lock g)); (lit "frontDoorStatus", jsonNum (g_front g)); (lit "midDoorStatus", jsonNum (g_mid g));
        (lit "backDoorStatus", jsonNum (g_back g)); (lit "driverDoorStatus", jsonNum (g_driver g)); (lit "customDoorStatus", jsonNum (g_custom g));
        (lit "gpsLocationStatus", jsonNum (g_gps g)); (lit "beidouLocationStatus", jsonNum (g_beidou g));
        (lit "glonassLocationStatus", jsonNum (g_glonass g)); (lit "galileoLocationStatus", jsonNum (g_galileo g));
        (lit "drivingStatus", jsonNum (g_driving g))].
(** time.Time's MarshalJSON (RFC 3339); time.Parse without a zone gives UTC.  (A time that could not be parsed is
    time.Now() and would be shown with the local zone.  Years are below 10000.) *)
Definition jsonTime (t : civil) : jvalue :=
  JText (dec2 (c_year t / 100) ++ dec2 (c_year t mod 100) ++ [45] ++ dec2 (c_month t) ++ [45] ++ dec2 (c_day t) ++ [84]
         ++ dec2 (c_hour t) ++ [58] ++ dec2 (c_min t) ++ [58] ++ dec2 (c_sec t) ++ [90]).
(** device.go:69-75, :97-101, :109-112; [flt n d]: the number n/d as strconv.AppendFloat writes the nearest float64 *)
Definition jsonGeo (flt : N -> N -> str) (g : devgeo) : jvalue :=
  JObj [(lit "phone", jsonText (dg_phone g)); (lit "gis", jsonMeta (dg_meta g));
        (lit "location", JObj [(lit "latitude", JNum (flt (dg_lat g) 1000000)); (lit "longitude", JNum (flt (dg_lon g) 1000000));
                               (lit "altitude", jsonNum (dg_altitude g))]);
        (lit "drive", JObj [(lit "speed", JNum (flt (dg_speed g) 10)); (lit "direction", jsonNum (dg_dir g))]);
        (lit "time", jsonTime (dg_time g))].
(** api.go:37-49: mapstructure.Decode puts every field of the Device into the map under its Go name, a struct (such as the
    time.Time, which has no exported field) as a map of its fields, any other value (such as the net.Conn, a struct without
    exported fields) as it is; the location is added.  A map is written in the order of its keys. *)
Definition jsonDeviceGeo (flt : N -> N -> str) (d : device) (g : devgeo) : jvalue :=
  JObj [(lit "AuthCode", jsonText (d_auth d)); (lit "Conn", JObj []); (lit "ID", jsonText (d_id d)); (lit "IMEI", jsonText (d_imei d));
        (lit "Keepalive", jsonNum (Z.to_N (d_keep d) * 1000000)); (lit "LastestComTime", JObj []); (lit "Phone", jsonText (d_phone d));
        (lit "Plate", jsonText (d_plate d)); (lit "ProtocolVersion", jsonNum (d_proto d)); (lit "SessionID", jsonText (d_sid d));
        (lit "SoftwareVersion", jsonText (d_sw d)); (lit "Status", jsonNum (d_status d)); (lit "TransProto", JText (lit "TCP"));
        (lit "VersionDesc", jsonNum (versionNum (d_ver d))); (lit "gis", jsonGeo flt g)].
(** the values of HttpM.v; [err]: the text of the error *)
Definition render (tm : Z -> str) (flt : N -> N -> str) (err : str) (j : json) : jvalue :=
  match j with
  | JErr => JObj [(lit "err", jsonText err)]
  | JDevs ds => JArr (List.map (jsonDevice tm) ds)
  | JGeo d g => jsonDeviceGeo flt d g
  end.
