(** Model of internal/protocol/msg_processor.go, keepalive.go and of the segment part of
    packet_codec.go *)
From Coq Require Import String Ascii.
From stdpp Require Import gmap.
From Verif Require Import Base HexM TimeM HashM HeaderM ParamsM GeoM MsgM PacketM ProgM RingM StateM.
Local Open Scope N_scope.

(** The environment of a call: code outside the repository, and the civil time that
    corresponds to a clock reading (time.Now() as used by ParseTime). *)
Record env : Type := mkEnv { e_o : oracle; e_civil : Z -> civil }.

Definition lift {A} (r : res A) : sp A := Ret r.

(** packet_codec.go:48-79 Decode.  Lines 69-74: the segment goes to the cache, and the
    body becomes seg.Data, the data of the segment just received. *)
Definition decodeP (e : env) (payload : bytes) : sp packet :=
  (p <- lift (decodePacket (e_o e) payload) ;;
   if isFragmented (pk_hdr p) then
     match h_frag (pk_hdr p) with
     | None => panic
     | Some f =>
         done <- cacheSegment (mkSeg (h_phone (pk_hdr p)) (h_id (pk_hdr p))
                                     (f_total f) (f_index f) (sl_data (pk_body p))) ;;
         ret (mkPacket (pk_hdr p) (pk_body p) (pk_code p) done)
     end
   else ret p)%prog.

(** msg_processor.go:42-121 initProcessOption: id, type of the incoming message, type of
    the outgoing one *)
Definition optionTable : list (N * (mkind * option mkind)) :=
  [(0x0001, (K0001, None)); (0x0002, (K0002, Some K8001)); (0x0003, (K0003, Some K8001));
   (0x0100, (K0100, Some K8100)); (0x0102, (K0102, Some K8001)); (0x0104, (K0104, None));
   (0x0200, (K0200, Some K8001)); (0x1205, (K1205, None)); (0x8001, (K8001, None));
   (0x8100, (K8100, Some K0102)); (0x8103, (K8103, Some K0001)); (0x8104, (K8104, Some K0104));
   (0x9205, (K9205, Some K1205))].

(** msg_processor.go:328-337 genAuthCode *)
Definition genAuthCode (d : device) : str :=
  itoa (FNV32 (d_id d ++ 95 :: d_plate d ++ 95 :: d_phone d)).

(** model/device.go:42-56 NewDevice *)
Definition newDevice (h : header) (r : reg) (x : session) (now : Z) : device :=
  mkDevice (r_devid r) (r_plate r) (h_phone h) (ss_id x) (ss_conn x) 60000 now Offline
           (a_ver (h_attr h)) (h_proto h) [] [] [].

(** model/device.go:58-61 ShouleTurnOffline, :63-66 ShouldClear: the clock is read first, then the status,
    then, if the status is the one asked for, the time of the last message *)
Definition shouldTurnOffline (l : nat) : sp bool :=
  (now <- getNow ;;
   dv <- readDev l ;;
   if d_status dv =? Offline then ret false
   else dv' <- readDev l ;; ret (d_keep dv' + d_last dv' <? now)%Z)%prog.
Definition shouldClear (l : nat) : sp bool :=
  (now <- getNow ;;
   dv <- readDev l ;;
   if d_status dv =? Offline then dv' <- readDev l ;; ret (d_keep dv' + d_last dv' <? now)%Z
   else ret false)%prog.

(** model/device.go:77-90 DeviceGeo.Decode, with Location.Decode (103-107) and Drive.Decode
    (114-117) *)
Definition geoOf (now : civil) (phone : str) (m : locrep) : devgeo :=
  mkDevGeo phone (geoDecode (l_status m)) (l_lat m) (l_lon m) (l_altitude m)
           (l_speed m) (l_dir m) (ParseTime now (l_time m)).

(** keepalive.go:31-40 Register *)
Definition timerRegister (phone : str) : sp unit :=
  (d <- getDeviceByPhone phone ;;
   match d with None => ret tt | Some _ => timerAdd phone end)%prog.

(** msg_processor.go:213-231 processSegmentPacket; a missing session is a nil pointer *)
Definition processSegment (p : packet) : sp (option msg) :=
  (d <- getDeviceByPhone (h_phone (pk_hdr p)) ;;
   match d with
   | None => fail ErrDeviceNotFound
   | Some l =>
       dv <- readConst l ;;
       x <- getSession (d_sid dv) ;;
       match x with
       | None => panic
       | Some sl =>
           sn <- nextSerial sl ;;
           ret (Some (mkMsg (genMsgHeader (d_ver dv) (d_proto dv) (d_phone dv) 0x8001 sn)
                            (B8001 (h_sn (pk_hdr p)) (h_id (pk_hdr p)) 0)))
       end
   end)%prog.

(** msg_processor.go:234-247 *)
Definition process0002 (inc out : msg) : sp msg :=
  (d <- getDeviceByPhone (h_phone (m_hdr inc)) ;;
   match d with
   | None => fail ErrDeviceNotFound
   | Some l =>
       now <- getNow ;;
       writeDev l (fun d => dset_last d now) ;;;
       cacheDevice l ;;;
       ret out
   end)%prog.

(** msg_processor.go:250-264 *)
Definition process0003 (inc out : msg) : sp msg :=
  (d <- getDeviceByPhone (h_phone (m_hdr inc)) ;;
   match d with
   | None => fail ErrDeviceNotFound
   | Some l =>
       dv <- readConst l ;;
       timerCancel (d_phone dv) ;;;
       delDeviceByPhone (d_phone dv) ;;;
       ret out
   end)%prog.

Definition set8100 (out : msg) (r : N) (code : str) : msg :=
  match m_body out with
  | B8100 sn _ _ => mkMsg (m_hdr out) (B8100 sn r code)
  | _ => out
  end.
(** msg_processor.go:267-293; on the refusals only Result is set, AuthCode keeps what
    GenOutgoing put there.  [sl] is the session of the connection. *)
Definition process0100 (sl : nat) (inc : msg) (r : reg) (out : msg) : sp msg :=
  let res x := match m_body out with
               | B8100 sn _ code => mkMsg (m_hdr out) (B8100 sn x code) | _ => out end in
  (b <- hasPlate (r_plate r) ;;
   if (b : bool) then ret (res 1)
   else b <- hasPhone (h_phone (m_hdr inc)) ;;
   if (b : bool) then ret (res 3)
   else x <- readSess sl ;;
        now <- getNow ;;
        let d := newDevice (m_hdr inc) r x now in
        l <- allocDev d ;;
        cacheDevice l ;;;
        timerRegister (d_phone d) ;;;
        ret (set8100 out 0 (genAuthCode d)))%prog.

(** msg_processor.go:296-326 *)
Definition process0102 (inc : msg) (code imei sw : str) (out : msg) : sp msg :=
  (d <- getDeviceByPhone (h_phone (m_hdr inc)) ;;
   match d with
   | None => fail ErrDeviceNotFound
   | Some l =>
       dv <- readConst l ;;
       if bool_decide (code = genAuthCode dv) then
         writeDev l (fun d => dset_status d Online) ;;;
         now <- getNow ;;
         writeDev l (fun d => dset_last d now) ;;;
         writeDev l (fun d => dset_auth d code imei sw) ;;;
         cacheDevice l ;;;
         ret out
       else
         timerCancel (d_phone dv) ;;;
         delDeviceByPhone (d_phone dv) ;;;
         ret (match m_body out with
              | B8001 sn id _ => mkMsg (m_hdr out) (B8001 sn id 1) | _ => out end)
   end)%prog.

(** msg_processor.go:346-374 *)
Definition process0200 (e : env) (inc : msg) (m : locrep) (out : msg) : sp msg :=
  (d <- getDeviceByPhone (h_phone (m_hdr inc)) ;;
   match d with
   | None => fail ErrDeviceNotFound
   | Some l =>
       dv <- readConst l ;;
       now <- getNow ;;
       let dg := geoOf (e_civil e now) (d_phone dv) m in
       (if g_acc (dg_meta dg) =? 0 then
          writeDev l (fun d => dset_status d Sleeping) ;;;
          now <- getNow ;;
          writeDev l (fun d => dset_last d now) ;;;
          cacheDevice l
        else ret tt) ;;;
       rl <- getGeoRingByPhone (d_phone dv) ;;
       onRing rl (ringWrite rl (Some dg)) ;;;
       ret out
   end)%prog.

(** msg_processor.go:376-397 *)
Definition process8001 (inc : msg) (r : N) : sp unit :=
  (if r =? 0 then
     d <- getDeviceByPhone (h_phone (m_hdr inc)) ;;
     match d with
     | None => fail ErrActiveClose
     | Some l =>
         dv <- readDev l ;;
         if d_status dv =? Offline then
           writeDev l (fun d => dset_status d Online) ;;;
           now <- getNow ;;
           writeDev l (fun d => dset_last d now) ;;;
           cacheDevice l
         else ret tt
     end
   else ret tt)%prog.

(** msg_processor.go:400-414 *)
Definition process8100 (inc out : msg) : sp msg :=
  (d <- getDeviceByPhone (h_phone (m_hdr inc)) ;;
   match d with
   | None => fail ErrActiveClose
   | Some l =>
       dv <- readDev l ;;
       ret (match m_body out with
            | B0102 al code _ _ => mkMsg (m_hdr out) (B0102 al code (d_imei dv) (d_sw dv))
            | _ => out end)
   end)%prog.

(** msg_processor.go:417-429; the nil case of Parameters does not occur after Decode *)
Definition process8103 (inc : msg) (ps : option devparams) (out : msg) : sp msg :=
  (c <- getDeviceParamsByPhone (h_phone (m_hdr inc)) ;;
   match ps with
   | None => panic
   | Some d =>
       cacheDeviceParams (match c with None => d | Some old => paramsUpdate old d end) ;;;
       ret out
   end)%prog.

(** msg_processor.go:440-477: the literal (transcribed by script) *)
Definition strOf (s : string) : str := List.map N_of_ascii (list_ascii_of_string s).
Definition paramByteStr : str :=
  List.concat (List.map strOf (
      "00000001044B68767300000002046E764E65000000030449716B57000000040452704A360000"%string ::
      "000504524D6D5200000006043535774E00000007044743525A000000101058676767375A3558"%string ::
      "584B44376E625661000000111035625067564C37537A4C616672774E36000000121048684E76"%string ::
      "69576777494D6E493555624D000000131064527432655967746479316A464857450000001410"%string ::
      "676554657949565F7A537362694A6E540000001510556F686858517153356577357538556200"%string ::
      "0000161068336D7550796A6E584D387933587173000000171075397A57597452444C4863614E"%string ::
      "6A527800000018044E586A4F000000190438646C690000001A104E30775635786D4A664D6F63"%string ::
      "386166500000001B04626C36760000001C04383665370000001D104F344C42704B737445687A"%string ::
      "4F4C5646350000002004386C525500000021045041666E000000220457456B39000000231061"%string ::
      "38334C43765737546D5051736E31520000002410427559785F4937584E694F63364E4D490000"%string ::
      "002510653756707A595579763576596433346C0000002610544E376C476643386A4B4D496E4C"%string ::
      "396700000027045057586E0000002804674C636C0000002904474F6A640000002C0445493157"%string ::
      "0000002D04634E507A0000002E04534454420000002F04525F647A00000030045A4A68300000"%string ::
      "0031026C640000003204093021300000007623030000010100010202000103030001"%string ::
      [])).
(** msg_processor.go:432-485 *)
Definition process8104 (e : env) (out : msg) : sp msg :=
  let set d := match m_body out with
               | B0104 sn cnt _ => mkMsg (m_hdr out) (B0104 sn cnt (Some d)) | _ => out end in
  (c <- getDeviceParamsByPhone (h_phone (m_hdr out)) ;;
   match c with
   | None =>
       d <- lift (paramsDecode (e_o e) (h_phone (m_hdr out)) 39 (Str2Byte_slice paramByteStr)) ;;
       cacheDeviceParams d ;;;
       ret (set d)
   | Some d => ret (set d)
   end)%prog.

(** msg_processor.go:487-502 *)
Definition process9205 (q : mquery) (out : msg) : sp msg :=
  ret (match m_body out with
       | B1205 sn _ _ size =>
           mkMsg (m_hdr out) (B1205 sn 1 (mkMQ (q_chan q) (q_start q) (q_end q) 0 0 0 0 0) size)
       | _ => out end).

(** msg_processor.go:141-211 Process, for the session [sl].  The result is the outgoing
    message, None when there is none.  The JSON encodings for the debug log (lines 162-171,
    181-193) are left out. *)
Definition process (e : env) (sl : nat) (p : packet) : sp (option msg) :=
  match lookupN optionTable (h_id (pk_hdr p)) with
  | None => fail ErrMsgIDNotSupportted
  | Some (ik, ok) =>
      if isFragmented (pk_hdr p) && negb (pk_segdone p) then processSegment p
      else
        (now <- getNow ;;
         inc <- lift (msgDecode (e_o e) (e_civil e now) ik p) ;;
         match ok with
         | None =>
             match m_body inc with
             | B8001 _ _ r => process8001 inc r ;;; ret None
             | _ => ret None
             end
         | Some k =>
             now <- getNow ;;
             g <- lift (genOutgoing (e_civil e now) k inc) ;;
             match g with
             | None => ret None
             | Some out =>
                 out <- match m_body inc with
                        | B0002 => process0002 inc out
                        | B0003 => process0003 inc out
                        | B0100 r => process0100 sl inc r out
                        | B0102 _ code imei sw => process0102 inc code imei sw out
                        | B0200 m => process0200 e inc m out
                        | B8100 _ _ _ => process8100 inc out
                        | B8103 _ ps => process8103 inc ps out
                        | B8104 => process8104 e out
                        | B9205 q => process9205 q out
                        | _ => ret out
                        end ;;
                 ret (Some out)
             end
         end)%prog
  end.

(** keepalive.go:65-86 checkDeviceKeepalive: after the Cancel of line 72 the nil device is
    dereferenced *)
Definition checkKeepalive (phone : str) : sp unit :=
  (d <- getDeviceByPhone phone ;;
   match d with
   | None => timerCancel phone ;;; panic
   | Some l =>
       b <- shouldTurnOffline l ;;
       if (b : bool) then
         writeDev l (fun d => dset_status d Offline) ;;;
         cacheDevice l
       else
         b <- shouldClear l ;;
         if (b : bool) then
           dv <- readConst l ;;
           connClose (d_conn dv) ;;;
           delDeviceByPhone phone ;;;
           delGeoByPhone phone ;;;
           timerCancel phone
         else ret tt
   end)%prog.
