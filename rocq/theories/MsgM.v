(** Model of the message types, internal/protocol/model/msg_*.go, device_media.go *)
From Verif Require Import Base HexM TimeM HashM HeaderM ParamsM.
Local Open Scope N_scope.

(** model/session.go:55-60 PacketData.  Body is a slice of the unescaped packet, so it
    carries spare capacity. *)
Record packet : Type := mkPacket {
  pk_hdr : header; pk_body : slice; pk_code : N; pk_segdone : bool
}.

(** msg_0100.go:12-27 *)
Record reg : Type := mkReg {
  r_prov : N; r_city : N; r_manu : str; r_mode : str; r_devid : str;
  r_color : N; r_plate : str; r_locdesc : str
}.

(** msg_0200.go:8-18 *)
Record locrep : Type := mkLoc {
  l_alarm : N; l_status : N; l_lat : N; l_lon : N;
  l_altitude : N; l_speed : N; l_dir : N; l_time : str
}.

(** device_media.go:9-18; the time pointers are set by Decode and by the JSON
    binding in api.go, None is nil *)
Record mquery : Type := mkMQ {
  q_chan : N; q_start : option civil; q_end : option civil; q_alarm : N; q_alarmx : N;
  q_media : N; q_stream : N; q_storage : N
}.

(** One constructor per message struct, without the header.  Msg0801's fields
    (msg_0801.go:7-13) are never read or written by the code and are left out. *)
Inductive body : Type :=
| B0001 (sn id res : N)
| B0002 | B0003 | B0004
| B0100 (r : reg)
| B0102 (alen : N) (code imei sw : str)
| B0104 (sn cnt : N) (ps : option devparams)
| B0200 (l : locrep)
| B0800 | B0801
| B1205 (sn cnt : N) (q : mquery) (size : N)
| B8001 (sn id res : N)
| B8004 (t : option civil)
| B8100 (sn res : N) (code : str)
| B8103 (cnt : N) (ps : option devparams)
| B8104 | B8800
| B9205 (q : mquery).

Record msg : Type := mkMsg { m_hdr : header; m_body : body }.

(** the Go types, used to select a decoder (msg_processor.go:96-197 genData) *)
Inductive mkind : Type :=
| K0001 | K0002 | K0003 | K0004 | K0100 | K0102 | K0104 | K0200 | K0800 | K0801
| K1205 | K8001 | K8004 | K8100 | K8103 | K8104 | K8800 | K9205.

Definition kind_of (b : body) : mkind :=
  match b with
  | B0001 _ _ _ => K0001 | B0002 => K0002 | B0003 => K0003 | B0004 => K0004
  | B0100 _ => K0100 | B0102 _ _ _ _ => K0102 | B0104 _ _ _ => K0104 | B0200 _ => K0200
  | B0800 => K0800 | B0801 => K0801 | B1205 _ _ _ _ => K1205 | B8001 _ _ _ => K8001
  | B8004 _ => K8004 | B8100 _ _ _ => K8100 | B8103 _ _ => K8103 | B8104 => K8104
  | B8800 => K8800 | B9205 _ => K9205
  end.

(** strings.TrimRight(s, "\x00") *)
Fixpoint trimNul (s : str) : str :=
  match s with
  | [] => []
  | c :: t => match trimNul t with
              | [] => if c =? 0 then [] else [c]
              | t' => c :: t'
              end
  end.

(** fmt "%0wd" *)
Definition pad0 (w : nat) (s : str) : str := repeat 48 (w - length s) ++ s.

(** internal/codec/region/region.go:18-27 Parse(code).Name; the literal is "NotFound" *)
Definition regionName (o : oracle) (code : str) : str :=
  match o_region o code with
  | Some n => n
  | None => [78; 111; 116; 70; 111; 117; 110; 100]
  end.

(** pkt[idx:] handed to a decoder that starts again from index 0 *)
Definition rd_rest : rd slice := fun s i =>
  match sl_from s i with Ok t => Ok (t, i) | Err e => Err e | Panic => Panic end.
Definition rd_lift {A} (r : res A) : rd A := fun _ i =>
  match r with Ok a => Ok (a, i) | Err e => Err e | Panic => Panic end.

(** device_media.go:20-29 *)
Definition mqueryDecode (now : civil) : rd mquery :=
  (c <- ReadByte ;; t1 <- ReadTime now ;; t2 <- ReadTime now ;;
   a <- ReadDoubleWord ;; ax <- ReadDoubleWord ;;
   m <- ReadByte ;; s <- ReadByte ;; st <- ReadByte ;;
   rd_ret (mkMQ c (Some t1) (Some t2) a ax m s st))%rd.

(** device_media.go:31-41; a nil time pointer panics *)
Definition mqueryEncode (q : mquery) : res bytes :=
  match q_start q, q_end q with
  | Some t1, Some t2 =>
      let p := WriteByte [] (q_chan q) in
      let p := WriteTime p t1 in
      let p := WriteTime p t2 in
      let p := WriteDoubleWord p (q_alarm q) in
      let p := WriteDoubleWord p (q_alarmx q) in
      let p := WriteByte p (q_media q) in
      let p := WriteByte p (q_stream q) in
      Ok (WriteByte p (q_storage q))
  | _, _ => Panic
  end.

(** device_media.go:48-52 *)
Definition mediaDecode (now : civil) : rd (mquery * N) :=
  (q <- mqueryDecode now ;; sz <- ReadDoubleWord ;; rd_ret (q, sz))%rd.

(** msg_0100.go:29-61; [bl] is Header.Attr.BodyLength.  The assignment to [ver] on
    line 46 changes a local pointer only. *)
Definition dec0100 (o : oracle) (h : header) : rd body :=
  (prov <- ReadWord ;;
   city <- ReadWord ;;
   idx <- rd_idx ;;
   let bl := Z.of_N (a_len (h_attr h)) in
   lens <- (match a_ver (h_attr h) with
            | V2019 => rd_ret (11, 30, 30)%Z
            | V2013 => if (33 <? bl - Z.of_nat idx)%Z then rd_ret (5, 20, 7)%Z
                       else rd_ret (5, 8, 7)%Z
            | V2011 => rd_fail ErrDecodeMsg
            end) ;;
   let '(manuLen, modeLen, idLen) := lens in
   manu <- ReadString manuLen ;;
   mode <- ReadString modeLen ;;
   did <- ReadString idLen ;;
   color <- ReadByte ;;
   idx <- rd_idx ;;
   plate <- ReadGBK o (bl - Z.of_nat idx) ;;
   rd_ret (B0100 (mkReg prov city (trimNul manu) (trimNul mode) (trimNul did) color plate
                        (regionName o (pad0 2 (itoa prov) ++ pad0 4 (itoa city))))))%rd.

(** msg_0102.go:18-31 *)
Definition dec0102 (h : header) : rd body :=
  (match a_ver (h_attr h) with
   | V2013 =>
       idx <- rd_idx ;;
       code <- ReadString (Z.of_N (a_len (h_attr h)) - Z.of_nat idx) ;;
       rd_ret (B0102 0 code [] [])
   | V2019 =>
       al <- ReadByte ;;
       code <- ReadString (Z.of_N al) ;;
       imei <- ReadString 15 ;;
       sw <- ReadString 20 ;;
       rd_ret (B0102 al code imei (trimNul sw))
   | V2011 => rd_ret (B0102 0 [] [] [])
   end)%rd.

(** msg_0200.go:20-32 *)
Definition dec0200 : rd body :=
  (al <- ReadDoubleWord ;; st <- ReadDoubleWord ;; lat <- ReadDoubleWord ;;
   lon <- ReadDoubleWord ;; alt <- ReadWord ;; sp <- ReadWord ;; dir <- ReadWord ;;
   t <- ReadBCD 6 ;;
   rd_ret (B0200 (mkLoc al st lat lon alt sp dir t)))%rd.

(** The Decode method of each message type: msg_0001.go:15-23, msg_0002.go:9-12,
    msg_0003.go:9-12, msg_0004.go:9-12, msg_0104.go:19-31 and msg_8103.go:17-28
    (DeviceParams.Decode never returns an error), msg_0800.go:8-11, msg_0801.go:16-19,
    msg_1205.go:17-24, msg_8001.go:24-32, msg_8004.go:15-20, msg_8100.go:25-32,
    msg_8104.go:8-11, msg_8800.go:8-11, msg_9205.go:9-14.  [now] stands for every
    time.Now() taken by ParseTime during the call. *)
Definition decBody (o : oracle) (now : civil) (k : mkind) (h : header) : rd body :=
  (match k with
   | K0001 => sn <- ReadWord ;; id <- ReadWord ;; r <- ReadByte ;; rd_ret (B0001 sn id r)
   | K0002 => rd_ret B0002
   | K0003 => rd_ret B0003
   | K0004 => rd_ret B0004
   | K0100 => dec0100 o h
   | K0102 => dec0102 h
   | K0104 =>
       sn <- ReadWord ;; cnt <- ReadByte ;; rest <- rd_rest ;;
       ps <- rd_lift (paramsDecode o (h_phone h) cnt rest) ;;
       rd_ret (B0104 sn cnt (Some ps))
   | K0200 => dec0200
   | K0800 => rd_ret B0800
   | K0801 => rd_ret B0801
   | K1205 =>
       sn <- ReadWord ;; cnt <- ReadDoubleWord ;; rest <- rd_rest ;;
       m <- rd_lift (mediaDecode now rest O) ;;
       rd_ret (B1205 sn cnt (fst (fst m)) (snd (fst m)))
   | K8001 => sn <- ReadWord ;; id <- ReadWord ;; r <- ReadByte ;; rd_ret (B8001 sn id r)
   | K8004 => t <- ReadTime now ;; rd_ret (B8004 (Some t))
   | K8100 =>
       sn <- ReadWord ;; r <- ReadByte ;; idx <- rd_idx ;;
       code <- ReadString (Z.of_N (a_len (h_attr h)) - Z.of_nat idx) ;;
       rd_ret (B8100 sn r code)
   | K8103 =>
       cnt <- ReadByte ;; rest <- rd_rest ;;
       ps <- rd_lift (paramsDecode o (h_phone h) cnt rest) ;;
       rd_ret (B8103 cnt (Some ps))
   | K8104 => rd_ret B8104
   | K8800 => rd_ret B8800
   | K9205 => q <- mqueryDecode now ;; rd_ret (B9205 q)
   end)%rd.

(** JT808Msg.Decode(packet) *)
Definition msgDecode (o : oracle) (now : civil) (k : mkind) (p : packet) : res msg :=
  rmap (fun r => mkMsg (pk_hdr p) (fst r)) (decBody o now k (pk_hdr p) (pk_body p) O).

(** msg_0100.go:78-110: zero-fill or truncate to the field width *)
Definition fillTo (n : nat) (s : str) : bytes :=
  if (n <? length s)%nat then firstn n s else s ++ repeat 0 (n - length s).
(** msg_0102.go:44-56: zero-fill only *)
Definition fillOnly (n : nat) (s : str) : bytes := s ++ repeat 0 (n - length s).

(** msg_0100.go:63-117 *)
Definition enc0100 (o : oracle) (h : header) (r : reg) : bytes :=
  let p := WriteWord [] (r_prov r) in
  let p := WriteWord p (r_city r) in
  let '(ml, dl, il) := match a_ver (h_attr h) with
                       | V2019 => (11, 30, 30)%nat
                       | V2013 => (5, 20, 7)%nat
                       | V2011 => (5, 8, 7)%nat
                       end in
  let p := p ++ fillTo ml (r_manu r) in
  let p := p ++ fillTo dl (r_mode r) in
  let p := p ++ fillTo il (r_devid r) in
  let p := WriteByte p (r_color r) in
  WriteGBK o p (r_plate r).

(** msg_0102.go:33-57 *)
Definition enc0102 (h : header) (code imei sw : str) : bytes :=
  match a_ver (h_attr h) with
  | V2013 | V2011 => code
  | V2019 =>
      let p := WriteByte [] (N.of_nat (length code) mod 256) in
      let p := WriteString p code in
      let p := p ++ fillOnly 15 imei in
      p ++ fillOnly 20 sw
  end.

(** msg_0200.go:34-42 *)
Definition enc0200 (l : locrep) : bytes :=
  let p := WriteDoubleWord [] (l_alarm l) in
  let p := WriteDoubleWord p (l_status l) in
  let p := WriteDoubleWord p (l_lat l) in
  let p := WriteDoubleWord p (l_lon l) in
  let p := WriteWord p (l_altitude l) in
  let p := WriteWord p (l_speed l) in
  let p := WriteWord p (l_dir l) in
  WriteBCD p (l_time l).

(** The body written by each Encode method: msg_0001.go:26-28, msg_0104.go:34-41
    (DeviceParams.Encode dereferences a nil Parameters), msg_1205.go:27-29,
    msg_8001.go:35-37, msg_8004.go:23, msg_8100.go:35-37, msg_8103.go:33-38,
    msg_9205.go:17; the others have an empty body. *)
Definition encBody (o : oracle) (h : header) (b : body) : res bytes :=
  match b with
  | B0001 sn id r | B8001 sn id r => Ok (WriteByte (WriteWord (WriteWord [] sn) id) r)
  | B0002 | B0003 | B0004 | B0800 | B0801 | B8104 | B8800 => Ok []
  | B0100 r => Ok (enc0100 o h r)
  | B0102 _ code imei sw => Ok (enc0102 h code imei sw)
  | B0104 sn _ ps =>
      match ps with
      | Some d => rmap (WriteBytes (WriteWord [] sn)) (paramsEncode o d)
      | None => Panic
      end
  | B0200 l => Ok (enc0200 l)
  | B1205 sn cnt q size =>
      rmap (fun m => WriteBytes (WriteDoubleWord (WriteWord [] sn) cnt)
                                (WriteDoubleWord m size)) (mqueryEncode q)
  | B8004 t => match t with Some c => Ok (WriteTime [] c) | None => Panic end
  | B8100 sn r code => Ok (WriteString (WriteByte (WriteWord [] sn) r) code)
  | B8103 _ ps => match ps with Some d => paramsEncode o d | None => Panic end
  | B9205 q => mqueryEncode q
  end.

(** JT808Msg.Encode(): body, then writeHeader.  Encode also stores BodyLength (and
    for 0102 AuthCodeLen) in the message struct; nothing reads them afterwards. *)
Definition msgEncode (o : oracle) (m : msg) : res bytes :=
  rmap (writeHeader (m_hdr m)) (encBody o (m_hdr m) (m_body m)).

(** JT808Msg.GenOutgoing(incoming) for a zero outgoing message of kind [k]; the
    header pointer is shared, so the result is also the header the incoming message
    has afterwards.  msg_0001.go:38-47, msg_0102.go:67-78, msg_0104.go:51-61,
    msg_1205.go:39-49, msg_8001.go:47-57, msg_8004.go:33-42 (unchecked type
    assertion), msg_8100.go:47-60 ("AuthCode"); the remaining types return nil without
    setting anything, leaving a nil header: modelled as [Ok None]. *)
Definition genOutgoing (now : civil) (k : mkind) (inc : msg) : res (option msg) :=
  let h := m_hdr inc in
  match k with
  | K0001 => Ok (Some (mkMsg (hdr_set_id h 0x0001) (B0001 (h_sn h) (h_id h) 0)))
  | K8001 => Ok (Some (mkMsg (hdr_set_id h 0x8001) (B8001 (h_sn h) (h_id h) 0)))
  | K0102 =>
      match m_body inc with
      | B8100 _ _ code =>
          Ok (Some (mkMsg (hdr_set_id h 0x0102)
                          (B0102 (N.of_nat (length code) mod 256) code [] [])))
      | _ => Err ErrGenOutgoingMsg
      end
  | K0104 =>
      match m_body inc with
      | B8104 => Ok (Some (mkMsg (hdr_set_id h 0x0104) (B0104 (h_sn h) 0 None)))
      | _ => Err ErrGenOutgoingMsg
      end
  | K1205 =>
      match m_body inc with
      | B9205 _ => Ok (Some (mkMsg (hdr_set_id h 0x1205)
                                   (B1205 (h_sn h) 0 (mkMQ 0 None None 0 0 0 0 0) 0)))
      | _ => Err ErrGenOutgoingMsg
      end
  | K8004 =>
      match m_body inc with
      | B0004 => Ok (Some (mkMsg (hdr_set_id h 0x8004) (B8004 (Some now))))
      | _ => Panic
      end
  | K8100 =>
      match m_body inc with
      | B0100 _ => Ok (Some (mkMsg (hdr_set_id h 0x8100)
                             (B8100 (h_sn h) 0 [65; 117; 116; 104; 67; 111; 100; 101])))
      | _ => Err ErrGenOutgoingMsg
      end
  | _ => Ok None
  end.
