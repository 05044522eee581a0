(** Specification vocabulary for the codec properties: what a frame, a wire header, a
    calendar time, ... is.  Nothing here mentions how the code computes; the only model
    names used are the record types of the data and, for texts and region names, the
    external oracles. *)
From Verif Require Import Base HexM TimeM HashM HeaderM ParamsM MsgM PacketM.
Local Open Scope N_scope.

(** * Streams and frames *)
Definition delim : N := 0x7e.
Definition no_delim (l : bytes) : Prop := ~ In delim l.
(** a frame: content without delimiter between two delimiters *)
Definition framed (c : bytes) : bytes := delim :: c ++ [delim].

(** every 0x7d is the start of an escape pair, and no 0x7e occurs *)
Inductive well_escaped : bytes -> Prop :=
| we_nil : well_escaped []
| we_plain v l : v <> 0x7e -> v <> 0x7d -> well_escaped l -> well_escaped (v :: l)
| we_esc v l : v = 0x01 \/ v = 0x02 -> well_escaped l -> well_escaped (0x7d :: v :: l).

(** [e] is [p] with 0x7e written as 0x7d 0x02 and 0x7d as 0x7d 0x01 *)
Inductive escapes : bytes -> bytes -> Prop :=
| es_nil : escapes [] []
| es_plain v p e : v <> 0x7e -> v <> 0x7d -> escapes p e -> escapes (v :: p) (v :: e)
| es_7e p e : escapes p e -> escapes (0x7e :: p) (0x7d :: 0x02 :: e)
| es_7d p e : escapes p e -> escapes (0x7d :: p) (0x7d :: 0x01 :: e).

(** exclusive or of all bytes *)
Fixpoint xor_sum (l : bytes) : N :=
  match l with [] => 0 | b :: t => N.lxor b (xor_sum t) end.

(** junk, frame, junk, frame, ..., tail *)
Fixpoint interleaved (js fs : list bytes) (tail : bytes) : bytes :=
  match fs with
  | [] => tail
  | f :: fs' => hd [] js ++ f ++ interleaved (tl js) fs' tail
  end.

(** * Numbers and digit strings on the wire *)
Definition U16 (n : N) : bytes := [n / 256; n mod 256].
Definition U32 (n : N) : bytes :=
  [n / 16777216; n / 65536 mod 256; n / 256 mod 256; n mod 256].
(** '0'..'9' *)
Definition digits (s : str) : bool := forallb (fun c => (48 <=? c) && (c <=? 57)) s.
(** two decimal digits per byte *)
Fixpoint BCD (s : str) : bytes :=
  match s with a :: b :: t => ((a - 48) * 16 + (b - 48)) :: BCD t | _ => [] end.
(** NUL-padded text field *)
Definition padded (n : nat) (s : str) : bytes := s ++ repeat 0 (n - length s).
(** value of a hexadecimal digit *)
Definition hex_val (c : N) : option N :=
  if (48 <=? c) && (c <? 58) then Some (c - 48)
  else if (65 <=? c) && (c <? 71) then Some (c - 65 + 10)
  else if (97 <=? c) && (c <? 103) then Some (c - 97 + 10)
  else None.
(** the string spells these bytes, two hexadecimal digits each *)
Inductive hex_spells : str -> bytes -> Prop :=
| hs_nil : hex_spells [] []
| hs_cons a b x y s l : hex_val a = Some x -> hex_val b = Some y -> hex_spells s l ->
    hex_spells (a :: b :: s) ((x * 16 + y) :: l).
(** both nibbles of the byte are decimal digits *)
Definition bcdByte (b : N) : bool := (b / 16 <? 10) && (b mod 16 <? 10).
(** fits a text field of n bytes and does not end in NUL *)
Definition text_fits (n : nat) (s : str) : Prop :=
  (length s <= n)%nat /\ (s = [] \/ exists t c, s = t ++ [c] /\ c <> 0).
(** s is representable in GBK, as g *)
Definition gbk_fits (o : oracle) (s : str) (g : bytes) : Prop :=
  o_gbk_enc o s = Some g /\ o_gbk_dec o g = Some s.

(** * Calendar times *)
Definition leap (y : N) : Prop := y mod 4 = 0 /\ (y mod 100 <> 0 \/ y mod 400 = 0).
Definition civil_valid (t : civil) : Prop :=
  1 <= c_month t <= 12 /\ 1 <= c_day t <= 31
  /\ (In (c_month t) [4; 6; 9; 11] -> c_day t <= 30)
  /\ (c_month t = 2 -> c_day t <= 29) /\ (c_month t = 2 -> ~ leap (c_year t) -> c_day t <= 28)
  /\ c_hour t < 24 /\ c_min t < 60 /\ c_sec t < 60.
Definition year_window (t : civil) : Prop := 1969 <= c_year t <= 2068.
(** the twelve digits YYMMDDhhmmss *)
Definition d2 (n : N) : str := [48 + n / 10 mod 10; 48 + n mod 10].
Definition time_digits (t : civil) : str :=
  d2 (c_year t mod 100) ++ d2 (c_month t) ++ d2 (c_day t)
  ++ d2 (c_hour t) ++ d2 (c_min t) ++ d2 (c_sec t).

(** * Headers *)
(** every field within its bits, the descriptions agreeing with the raw fields *)
Definition attr_wf (a : attr) : Prop :=
  a_len a < 1024 /\ a_enc a < 8 /\ a_frag a < 2 /\ a_sign a < 2 /\ a_extra a < 2
  /\ a_encd a = (if a_enc a =? 0 then EncNone else if a_enc a =? 1 then EncRSA else EncUnknown)
  /\ a_fragd a = (a_frag a =? 1)
  /\ a_ver a = (if a_sign a =? 1 then V2019 else V2013).
(** the attribute word: length in bits 0-9, encryption 10-12, fragmentation 13,
    version 14, reserved 15 *)
Definition attr_word (a : attr) : N :=
  a_len a + 1024 * a_enc a + 8192 * a_frag a + 16384 * a_sign a + 32768 * a_extra a.

Definition phone_digits (v : version) : nat := match v with V2019 => 20 | _ => 12 end.
Definition frag_wf (f : frag) : Prop := f_total f < 65536 /\ f_index f < 65536.
Definition hdr_wf (h : header) : Prop :=
  h_id h < 65536 /\ attr_wf (h_attr h) /\ h_sn h < 65536
  /\ digits (h_phone h) = true /\ length (h_phone h) = phone_digits (a_ver (h_attr h))
  /\ (if version_eqb (a_ver (h_attr h)) V2019 then h_proto h < 256 else h_proto h = 0)
  /\ (if a_fragd (h_attr h) then exists f, h_frag h = Some f /\ frag_wf f else h_frag h = None).
(** JT/T 808 header layout *)
Definition header_layout (h : header) : bytes :=
  U16 (h_id h) ++ U16 (attr_word (h_attr h))
  ++ (if version_eqb (a_ver (h_attr h)) V2019 then [h_proto h] else [])
  ++ BCD (h_phone h) ++ U16 (h_sn h)
  ++ (match h_frag h with Some f => U16 (f_total f) ++ U16 (f_index f) | None => [] end).

(** * Parameters *)
(** A value of the type its id requires, as the wire can carry it: the number (from the
    wire or from JSON) in range, or the text; and the value as a receiver holds it. *)
Inductive value_fits (o : oracle) : pkind -> pval -> bytes -> pval -> Prop :=
| vf_u8 n : n < 256 -> value_fits o PByte (VU8 n) [n] (VU8 n)
| vf_f8 z : (0 <= z < 256)%Z -> value_fits o PByte (VF64 z) [Z.to_N z] (VU8 (Z.to_N z))
| vf_u16 n : n < 65536 -> value_fits o PWord (VU16 n) (U16 n) (VU16 n)
| vf_f16 z : (0 <= z < 65536)%Z -> value_fits o PWord (VF64 z) (U16 (Z.to_N z)) (VU16 (Z.to_N z))
| vf_u32 n : n < 4294967296 -> value_fits o PDword (VU32 n) (U32 n) (VU32 n)
| vf_f32 z : (0 <= z < 4294967296)%Z ->
    value_fits o PDword (VF64 z) (U32 (Z.to_N z)) (VU32 (Z.to_N z))
| vf_bcd s : digits s = true -> (8 <= length s <= 510)%nat -> Nat.even (length s) = true ->
    value_fits o PBytes (VStr s) (BCD s) (VStr s)
| vf_bcd_short s : digits s = true -> (length s < 8)%nat -> Nat.even (length s) = true ->
    value_fits o PBytes (VStr s) (repeat 255 (4 - length s / 2) ++ BCD s) (VStr s)
| vf_str s : (length s < 256)%nat -> value_fits o PString (VStr s) s (VStr s)
| vf_gbk s g : gbk_fits o s g -> (length g < 256)%nat -> value_fits o PGBK (VStr s) g (VStr s).

(** the parameters of JT/T 808-2019 table 12 (with 0x18, 0x19 of the 2013 edition) and of JT/T 1078
    table 2 by type *)
Definition between (a b x : N) : bool := (a <=? x) && (x <=? b).
Definition paramType (id : N) : option pkind :=
  if between 0x01 0x07 id || between 0x18 0x19 id || between 0x1b 0x1c id || between 0x20 0x22 id
     || between 0x27 0x29 id || between 0x2c 0x30 id || between 0x45 0x47 id || between 0x50 0x5a id
     || between 0x64 0x65 id || between 0x70 0x74 id || (id =? 0x80) || (id =? 0x93) || (id =? 0x95)
     || (id =? 0x100) || (id =? 0x102) then Some PDword
  else if (id =? 0x31) || between 0x5b 0x5e id || between 0x81 0x82 id || (id =? 0x101) || (id =? 0x103)
       then Some PWord
  else if (id =? 0x84) || between 0x90 0x92 id || (id =? 0x94) then Some PByte
  else if between 0x10 0x17 id || (id =? 0x1a) || (id =? 0x1d) || between 0x23 0x26 id || between 0x40 0x44 id
          || between 0x48 0x49 id || (id =? 0x83) then Some PGBK
  else if (id =? 0x32) || between 0x75 0x77 id || between 0x79 0x7c id then Some PBytes
  else if id =? 0x110 then Some PString
  else None.

(** [p] is sent as the bytes [w] and received as [q] *)
Definition param_sent (o : oracle) (p : param) (w : bytes) (q : param) : Prop :=
  exists k v, paramType (p_id p) = Some k /\ p_id p < 4294967296
    /\ value_fits o k (p_val p) v (p_val q)
    /\ p_id q = p_id p /\ p_len q = N.of_nat (length v)
    /\ w = U32 (p_id p) ++ [N.of_nat (length v)] ++ v.
Inductive params_list_sent (o : oracle) : list param -> bytes -> list param -> Prop :=
| pls_nil : params_list_sent o [] [] []
| pls_cons p w q ps ws qs : param_sent o p w q -> params_list_sent o ps ws qs ->
    params_list_sent o (p :: ps) (w ++ ws) (q :: qs).
Definition params_sent (o : oracle) (d : devparams) (w : bytes) (e : devparams) : Prop :=
  (length (dp_list d) < 256)%nat /\ dp_cnt d = N.of_nat (length (dp_list d))
  /\ dp_cnt e = dp_cnt d
  /\ exists v, params_list_sent o (dp_list d) v (dp_list e) /\ w = [dp_cnt d] ++ v.

(** the received value is the sent one; a JSON number arrives as that integer *)
Definition same_value (v v' : pval) : Prop :=
  match v with
  | VF64 z => exists n, Z.of_N n = z /\ (v' = VU8 n \/ v' = VU16 n \/ v' = VU32 n)
  | _ => v' = v
  end.
(** the last parameter of the list with this id *)
Definition last_with (id : N) (l : list param) : option param :=
  find (fun q => p_id q =? id) (rev l).

(** * Message bodies *)
(** canonical decimal notation *)
Definition dec_value (s : str) : N := fold_left (fun a c => 10 * a + (c - 48)) s 0.
Definition decimal (s : str) (n : N) : Prop :=
  s <> [] /\ Forall (fun c => 48 <= c <= 57) s /\ (hd 0 s = 48 -> s = [48]) /\ dec_value s = n.
(** [s] is [n] in decimal, with zeros in front up to [w] digits *)
Definition dec_padded (w : nat) (n : N) (s : str) : Prop :=
  digits s = true /\ dec_value s = n /\ (w <= length s)%nat /\ ((w < length s)%nat -> hd 48 s <> 48).
(** the name of the administrative division "ppcccc" *)
Definition area (o : oracle) (prov city : N) (name : str) : Prop :=
  exists p c, dec_padded 2 prov p /\ dec_padded 4 city c
    /\ name = match o_region o (p ++ c) with
              | Some n => n
              | None => [78; 111; 116; 70; 111; 117; 110; 100]
              end.
Inductive query_layout : mquery -> bytes -> Prop :=
| ql c t1 t2 a ax m s st : civil_valid t1 -> year_window t1 -> civil_valid t2 -> year_window t2 ->
    a < 4294967296 -> ax < 4294967296 ->
    query_layout (mkMQ c (Some t1) (Some t2) a ax m s st)
      ([c] ++ BCD (time_digits t1) ++ BCD (time_digits t2) ++ U32 a ++ U32 ax ++ [m; s; st]).

(** [body_sent o h b w b']: a body [b] whose fields fit the format of the header's
    version, its layout [w] according to JT/T 808 (JT/T 1078 for 9205/1205), and the body
    [b'] a receiver obtains; [b'] differs from [b] at most in redundant length and count
    fields, in the region name derived from the area codes, and in JSON numbers having
    become integers. *)
Inductive body_sent (o : oracle) (h : header) : body -> bytes -> body -> Prop :=
| bs_0001 sn id r : sn < 65536 -> id < 65536 ->
    body_sent o h (B0001 sn id r) (U16 sn ++ U16 id ++ [r]) (B0001 sn id r)
| bs_8001 sn id r : sn < 65536 -> id < 65536 ->
    body_sent o h (B8001 sn id r) (U16 sn ++ U16 id ++ [r]) (B8001 sn id r)
| bs_0002 : body_sent o h B0002 [] B0002
| bs_0003 : body_sent o h B0003 [] B0003
| bs_0004 : body_sent o h B0004 [] B0004
| bs_0800 : body_sent o h B0800 [] B0800
| bs_0801 : body_sent o h B0801 [] B0801
| bs_8104 : body_sent o h B8104 [] B8104
| bs_8800 : body_sent o h B8800 [] B8800
| bs_0100_2019 prov city manu mode did color plate loc g name :
    a_ver (h_attr h) = V2019 -> prov < 65536 -> city < 65536 ->
    text_fits 11 manu -> text_fits 30 mode -> text_fits 30 did -> gbk_fits o plate g -> area o prov city name ->
    body_sent o h (B0100 (mkReg prov city manu mode did color plate loc))
      (U16 prov ++ U16 city ++ padded 11 manu ++ padded 30 mode ++ padded 30 did ++ [color] ++ g)
      (B0100 (mkReg prov city manu mode did color plate name))
| bs_0100_2013 prov city manu mode did color plate loc g name :
    a_ver (h_attr h) = V2013 -> prov < 65536 -> city < 65536 ->
    text_fits 5 manu -> text_fits 20 mode -> text_fits 7 did -> gbk_fits o plate g -> g <> [] -> area o prov city name ->
    body_sent o h (B0100 (mkReg prov city manu mode did color plate loc))
      (U16 prov ++ U16 city ++ padded 5 manu ++ padded 20 mode ++ padded 7 did ++ [color] ++ g)
      (B0100 (mkReg prov city manu mode did color plate name))
| bs_0102_2013 al code imei sw : a_ver (h_attr h) = V2013 ->
    body_sent o h (B0102 al code imei sw) code (B0102 0 code [] [])
| bs_0102_2019 al code imei sw : a_ver (h_attr h) = V2019 ->
    (length code < 256)%nat -> length imei = 15%nat -> text_fits 20 sw ->
    body_sent o h (B0102 al code imei sw)
      ([N.of_nat (length code)] ++ code ++ imei ++ padded 20 sw)
      (B0102 (N.of_nat (length code)) code imei sw)
| bs_0104 sn cnt d w e : sn < 65536 -> params_sent o d w e -> dp_phone e = h_phone h ->
    body_sent o h (B0104 sn cnt (Some d)) (U16 sn ++ w) (B0104 sn (dp_cnt d) (Some e))
| bs_8103 cnt d w e : params_sent o d w e -> dp_phone e = h_phone h ->
    body_sent o h (B8103 cnt (Some d)) w (B8103 (dp_cnt d) (Some e))
| bs_0200 alarm status lat lon alt sp dir t :
    alarm < 4294967296 -> status < 4294967296 -> lat < 4294967296 -> lon < 4294967296 ->
    alt < 65536 -> sp < 65536 -> dir < 65536 -> digits t = true -> length t = 12%nat ->
    body_sent o h (B0200 (mkLoc alarm status lat lon alt sp dir t))
      (U32 alarm ++ U32 status ++ U32 lat ++ U32 lon ++ U16 alt ++ U16 sp ++ U16 dir ++ BCD t)
      (B0200 (mkLoc alarm status lat lon alt sp dir t))
| bs_1205 sn cnt q qw size : sn < 65536 -> cnt < 4294967296 -> size < 4294967296 ->
    query_layout q qw ->
    body_sent o h (B1205 sn cnt q size) (U16 sn ++ U32 cnt ++ qw ++ U32 size) (B1205 sn cnt q size)
| bs_8004 t : civil_valid t -> year_window t ->
    body_sent o h (B8004 (Some t)) (BCD (time_digits t)) (B8004 (Some t))
| bs_8100 sn r code : sn < 65536 ->
    body_sent o h (B8100 sn r code) (U16 sn ++ [r] ++ code) (B8100 sn r code)
| bs_9205 q w : query_layout q w -> body_sent o h (B9205 q) w (B9205 q).

(** * A message sent and received *)
(** the message is a part of a longer one *)
Definition fragment (h : header) : bool := a_frag (h_attr h) =? 1.
(** the header with another body length, another message id *)
Definition with_len (h : header) (n : N) : header :=
  mkHeader (h_id h)
    (mkAttr n (a_enc (h_attr h)) (a_frag (h_attr h)) (a_sign (h_attr h)) (a_extra (h_attr h))
            (a_encd (h_attr h)) (a_fragd (h_attr h)) (a_ver (h_attr h)))
    (h_proto h) (h_phone h) (h_sn h) (h_frag h).
Definition with_id (h : header) (i : N) : header :=
  mkHeader i (h_attr h) (h_proto h) (h_phone h) (h_sn h) (h_frag h).
(** The message [h], [b] is encoded, and the frame is decoded by the receiver, at any
    time, to the same header (with the length of the body in it) and the body [b']. *)
Definition delivered (o : oracle) (h : header) (b b' : body) : Prop :=
  exists n, forall now, exists frm p,
    encodePacket o (mkMsg h b) = Ok frm /\ decodePacket o frm = Ok p
    /\ pk_hdr p = with_len h n /\ n = N.of_nat (length (sl_data (pk_body p)))
    /\ msgDecode o now (kind_of b) p = Ok (mkMsg (pk_hdr p) b').

(** * Decoding any packet *)
(** the packet [b] (checksum removed) is too short for the header its attribute bits
    announce: 12 bytes, 5 more for version 2019 (bit 6 of the third byte), 4 more when
    fragmented (bit 5) *)
Definition header_size (a1 : N) : nat :=
  12 + (if N.testbit a1 6 then 5 else 0) + (if N.testbit a1 5 then 4 else 0).
Definition header_cut (b : bytes) : Prop :=
  match b with
  | _ :: _ :: a1 :: _ :: _ => (length b < header_size a1)%nat
  | _ => True
  end.
(** the length of the header of a packet *)
Definition header_length (b : bytes) : nat :=
  match b with _ :: _ :: a1 :: _ => header_size a1 | _ => 12 end.
(** the phone field: 10 bytes from offset 5 for version 2019, else 6 bytes from 4 *)
Definition phone_field (b : bytes) : bytes :=
  match b with
  | _ :: _ :: a1 :: _ => if N.testbit a1 6 then firstn 10 (skipn 5 b) else firstn 6 (skipn 4 b)
  | _ => []
  end.

(** * Status words *)
(** bits 2 and 3 exchanged *)
Definition swap23 (i : N) : N := if i =? 2 then 3 else if i =? 3 then 2 else i.
(** the bits JT/T 808 assigns: 0-5 and 8-22 *)
Definition assigned (i : N) : bool := (i <? 6) || ((8 <=? i) && (i <? 23)).

(** * Location reports *)
Definition loc_fits (l : locrep) : Prop :=
  l_alarm l < 4294967296 /\ l_status l < 4294967296 /\ l_lat l < 4294967296 /\ l_lon l < 4294967296
  /\ l_altitude l < 65536 /\ l_speed l < 65536 /\ l_dir l < 65536
  /\ digits (l_time l) = true /\ length (l_time l) = 12%nat.
