(** Property theorems C22-C33, C35, C73: messages, parameters, status words. *)
From Coq Require Import Sorted.
From Verif Require Import Base HexM TimeM HashM HeaderM ParamsM GeoM MsgM PacketM FrameM SpecCodec DecP.
From Verif Require Import HexP TimeP HeaderP FrameP MsgP ParamsP CodecP CodecP2 CodecP3 ExampleData.
Local Open Scope N_scope.

(** C22: general replies *)
Theorem C22_general_reply : forall o h sn id r, hdr_wf h -> sn < 65536 -> id < 65536 ->
  delivered o h (B0001 sn id r) (B0001 sn id r) /\ delivered o h (B8001 sn id r) (B8001 sn id r).
Proof. exact reply_delivered. Qed.
Print Assumptions C22_general_reply.
Example C22_ex : hdr_wf h19 /\ encBody o0 h19 (B8001 0x7e7e 0x0200 1) = Ok [0x7e; 0x7e; 2; 0; 1].
Proof. split; [exact h19_wf|reflexivity]. Qed.

(** C23: registration, version 2019 *)
Theorem C23_registration_2019 : forall o h prov city manu mode did color plate loc g,
  hdr_wf h -> a_ver (h_attr h) = V2019 -> prov < 65536 -> city < 65536 ->
  text_fits 11 manu -> text_fits 30 mode -> text_fits 30 did -> gbk_fits o plate g ->
  (length g < 948)%nat ->
  exists loc', area o prov city loc'
    /\ delivered o h (B0100 (mkReg prov city manu mode did color plate loc))
                     (B0100 (mkReg prov city manu mode did color plate loc')).
Proof. exact reg2019_delivered. Qed.
Print Assumptions C23_registration_2019.
(** registration, version 2013; the plate must not be empty, otherwise the receiver
    takes the model field to have 8 bytes *)
Theorem C23_registration_2013 : forall o h prov city manu mode did color plate loc g,
  hdr_wf h -> a_ver (h_attr h) = V2013 -> prov < 65536 -> city < 65536 ->
  text_fits 5 manu -> text_fits 20 mode -> text_fits 7 did -> gbk_fits o plate g -> g <> [] ->
  (length g < 987)%nat ->
  exists loc', area o prov city loc'
    /\ delivered o h (B0100 (mkReg prov city manu mode did color plate loc))
                     (B0100 (mkReg prov city manu mode did color plate loc')).
Proof. exact reg2013_delivered. Qed.
Print Assumptions C23_registration_2013.
(** with an empty plate (no plate, plate colour 0 in JT/T 808) a version 2013
    registration is received with a part of the model field in place of the terminal id *)
Theorem C23_refuted : forall o now h prov city manu mode did color loc,
  hdr_wf h -> a_ver (h_attr h) = V2013 -> prov < 65536 -> city < 65536 ->
  text_fits 5 manu -> text_fits 20 mode -> text_fits 7 did -> gbk_fits o [] [] ->
  exists frm p color' plate' loc',
    encodePacket o (mkMsg h (B0100 (mkReg prov city manu mode did color [] loc))) = Ok frm
    /\ decodePacket o frm = Ok p
    /\ msgDecode o now K0100 p = Ok (mkMsg (pk_hdr p)
         (B0100 (mkReg prov city manu (trimNul (firstn 8 (padded 20 mode)))
                       (trimNul (firstn 7 (skipn 8 (padded 20 mode)))) color' plate' loc'))).
Proof. exact reg2013_no_plate. Qed.
Print Assumptions C23_refuted.
Example C23_ex : hdr_wf h13 /\ a_ver (h_attr h13) = V2013 /\ text_fits 5 abc /\ text_fits 20 abc
  /\ text_fits 7 abc /\ gbk_fits o0 abc abc /\ abc <> [] /\ gbk_fits o0 [] []
  /\ encBody o0 h13 (B0100 (mkReg 11 100 abc abc abc 2 abc [])) =
     Ok ([0; 11; 0; 100] ++ abc ++ [0; 0] ++ abc ++ repeat 0 17 ++ abc ++ repeat 0 4 ++ [2] ++ abc).
Proof.
  split; [exact h13_wf|]. split; [reflexivity|].
  split; [split; [cbn; lia|right; exists [65; 66], 67; split; [reflexivity|discriminate]]|].
  split; [split; [cbn; lia|right; exists [65; 66], 67; split; [reflexivity|discriminate]]|].
  split; [split; [cbn; lia|right; exists [65; 66], 67; split; [reflexivity|discriminate]]|].
  split; [split; reflexivity|]. split; [discriminate|]. split; [split; reflexivity|reflexivity].
Qed.

(** C24: authentication *)
Theorem C24_auth_2019 : forall o h al code imei sw, hdr_wf h -> a_ver (h_attr h) = V2019 ->
  (length code < 256)%nat -> length imei = 15%nat -> text_fits 20 sw ->
  delivered o h (B0102 al code imei sw) (B0102 (N.of_nat (length code)) code imei sw).
Proof. exact auth2019_delivered. Qed.
Print Assumptions C24_auth_2019.
Theorem C24_auth_2013 : forall o h al code imei sw, hdr_wf h -> a_ver (h_attr h) = V2013 ->
  (length code < 1024)%nat -> delivered o h (B0102 al code imei sw) (B0102 0 code [] []).
Proof. exact auth2013_delivered. Qed.
Print Assumptions C24_auth_2013.
Example C24_ex : encBody o0 h19 (B0102 0 abc (repeat 49 15) abc) =
  Ok ([3] ++ abc ++ repeat 49 15 ++ abc ++ repeat 0 17) /\ hdr_wf h19 /\ a_ver (h_attr h19) = V2019.
Proof. split; [reflexivity|]. split; [exact h19_wf|reflexivity]. Qed.

(** C25: registration reply *)
Theorem C25_reg_reply : forall o h sn r code, hdr_wf h -> sn < 65536 -> (length code < 1021)%nat ->
  delivered o h (B8100 sn r code) (B8100 sn r code).
Proof. exact regreply_delivered. Qed.
Print Assumptions C25_reg_reply.
Example C25_ex : encBody o0 h13 (B8100 300 0 abc) = Ok [1; 44; 0; 65; 66; 67] /\ hdr_wf h13.
Proof. split; [reflexivity|exact h13_wf]. Qed.

(** C26: location report, with any additional items after the mandatory part *)
Theorem C26_location : forall o h l, hdr_wf h -> loc_fits l ->
  delivered o h (B0200 l) (B0200 l).
Proof. exact loc_delivered. Qed.
Print Assumptions C26_location.
Theorem C26_extra_items : forall o now h l extra, hdr_wf h -> loc_fits l -> (length extra < 996)%nat ->
  exists w p, encBody o h (B0200 l) = Ok w
    /\ decodePacket o (escape (genVerifier (writeHeader h (w ++ extra)))) = Ok p
    /\ msgDecode o now K0200 p = Ok (mkMsg (pk_hdr p) (B0200 l)).
Proof. exact loc_extra_delivered. Qed.
Print Assumptions C26_extra_items.
Example C26_ex : loc_fits (mkLoc 0 3 31000123 121000456 10 60 90 (time_digits t_leap)).
Proof. repeat split; cbn; lia. Qed.

(** C27: media query and resource list *)
Theorem C27_media : forall o h q qw sn cnt size, hdr_wf h -> query_layout q qw ->
  sn < 65536 -> cnt < 4294967296 -> size < 4294967296 ->
  delivered o h (B9205 q) (B9205 q) /\ delivered o h (B1205 sn cnt q size) (B1205 sn cnt q size).
Proof. exact media_delivered. Qed.
Print Assumptions C27_media.
Example C27_ex : exists w, query_layout q1 w /\ length w = 24%nat.
Proof.
  eexists. split.
  - unfold q1. apply ql; try apply t_leap_ok; try apply t_now_ok; lia.
  - reflexivity.
Qed.

(** C28: server time *)
Theorem C28_time : forall o h t, hdr_wf h -> civil_valid t -> year_window t ->
  delivered o h (B8004 (Some t)) (B8004 (Some t)).
Proof. exact time_delivered. Qed.
Print Assumptions C28_time.
Example C28_ex : civil_valid t_leap /\ year_window t_leap
  /\ encBody o0 h13 (B8004 (Some t_leap)) = Ok [0x24; 2; 0x29; 0x23; 0x59; 0x58].
Proof. split; [apply t_leap_ok|]. split; [apply t_leap_ok|reflexivity]. Qed.

(** C29: parameter lists *)
Theorem C29_params : forall o d w e, params_sent o d w e ->
  paramsEncode o d = Ok w
  /\ (exists v, w = dp_cnt d :: v /\ forall post sp,
        paramsDecode o (dp_phone e) (dp_cnt d) (mkSlice (v ++ post) sp) = Ok e)
  /\ dp_cnt e = dp_cnt d
  /\ Forall2 (fun p q => p_id q = p_id p /\ same_value (p_val p) (p_val q)) (dp_list d) (dp_list e).
Proof. exact params_coded. Qed.
Print Assumptions C29_params.
Theorem C29_messages : forall o h sn cnt d w e, hdr_wf h -> sn < 65536 -> params_sent o d w e ->
  dp_phone e = h_phone h -> (length w < 1022)%nat ->
  delivered o h (B8103 cnt (Some d)) (B8103 (dp_cnt d) (Some e))
  /\ delivered o h (B0104 sn cnt (Some d)) (B0104 sn (dp_cnt d) (Some e)).
Proof. exact params_delivered. Qed.
Print Assumptions C29_messages.
Example C29_ex : params_sent o0
  (mkParams [] 3 [mkParam 0x0001 0 (VF64 60); mkParam 0x0013 0 (VStr abc); mkParam 0x0084 0 (VU8 7)])
  ([3] ++ [0; 0; 0; 1; 4; 0; 0; 0; 60] ++ [0; 0; 0; 0x13; 3; 65; 66; 67] ++ [0; 0; 0; 0x84; 1; 7])
  (mkParams phone12 3 [mkParam 0x0001 4 (VU32 60); mkParam 0x0013 3 (VStr abc); mkParam 0x0084 1 (VU8 7)]).
Proof.
  split; [cbn; lia|]. split; [reflexivity|]. split; [reflexivity|].
  eexists. split; [|reflexivity]. cbn [dp_list].
  eapply (pls_cons _ _ [0; 0; 0; 1; 4; 0; 0; 0; 60]).
  { exists PDword, [0; 0; 0; 60]. repeat split. apply (vf_f32 o0 60). lia. }
  eapply (pls_cons _ _ [0; 0; 0; 0x13; 3; 65; 66; 67]).
  { exists PGBK, abc. repeat split. apply vf_gbk; [split; reflexivity|cbn; lia]. }
  eapply (pls_cons _ _ [0; 0; 0; 0x84; 1; 7] _ _ []).
  { exists PByte, [7]. repeat split. apply vf_u8. lia. }
  constructor.
Qed.

(** C30: an unknown id anywhere in the list makes the decoder panic *)
Theorem C30_refuted : forall o phone cnt ps w qs id n rest sp,
  params_list_sent o ps w qs -> (length ps < N.to_nat cnt)%nat ->
  id < 4294967296 -> paramType id = None ->
  paramsDecode o phone cnt (mkSlice (w ++ U32 id ++ [n] ++ rest) sp) = Panic.
Proof. intros o phone cnt ps w qs id n rest sp H1 H2 H3 H4. apply (params_unknown o phone cnt ps w qs id n rest sp H1 H2 H3). now rewrite argKind_type. Qed.
Print Assumptions C30_refuted.
(** the encoder does skip unknown ids *)
Theorem C30_partial : forall o ps pkt,
  paramsEncodeLoop o ps pkt =
  paramsEncodeLoop o (filter (fun p => match paramType (p_id p) with Some _ => true | None => false end) ps) pkt.
Proof.
  intros o ps pkt. rewrite (paramsEncode_skip o ps pkt). f_equal. apply filter_ext. intros p. now rewrite argKind_type.
Qed.
Print Assumptions C30_partial.
Example C30_ex : paramType 0xF364 = None /\
  paramsDecode o0 [] 1 (mkSlice [0; 0; 0xF3; 0x64; 1; 0] []) = Panic.
Proof. split; reflexivity. Qed.

(** C31: a plate that GBK cannot represent empties the whole registration body *)
Theorem C31_refuted : forall o h r, o_gbk_enc o (r_plate r) = None -> encBody o h (B0100 r) = Ok [].
Proof. exact enc0100_lost. Qed.
Print Assumptions C31_refuted.
(** a parameter text that GBK cannot represent only loses its own value *)
Theorem C31_partial : forall o id l s, paramType id = Some PGBK -> id < 4294967296 -> o_gbk_enc o s = None ->
  paramEncode o (mkParam id l (VStr s)) = Ok (U32 id ++ [0]).
Proof. intros o id l s H. apply param_text_lost. now rewrite argKind_type. Qed.
Print Assumptions C31_partial.
Example C31_ex : o_gbk_enc o0 [0xF0; 0x9F; 0x98; 0x80] = None /\ paramType 0x0013 = Some PGBK.
Proof. split; reflexivity. Qed.

(** C32: the bits of the status word *)
Theorem C32_status : forall w,
  let g := geoDecode w in
  g_acc g = N.b2n (N.testbit w 0) /\ g_loc g = N.b2n (N.testbit w 1)
  /\ g_latt g = N.b2n (N.testbit w 2) /\ g_lont g = N.b2n (N.testbit w 3)
  /\ g_oper g = N.b2n (N.testbit w 4) /\ g_crypt g = N.b2n (N.testbit w 5)
  /\ g_load g = N.b2n (N.testbit w 8) + 2 * N.b2n (N.testbit w 9)
  /\ g_fuel g = N.b2n (N.testbit w 10) /\ g_alt g = N.b2n (N.testbit w 11)
  /\ g_lock g = N.b2n (N.testbit w 12) /\ g_front g = N.b2n (N.testbit w 13)
  /\ g_mid g = N.b2n (N.testbit w 14) /\ g_back g = N.b2n (N.testbit w 15)
  /\ g_driver g = N.b2n (N.testbit w 16) /\ g_custom g = N.b2n (N.testbit w 17)
  /\ g_gps g = N.b2n (N.testbit w 18) /\ g_beidou g = N.b2n (N.testbit w 19)
  /\ g_glonass g = N.b2n (N.testbit w 20) /\ g_galileo g = N.b2n (N.testbit w 21)
  /\ g_driving g = N.b2n (N.testbit w 22).
Proof. exact geo_fields. Qed.
Print Assumptions C32_status.
Example C32_ex : g_load (geoDecode 0x305) = 3 /\ g_latt (geoDecode 0x305) = 1 /\ g_loc (geoDecode 0x305) = 0.
Proof. repeat split. Qed.

(** C33: every assigned bit is restored except that bits 2 (south) and 3 (west) are
    exchanged *)
Theorem C33_refuted : forall w i,
  N.testbit (geoEncode (geoDecode w)) i = assigned i && N.testbit w (swap23 i).
Proof. exact geo_testbit. Qed.
Print Assumptions C33_refuted.
(** so the round trip holds when these two bits agree *)
Theorem C33_partial : forall w i, N.testbit w 2 = N.testbit w 3 -> assigned i = true ->
  N.testbit (geoEncode (geoDecode w)) i = N.testbit w i.
Proof. exact geo_roundtrip_equal. Qed.
Print Assumptions C33_partial.
Example C33_ex : geoEncode (geoDecode 4) = 8 /\ geoEncode (geoDecode 0x40000f) = 0x40000f.
Proof. split; reflexivity. Qed.

(** C35: Update *)
Theorem C35_update : forall p newp,
  let r := paramsUpdate p newp in
  dp_phone r = dp_phone p /\ dp_cnt r = N.of_nat (length (dp_list r)) mod 256
  /\ StronglySorted (fun a b => p_id a < p_id b) (dp_list r)
  /\ forall id, find (fun q => p_id q =? id) (dp_list r) =
       match last_with id (dp_list p) with
       | None => None
       | Some q => match last_with id (dp_list newp) with Some q' => Some q' | None => Some q end
       end.
Proof. exact paramsUpdate_spec. Qed.
Print Assumptions C35_update.
Example C35_ex :
  dp_list (paramsUpdate (mkParams [] 2 [mkParam 5 1 (VU8 1); mkParam 3 1 (VU8 2)])
                        (mkParams [] 2 [mkParam 5 1 (VU8 9); mkParam 4 1 (VU8 8)]))
  = [mkParam 3 1 (VU8 2); mkParam 5 1 (VU8 9)].
Proof. reflexivity. Qed.

(** C73: every message is laid out on the wire as documented, and any frame laid out
    that way is understood. *)
Theorem C73_layout : forall o now h b w b', hdr_wf h -> body_sent o h b w b' -> (length w < 1024)%nat ->
  let h' := with_len h (N.of_nat (length w)) in
  let pkt := header_layout h' ++ w in
  (exists e, encodePacket o (mkMsg h b) = Ok (framed e) /\ escapes (pkt ++ [xor_sum pkt]) e)
  /\ forall e, escapes (pkt ++ [xor_sum pkt]) e ->
     exists p, decodePacket o (framed e) = Ok p /\ pk_hdr p = h' /\ sl_data (pk_body p) = w
       /\ msgDecode o now (kind_of b) p = Ok (mkMsg h' b').
Proof. exact message_layout. Qed.
Print Assumptions C73_layout.
Example C73_ex : body_sent o0 h19 (B8001 7 0x0200 0) [0; 7; 2; 0; 0] (B8001 7 0x0200 0).
Proof. apply (bs_8001 o0 h19 7 0x0200 0); lia. Qed.
