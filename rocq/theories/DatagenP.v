(** Proofs about the simulated terminal *)
From Coq Require Import Reals.
From stdpp Require Import gmap.
From Flocq Require Import IEEE754.Binary IEEE754.Bits.
From Verif Require Import Base HexM TimeM HashM HeaderM ParamsM GeoM MsgM PacketM FrameM FloatM ProgM ProgP RingM
  StateM ProcM ServerM ClientM DatagenM SpecState SpecCodec SpecSim HexP TimeP HeaderP FrameP MsgP CodecP CodecP3 StateP ProcP ServerP ParamsP
  EffectP ReplyP HandshakeP SimFloatP.
Local Open Scope N_scope.

(** * Phones and headers *)
Lemma digits_appb a b : digits (a ++ b) = digits a && digits b.
Proof. unfold digits. apply forallb_app. Qed.
Lemma digits_zeros n : digits (repeat 48 n) = true.
Proof. induction n; [reflexivity|]. cbn. exact IHn. Qed.
Lemma filled p n : (length p <= n)%nat -> length (fillDevicePhone p n) = n.
Proof. intros H. unfold fillDevicePhone. rewrite app_length, repeat_length. lia. Qed.
Lemma filled_digits p n : digits p = true -> digits (fillDevicePhone p n) = true.
Proof. intros H. unfold fillDevicePhone. rewrite digits_appb, digits_zeros, H. reflexivity. Qed.

Lemma sim_phone c sid cn n : width (sm_version c) = Some n ->
  d_phone (genDevice c sid cn) = repeat 48 (n - length (sm_phone c)) ++ sm_phone c
  /\ (if version_eqb (d_ver (genDevice c sid cn)) V2019 then n = 20%nat else n = 12%nat)
  /\ d_id (genDevice c sid cn) = sm_id c /\ d_plate (genDevice c sid cn) = sm_plate c.
Proof.
  unfold width, genDevice. repeat case_bool_decide; intros [= <-]; try (cbn; auto; fail); exfalso; tauto.
Qed.
Lemma simHeader_wf id d : id < 65536 -> digits (d_phone d) = true ->
  length (d_phone d) = (if version_eqb (d_ver d) V2019 then 20 else 12)%nat -> hdr_wf (simHeader id d).
Proof.
  intros Hi Hd Hl. unfold simHeader, hdr_wf, attr_wf. destruct (version_eqb (d_ver d) V2019); cbn in *;
    repeat split; auto; lia.
Qed.
Lemma sim_wf c sid cn n id : width (sm_version c) = Some n -> digits (sm_phone c) = true -> (length (sm_phone c) <= n)%nat ->
  id < 65536 -> hdr_wf (simHeader id (genDevice c sid cn)).
Proof.
  intros Hw Hd Hl Hi. destruct (sim_phone c sid cn n Hw) as (Ep & Ev & _). apply simHeader_wf; [exact Hi| |].
  - rewrite Ep, digits_appb, digits_zeros, Hd. reflexivity.
  - rewrite Ep, app_length, repeat_length. destruct (version_eqb _ _); subst n; lia.
Qed.

(** any other version string and a phone of 11 digits: the receiver reads another phone *)
Lemma unpadded o c sid cn id b w : width (sm_version c) = None -> digits (sm_phone c) = true -> length (sm_phone c) = 11%nat ->
  let h := simHeader id (genDevice c sid cn) in
  encBody o h b = Ok w -> bytes_ok w = true -> (1 <= length w < 1024)%nat ->
  exists frm p, encodePacket o (mkMsg h b) = Ok frm /\ decodePacket o frm = Ok p
    /\ h_phone (pk_hdr p) = firstn 10 (sm_phone c) ++ [48; 48] /\ sl_data (pk_body p) = skipn 1 w.
Proof.
  intros Hw Hd Hl h Hb Hok Hlen.
  assert (Eh : h = mkHeader id (mkAttr 0 0 0 0 0 EncNone false V2013) 0 (sm_phone c) 1 None).
  { unfold h, genDevice, width in *. repeat case_bool_decide; try discriminate; try (exfalso; tauto). reflexivity. }
  rewrite (encode_unescaped o _ b w Hb).
  destruct (sm_phone c) as [|c1 [|c2 [|c3 [|c4 [|c5 [|c6 [|c7 [|c8 [|c9 [|c10 [|c11 [|]]]]]]]]]]]]; try discriminate Hl.
  set (ten := [c1; c2; c3; c4; c5; c6; c7; c8; c9; c10]).
  assert (Hten : digits ten = true).
  { unfold ten. rewrite !digits_cons in *. tauto. }
  assert (E : writeHeader h w = put16 id ++ put16 (N.of_nat (length w)) ++ BCD ten ++ [0; 1] ++ w).
  { rewrite Eh. unfold writeHeader. rewrite N.mod_small by lia. rewrite encodeHeader_wire.
    unfold header_wire, hdr_set_len, attr_set_len, attrEncode.
    cbn [h_id h_attr h_proto h_phone h_sn h_frag a_len a_enc a_frag a_sign a_extra a_encd a_fragd a_ver versionDecode version_eqb].
    replace ((N.of_nat (length w) + 0 * 1024 + 0 * 8192 + 0 * 16384 + 0 * 32768) mod 65536)
      with (N.of_nat (length w)) by lia.
    replace (numberStr2BCD [c1; c2; c3; c4; c5; c6; c7; c8; c9; c10; c11]) with (BCD ten).
    2:{ rewrite <- (Str2Byte_BCD ten Hten). reflexivity. }
    rewrite app_nil_r. cbn [app]. rewrite <- !app_assoc. reflexivity. }
  set (pkt := writeHeader h w) in *.
  assert (Hpok : bytes_ok pkt = true).
  { rewrite E, !bytes_ok_app. rewrite !put16_ok. repeat split; [|assumption].
    rewrite <- Str2Byte_BCD by assumption. apply Str2Byte_ok. }
  assert (Hhi : N.of_nat (length w) / 256 mod 256 = N.of_nat (length w) / 256) by lia.
  assert (Hx : N.of_nat (length w) / 256 < 4) by lia.
  assert (B6 : N.testbit (N.of_nat (length w) / 256) 6 = false /\ N.testbit (N.of_nat (length w) / 256) 5 = false).
  { destruct (N.of_nat (length w) / 256) as [|[[?|?|]|[?|?|]|]]; try lia; split; reflexivity. }
  destruct B6 as [B6 B5].
  eexists _.
  destruct (decodePacket_cases o pkt (xor_sum pkt) Hpok (flat_map escByte (pkt ++ [xor_sum pkt]))
              (unescape_framed_escape _)) as (_ & _ & K).
  destruct K as (p & Hp & _ & Hph & Hbody).
  - reflexivity.
  - rewrite E. unfold put16 at 1 2. cbn [app header_cut]. rewrite Hhi.
    unfold header_size. rewrite B6, B5. unfold ten. cbn [BCD app length]. lia.
  - exists p. split; [reflexivity|]. split; [exact Hp|].
    rewrite Hph, Hbody, E. unfold put16, ten. cbn [app BCD]. unfold phone_field, header_length.
    rewrite Hhi. unfold header_size. rewrite B6, B5. cbn [firstn skipn Nat.add].
    split; [|reflexivity].
    change (bcd2NumberStr (BCD ten ++ [0]) = ten ++ [48; 48]).
    rewrite bcd2NumberStr_digits.
    + rewrite bcdHex_app, bcdHex_BCD; [reflexivity|exact Hten|reflexivity].
    + rewrite forallb_app, BCD_decimal by exact Hten. reflexivity.
Qed.

(** * Location reports *)
Lemma sim_report other d g r now : exists l, genMsg0200 other d g r now = mkMsg (simHeader 0x0200 d) (B0200 l)
  /\ l_lat l <= 90000000 /\ l_lon l <= 180000000 /\ l_altitude l <= 5000 /\ l_speed l <= 3000
  /\ ((0 <= dr_dir r < 360)%Z -> l_dir l < 360) /\ l_time l = FormatTime now
  /\ forall o, civil_valid now -> hdr_wf (simHeader 0x0200 d) -> delivered o (simHeader 0x0200 d) (B0200 l) (B0200 l).
Proof.
  unfold genMsg0200. eexists. split; [reflexivity|]. cbn [l_lat l_lon l_altitude l_speed l_dir l_time].
  assert (T : forall z, toWord z < 65536).
  { intros z. unfold toWord. pose proof (Z.mod_pos_bound z 65536 eq_refl). lia. }
  assert (Ge : forall m, geoEncode m < 4294967296).
  { intros m. unfold geoEncode. apply N.mod_lt. discriminate. }
  do 4 (split; [match goal with |- (if ?a <? ?b then _ else _) <= _ => destruct (N.ltb_spec a b); lia end|]).
  split; [unfold toWord; intros H; rewrite Z.mod_small by lia; lia|]. split; [reflexivity|].
  intros o Hc Hh. apply loc_delivered; [exact Hh|]. unfold loc_fits. cbn [l_alarm l_status l_lat l_lon l_altitude l_speed l_dir l_time].
  split; [lia|]. split; [apply Ge|].
  do 4 (split; [match goal with |- (if ?a <? ?b then _ else _) < _ => destruct (N.ltb_spec a b); lia end|]).
  split; [apply T|]. split; [apply digits_FormatTime; exact Hc|apply FormatTime_length].
Qed.

Lemma sim_near other d la lo al sp r now l :
  genMsg0200 other d (mkSimGeo (f64_of_Z la) (f64_of_Z lo) al (f64_of_Z sp)) r now = mkMsg (simHeader 0x0200 d) (B0200 l) ->
  ((1 <= la <= 90)%Z -> offset_in 1 (dr_lat r) -> (Z.abs (Z.of_N (l_lat l) - 1000000 * la) <= 1000000)%Z)
  /\ ((1 <= lo <= 180)%Z -> offset_in 1 (dr_lon r) -> (Z.abs (Z.of_N (l_lon l) - 1000000 * lo) <= 1000000)%Z)
  /\ (5 <= al <= 4995 -> (-5 <= dr_altitude r <= 5)%Z -> (Z.of_N (l_altitude l) = Z.of_N al + dr_altitude r)%Z)
  /\ ((10 <= sp <= 290)%Z -> offset_in 10 (dr_speed r) -> (Z.abs (Z.of_N (l_speed l) - 10 * sp) <= 100)%Z).
Proof.
  unfold genMsg0200. cbn [sg_lat sg_lon sg_altitude sg_speed]. intros [= <-]. cbn [l_lat l_lon l_altitude l_speed].
  split; [|split; [|split]].
  - intros Hb Ho. destruct (scaled_uint other 32 la 1 (dr_lat r) locationAccuracy ltac:(lia) ltac:(lia) ltac:(unfold locationAccuracy; lia) Ho
      ltac:(unfold locationAccuracy; lia)) as (_ & H). unfold locationAccuracy in *.
    destruct (N.ltb_spec 90000000 (toUint other 32 (scaled (f64_of_Z la) (dr_lat r) 1000000))); lia.
  - intros Hb Ho. destruct (scaled_uint other 32 lo 1 (dr_lon r) locationAccuracy ltac:(lia) ltac:(lia) ltac:(unfold locationAccuracy; lia) Ho
      ltac:(unfold locationAccuracy; lia)) as (_ & H). unfold locationAccuracy in *.
    destruct (N.ltb_spec 180000000 (toUint other 32 (scaled (f64_of_Z lo) (dr_lon r) 1000000))); lia.
  - intros Ha Hr. unfold toWord.
    assert (E : Z.of_N ((al + Z.to_N (dr_altitude r mod 65536)) mod 65536) = (Z.of_N al + dr_altitude r)%Z) by lia.
    destruct (N.ltb_spec 5000 ((al + Z.to_N (dr_altitude r mod 65536)) mod 65536)); lia.
  - intros Hb Ho. destruct (scaled_uint other 16 sp 10 (dr_speed r) speedAccuracy ltac:(lia) ltac:(lia) ltac:(unfold speedAccuracy; lia) Ho
      ltac:(unfold speedAccuracy; lia)) as (_ & H). unfold speedAccuracy in *.
    destruct (N.ltb_spec 3000 (toUint other 16 (scaled (f64_of_Z sp) (dr_speed r) 10))); lia.
Qed.

Lemma wrap_neg other bits x z : wraps other -> (bits = 16 \/ bits = 32)%Z -> f64_trunc x = Some z ->
  (- 2 ^ (bits - 1) <= z < 0)%Z -> Z.of_N (toUint other bits x) = (z + 2 ^ bits)%Z.
Proof.
  intros Hw Hb Hz Hr. unfold toUint. rewrite Hz, (Hw x z Hz).
  destruct (Z.leb_spec 0 z); [destruct Hb; subst; lia|]. cbn [andb].
  rewrite N2Z.inj_mod, Z2N.id by lia. destruct Hb; subst; cbn in *; lia.
Qed.
Lemma sim_below other d la lo al sp r now l : wraps other ->
  genMsg0200 other d (mkSimGeo (f64_of_Z la) (f64_of_Z lo) al (f64_of_Z sp)) r now = mkMsg (simHeader 0x0200 d) (B0200 l) ->
  (forall z, f64_trunc (scaled (f64_of_Z la) (dr_lat r) 1000000) = Some z -> (-1000000 <= z < 0)%Z -> l_lat l = 90000000)
  /\ (forall z, f64_trunc (scaled (f64_of_Z lo) (dr_lon r) 1000000) = Some z -> (-1000000 <= z < 0)%Z -> l_lon l = 180000000)
  /\ (al < 65536 -> (-5 <= dr_altitude r <= 5)%Z -> (Z.of_N al + dr_altitude r < 0 \/ 5000 < Z.of_N al + dr_altitude r < 65536)%Z -> l_altitude l = 1000)
  /\ (forall z, f64_trunc (scaled (f64_of_Z sp) (dr_speed r) 10) = Some z -> (-100 <= z < 0)%Z -> l_speed l = 1000).
Proof.
  intros Hw. unfold genMsg0200. cbn [sg_lat sg_lon sg_altitude sg_speed]. intros [= <-]. cbn [l_lat l_lon l_altitude l_speed].
  change locationAccuracy with 1000000%Z. change speedAccuracy with 10%Z.
  split; [|split; [|split]].
  - intros z Hz Hr. pose proof (wrap_neg other 32 _ z Hw ltac:(lia) Hz ltac:(lia)) as E.
    destruct (N.ltb_spec 90000000 (toUint other 32 (scaled (f64_of_Z la) (dr_lat r) 1000000))); lia.
  - intros z Hz Hr. pose proof (wrap_neg other 32 _ z Hw ltac:(lia) Hz ltac:(lia)) as E.
    destruct (N.ltb_spec 180000000 (toUint other 32 (scaled (f64_of_Z lo) (dr_lon r) 1000000))); lia.
  - intros Ha Hr Hs. unfold toWord.
    destruct (N.ltb_spec 5000 ((al + Z.to_N (dr_altitude r mod 65536)) mod 65536)); [reflexivity|]. lia.
  - intros z Hz Hr. pose proof (wrap_neg other 16 _ z Hw ltac:(lia) Hz ltac:(lia)) as E.
    destruct (N.ltb_spec 3000 (toUint other 16 (scaled (f64_of_Z sp) (dr_speed r) 10))); lia.
Qed.

(** * Coming online *)
Definition with_out (cn : nat) (k : conn) (f : bytes) (s : st) : st :=
  set_conns (<[cn := mkConn true (cn_out k ++ [f])]>) s.
Lemma run_write e cn k s m f : st_conns s !! cn = Some k -> cn_open k = true -> encodePacket (e_o e) m = Ok f ->
  run (processConnWrite e cn (Some m) None) s = (Ok tt, with_out cn k f s).
Proof.
  intros Hk Ho He. unfold processConnWrite. rewrite run_bind. cbn [lift run]. rewrite He. unfold connSend. cbn [run].
  rewrite Hk, Ho. cbn [run ret fst snd]. unfold ret. f_equal. unfold with_out, set_conns. f_equal.
  rewrite <- (insert_id (st_conns s) cn k Hk) at 1. rewrite alter_insert, Ho. reflexivity.
Qed.
Lemma run_decode e frm p s : decodePacket (e_o e) frm = Ok p -> isFragmented (pk_hdr p) = false ->
  run (decodeP e frm) s = (Ok p, s).
Proof. intros Hd Hf. unfold decodeP. rewrite run_bind. cbn [lift run]. rewrite Hd, Hf. reflexivity. Qed.
Lemma client_reply e sl s x k frm p m s1 b : st_sess s !! sl = Some x -> 
  decodePacket (e_o e) frm = Ok p -> isFragmented (pk_hdr p) = false ->
  run (process e sl p) s = (Ok (Some m), s1) -> st_conns s1 !! ss_conn x = Some k -> cn_open k = true -> encodePacket (e_o e) m = Ok b ->
  run (clientLoop e sl [(Ok frm, None)]) s = (Ok false, with_out (ss_conn x) k b s1).
Proof.
  intros Hx Hd Hf Hp Hk Ho He. cbn [clientLoop]. rewrite run_bind. unfold readSess. cbn [run]. rewrite Hx. cbn [run ret].
  rewrite run_bindR. unfold processConnRead. rewrite run_bind. cbn [lift run].
  rewrite run_bind, (run_decode e frm p s Hd Hf), run_bind, Hp, (run_write e _ k s1 m b Hk Ho He). reflexivity.
Qed.
Lemma client_silent e sl s x frm p s1 : st_sess s !! sl = Some x ->
  decodePacket (e_o e) frm = Ok p -> isFragmented (pk_hdr p) = false ->
  run (process e sl p) s = (Ok None, s1) ->
  run (clientLoop e sl [(Ok frm, None)]) s = (Ok false, s1).
Proof.
  intros Hx Hd Hf Hp. cbn [clientLoop]. rewrite run_bind. unfold readSess. cbn [run]. rewrite Hx. cbn [run ret].
  rewrite run_bindR. unfold processConnRead. rewrite run_bind. cbn [lift run].
  rewrite run_bind, (run_decode e frm p s Hd Hf), run_bind, Hp. reflexivity.
Qed.
Lemma decode_undone o frm p : decodePacket o frm = Ok p -> pk_segdone p = false.
Proof.
  unfold decodePacket. destruct frm; [discriminate|]. unfold rbind.
  destruct (verify _ _); [|discriminate..]. destruct (decodeHeader _ _); [|discriminate..].
  destruct (sl_from _ _); [|discriminate..]. intros [= <-]. reflexivity.
Qed.
Lemma carried_whole e s o frm p id b : decodePacket o frm = Ok p -> carries e s p id b -> isFragmented (pk_hdr p) = false.
Proof. intros Hd (_ & [H|H] & _); [exact H|]. rewrite (decode_undone _ _ _ Hd) in H. discriminate. Qed.

(** the client's state after buildDevice *)
Definition built (c : simconf) (x : session) (s : st) : st :=
  let d := genDevice c (ss_id x) (ss_conn x) in
  let l := fresh (dom (st_devs s)) in
  set_index (<[d_plate d := l]>) (<[d_phone d := l]>) (set_devs (<[l := d]>) s).
Lemma run_build c sl s x : st_sess s !! sl = Some x ->
  run (buildDevice c sl) s = (Ok (fresh (dom (st_devs s))), built c x s)
  /\ devAt (built c x s) (d_phone (genDevice c (ss_id x) (ss_conn x))) = Some (genDevice c (ss_id x) (ss_conn x)).
Proof.
  intros Hx. unfold buildDevice. rewrite run_bind. unfold readSess. cbn [run]. rewrite Hx. cbn [run ret].
  rewrite run_bind. unfold allocDev. cbn [run ret]. rewrite run_bind. unfold cacheDevice, wr1. cbn [run ret].
  unfold set_devs at 1. cbn -[insert lookup fresh dom genDevice]. rewrite lookup_insert. split; [reflexivity|].
  unfold devAt, built. cbn -[insert lookup fresh dom genDevice]. rewrite lookup_insert. apply lookup_insert.
Qed.
Lemma devAt_look s ph d : devAt s ph = Some d -> exists l, st_byPhone s !! ph = Some l /\ st_devs s !! l = Some d.
Proof. unfold devAt. destruct (st_byPhone s !! ph) as [l|]; [eauto|discriminate]. Qed.
Lemma run_status s ph d : devAt s ph = Some d -> run (statusCheck ph) s = (Ok (d_status d =? Online), s).
Proof.
  intros H. destruct (devAt_look _ _ _ H) as (l & H1 & H2). unfold statusCheck. rewrite run_bind.
  unfold getDeviceByPhone, rd1. cbn [run ret]. rewrite H1. rewrite run_bind. unfold readDev. cbn [run]. rewrite H2. reflexivity.
Qed.
Lemma run_clientSend e sl s x k m f : st_sess s !! sl = Some x -> st_conns s !! ss_conn x = Some k -> cn_open k = true ->
  encodePacket (e_o e) m = Ok f -> run (clientSend e sl m None) s = (Ok tt, with_out (ss_conn x) k f s).
Proof.
  intros Hx Hk Ho He. unfold clientSend. rewrite run_bind. unfold readSess. cbn [run]. rewrite Hx. cbn [run ret].
  rewrite run_bindR, (run_write e _ k s m f Hk Ho He). reflexivity.
Qed.
Lemma run_register e c sl s x k d f : st_sess s !! sl = Some x -> st_conns s !! ss_conn x = Some k -> cn_open k = true ->
  devAt s (d_phone d) = Some d -> encodePacket (e_o e) (genMsg0100 c d) = Ok f ->
  run (register e c (d_phone d) sl None) s = (Ok tt, with_out (ss_conn x) k f s).
Proof.
  intros Hx Hk Ho Hd He. destruct (devAt_look _ _ _ Hd) as (l & H1 & H2). unfold register, getSim. rewrite !run_bind.
  unfold getDeviceByPhone, rd1. cbn [run ret]. rewrite H1. cbn [run ret]. rewrite run_bind. unfold readConst. cbn [run]. rewrite H2. cbn [run ret].
  apply run_clientSend; assumption.
Qed.
Lemma simHeader_phone id d : h_phone (simHeader id d) = d_phone d.
Proof. unfold simHeader. destruct (version_eqb _ _); reflexivity. Qed.
Lemma simHeader_rest id d : h_id (simHeader id d) = id /\ a_frag (h_attr (simHeader id d)) = 0 /\ h_sn (simHeader id d) = 1.
Proof. unfold simHeader. destruct (version_eqb _ _); repeat split. Qed.

Section Online.
Variables (e ec : env) (sl slc : nat) (s sc : st) (x xc : session) (k kc : conn) (t : Z) (c : simconf) (r' : reg) (imei sw : str).
Let D := genDevice c (ss_id xc) (ss_conn xc).
Let h := simHeader 0x0100 D.
Hypothesis Ho : e_o ec = e_o e.
Hypothesis C : consistent s.
Hypothesis (Hx : st_sess s !! sl = Some x) (Hk : st_conns s !! ss_conn x = Some k) (Hop : cn_open k = true).
Hypothesis (Hxc : st_sess sc !! slc = Some xc) (Hkc : st_conns sc !! ss_conn xc = Some kc) (Hopc : cn_open kc = true).
Hypothesis Hwf : hdr_wf h.
Hypothesis Hreg : delivered (e_o e) h (m_body (genMsg0100 c D)) (B0100 r').
Hypothesis (Hph : devAt s (d_phone D) = None) (Hpl : devWithPlate s (r_plate r') = None).
Hypothesis Hauth : forall h', hdr_wf h' -> a_ver (h_attr h') = a_ver (h_attr h) -> forall al code, (length code <= 20)%nat ->
  exists al', delivered (e_o e) h' (B0102 al code (d_imei D) (d_sw D)) (B0102 al' code imei sw).

Lemma sim_online : exists l sc1 sc2 sc3 sc4 s1 s2 f1 f2 f3 f4 code,
  run (buildDevice c slc) sc = (Ok l, sc1)
  /\ run (statusCheck (d_phone D)) sc1 = (Ok false, sc1)
  /\ run (register ec c (d_phone D) slc None) sc1 = (Ok tt, sc2)
  /\ st_conns sc2 !! ss_conn xc = Some (mkConn true (cn_out kc ++ [f1]))
  /\ run (serveOne e sl (Ok f1) None) s = (Ok true, s1)
  /\ st_conns s1 !! ss_conn x = Some (mkConn true (cn_out k ++ [f2]))
  /\ run (clientLoop ec slc [(Ok f2, None)]) sc2 = (Ok false, sc3)
  /\ st_conns sc3 !! ss_conn xc = Some (mkConn true (cn_out kc ++ [f1; f3]))
  /\ run (serveOne e sl (Ok f3) None) (set_clock t s1) = (Ok true, s2)
  /\ st_conns s2 !! ss_conn x = Some (mkConn true (cn_out k ++ [f2; f4]))
  /\ run (clientLoop ec slc [(Ok f4, None)]) sc3 = (Ok false, sc4)
  /\ run (statusCheck (d_phone D)) sc4 = (Ok true, sc4)
  /\ is_code (r_devid r') (r_plate r') (d_phone D) code
  /\ consistent s2
  /\ devAt s2 (d_phone D) = Some (mkDevice (r_devid r') (r_plate r') (d_phone D) (ss_id x) (ss_conn x) 60000 t
                                  Online (a_ver (h_attr h)) (h_proto h) code imei sw).
Proof using All.
  destruct (run_build c slc sc xc Hxc) as (B1 & B2). fold D in B2. set (sc1 := built c xc sc) in *.
  assert (Hxc1 : st_sess sc1 !! slc = Some xc) by exact Hxc.
  assert (Hkc1 : st_conns sc1 !! ss_conn xc = Some kc) by exact Hkc.
  destruct (simHeader_rest 0x0100 D) as (Hid & Hfr & Hsn). fold h in Hid, Hfr, Hsn.
  pose proof (simHeader_phone 0x0100 D) as Hhp. fold h in Hhp.
  destruct Hreg as (n & D1). destruct (D1 (mkCivil 0 0 0 0 0 0)) as (f1 & _ & E1 & _).
  set (sc2 := with_out (ss_conn xc) kc f1 sc1).
  assert (R1 : run (register ec c (d_phone D) slc None) sc1 = (Ok tt, sc2)).
  { apply run_register; try assumption. rewrite Ho. exact E1. }
  assert (Hd2 : devAt sc2 (h_phone h) = Some D) by (rewrite Hhp; exact B2).
  destruct (handshake e ec sl slc s sc2 x k t h _ r' D imei sw Ho C Hx Hk Hop Hwf Hid Hfr Hreg
              ltac:(rewrite Hhp; exact Hph) Hpl Hd2 Hauth)
    as (f1' & f2 & f3 & f4 & code & s1 & s2 & p2 & m3 & p4 & F1 & F2 & F3 & F4 & F5 & F6 & F7 & F8 & F9 & F10 & F11 & Hp4 & F12 & F13 & F14 & F15 & _).
  assert (f1' = f1). { cbn [m_body genMsg0100] in E1. congruence. } subst f1'.
  assert (Hxc2 : st_sess sc2 !! slc = Some xc) by exact Hxc.
  set (k2 := mkConn true (cn_out kc ++ [f1])).
  assert (Hkc2 : st_conns sc2 !! ss_conn xc = Some k2) by (cbn; apply lookup_insert).
  pose proof (client_reply ec slc sc2 xc k2 f2 p2 m3 sc2 f3 Hxc2 F4 (carried_whole _ _ _ _ _ _ _ F4 F5) F6 Hkc2 eq_refl F7) as L3.
  set (sc3 := with_out (ss_conn xc) k2 f3 sc2) in *.
  assert (K4 : carries ec sc3 p4 0x8001 (B8001 (h_sn h) 0x0102 0)) by exact F11.
  destruct (client_wakes ec slc sc3 p4 _ _ D K4) as (sc4 & P4 & Dv4 & _ & _).
  { rewrite Hp4, Hhp. exact B2. } { rewrite Hp4, Hhp. reflexivity. }
  { unfold D, genDevice. repeat case_bool_decide; reflexivity. }
  rewrite Hp4, Hhp in Dv4.
  pose proof (client_silent ec slc sc3 xc f4 p4 sc4 Hxc F10 (carried_whole _ _ _ _ _ _ _ F10 F11) P4) as L4.
  exists (fresh (dom (st_devs sc))), sc1, sc2, sc3, sc4, s1, s2, f1, f2, f3, f4, code.
  split; [exact B1|]. split.
  { rewrite (run_status _ _ _ B2). f_equal. f_equal. unfold D, genDevice. repeat case_bool_decide; reflexivity. }
  split; [exact R1|]. split; [exact Hkc2|]. split; [exact F2|]. split; [exact F3|]. split; [exact L3|].
  split; [cbn; rewrite lookup_insert, <- app_assoc; reflexivity|]. split; [exact F8|]. split; [exact F9|].
  split; [exact L4|]. split; [rewrite (run_status _ _ _ Dv4); reflexivity|].
  rewrite Hhp in F13, F15. split; [exact F13|]. split; [exact F14|exact F15].
Qed.
End Online.

Lemma text_fakeyanss n : (9 <= n)%nat -> text_fits n fakeyanss.
Proof. intros H. split; [cbn; lia|]. right. exists [102; 97; 107; 101; 121; 97; 110; 115], 115. split; [reflexivity|discriminate]. Qed.
Lemma toWord_lt z : toWord z < 65536.
Proof. unfold toWord. pose proof (Z.mod_pos_bound z 65536 eq_refl). lia. Qed.
(** a manufacturer longer than its field is cut *)
Lemma reg_cut o h prov city manu mode did color plate loc : a_ver (h_attr h) = V2013 -> (5 < length manu)%nat ->
  encodePacket o (mkMsg h (B0100 (mkReg prov city manu mode did color plate loc)))
  = encodePacket o (mkMsg h (B0100 (mkReg prov city (firstn 5 manu) mode did color plate loc))).
Proof.
  intros Hv Hl. unfold encodePacket, msgEncode, encBody, enc0100. cbn [m_hdr m_body r_prov r_city r_manu r_mode r_devid r_color r_plate].
  rewrite Hv. replace (fillTo 5 manu) with (fillTo 5 (firstn 5 manu)); [reflexivity|].
  unfold fillTo. rewrite firstn_length. replace (Nat.min 5 (length manu)) with 5%nat by lia. rewrite Nat.ltb_irrefl.
  destruct (Nat.ltb_spec 5 (length manu)); [|lia]. cbn [Nat.sub repeat]. apply app_nil_r.
Qed.
Lemma genDevice_rest c sid cn : d_id (genDevice c sid cn) = sm_id c /\ d_plate (genDevice c sid cn) = sm_plate c
  /\ d_imei (genDevice c sid cn) = sm_imei c /\ d_sw (genDevice c sid cn) = fakeyanssIO.
Proof. unfold genDevice. repeat case_bool_decide; repeat split. Qed.
Lemma simHeader_ver id d : a_ver (h_attr (simHeader id d)) = (if version_eqb (d_ver d) V2019 then V2019 else V2013)
  /\ h_proto (simHeader id d) = (if version_eqb (d_ver d) V2019 then 1 else 0).
Proof. unfold simHeader. destruct (version_eqb _ _); split; reflexivity. Qed.

Lemma sim_online_2019 e ec sl slc s sc x xc k kc t c g : e_o ec = e_o e -> consistent s ->
  st_sess s !! sl = Some x -> st_conns s !! ss_conn x = Some k -> cn_open k = true ->
  st_sess sc !! slc = Some xc -> st_conns sc !! ss_conn xc = Some kc -> cn_open kc = true ->
  width (sm_version c) = Some 20%nat -> digits (sm_phone c) = true -> (length (sm_phone c) <= 20)%nat ->
  text_fits 30 (sm_id c) -> length (sm_imei c) = 15%nat -> gbk_fits (e_o e) (sm_plate c) g -> (length g < 948)%nat ->
  devAt s (repeat 48 (20 - length (sm_phone c)) ++ sm_phone c) = None -> devWithPlate s (sm_plate c) = None ->
  comes_online e ec sl slc s sc x xc k kc t c V2019 1 (sm_imei c) fakeyanssIO.
Proof.
  intros Ho C Hx Hk Hop Hxc Hkc Hopc Hw Hd Hl Hi Him Hg Hgl Hph Hpl.
  set (D := genDevice c (ss_id xc) (ss_conn xc)).
  destruct (sim_phone c (ss_id xc) (ss_conn xc) _ Hw) as (Ep & Ev & Ei & Epl). fold D in Ep, Ev, Ei, Epl.
  pose proof (sim_wf c (ss_id xc) (ss_conn xc) _ 0x0100 Hw Hd Hl eq_refl) as W. fold D in W.
  destruct (genDevice_rest c (ss_id xc) (ss_conn xc)) as (_ & _ & Eim & Esw). fold D in Eim, Esw.
  destruct (simHeader_ver 0x0100 D) as (V & P).
  destruct (version_eqb (d_ver D) V2019); [|discriminate Ev].
  destruct (reg2019_delivered (e_o e) (simHeader 0x0100 D) (toWord (atoi (sm_prov c))) (toWord (atoi (sm_city c)))
    fakeyanss fakeyanss (sm_id c) (toByte (atoi (sm_color c))) (sm_plate c) [] g W V (toWord_lt _) (toWord_lt _)
    (text_fakeyanss 11 ltac:(lia)) (text_fakeyanss 30 ltac:(lia)) Hi Hg Hgl) as (loc' & _ & R).
  destruct (sim_online e ec sl slc s sc x xc k kc t c _ (sm_imei c) fakeyanssIO Ho C Hx Hk Hop Hxc Hkc Hopc W
    ltac:(fold D; unfold genMsg0100; cbn [m_body]; rewrite Ei, Epl; exact R) ltac:(fold D; rewrite Ep; exact Hph) Hpl)
    as (l & sc1 & sc2 & sc3 & sc4 & s1 & s2 & f1 & f2 & f3 & f4 & code & G).
  - fold D. intros h' Hw' Hv' al code Hcl. eexists. rewrite Eim, Esw. apply auth2019_delivered; [exact Hw'|congruence|lia|exact Him|].
    split; [cbn; lia|]. right. exists (removelast fakeyanssIO), 111. split; [reflexivity|discriminate].
  - fold D in G. rewrite V, P in G. cbn [r_devid r_plate] in G. unfold comes_online. fold D.
    exists l, sc1, sc2, sc3, sc4, s1, s2, f1, f2, f3, f4, code. exact G.
Qed.
Lemma sim_online_2013 e ec sl slc s sc x xc k kc t c g : e_o ec = e_o e -> consistent s ->
  st_sess s !! sl = Some x -> st_conns s !! ss_conn x = Some k -> cn_open k = true ->
  st_sess sc !! slc = Some xc -> st_conns sc !! ss_conn xc = Some kc -> cn_open kc = true ->
  width (sm_version c) = Some 12%nat -> digits (sm_phone c) = true -> (length (sm_phone c) <= 12)%nat ->
  text_fits 7 (sm_id c) -> gbk_fits (e_o e) (sm_plate c) g -> g <> [] -> (length g < 987)%nat ->
  devAt s (repeat 48 (12 - length (sm_phone c)) ++ sm_phone c) = None -> devWithPlate s (sm_plate c) = None ->
  comes_online e ec sl slc s sc x xc k kc t c V2013 0 [] [].
Proof.
  intros Ho C Hx Hk Hop Hxc Hkc Hopc Hw Hd Hl Hi Hg Hgn Hgl Hph Hpl.
  set (D := genDevice c (ss_id xc) (ss_conn xc)).
  destruct (sim_phone c (ss_id xc) (ss_conn xc) _ Hw) as (Ep & Ev & Ei & Epl). fold D in Ep, Ev, Ei, Epl.
  pose proof (sim_wf c (ss_id xc) (ss_conn xc) _ 0x0100 Hw Hd Hl eq_refl) as W. fold D in W.
  destruct (simHeader_ver 0x0100 D) as (V & P).
  destruct (version_eqb (d_ver D) V2019); [discriminate Ev|].
  destruct (reg2013_delivered (e_o e) (simHeader 0x0100 D) (toWord (atoi (sm_prov c))) (toWord (atoi (sm_city c)))
    (firstn 5 fakeyanss) fakeyanss (sm_id c) (toByte (atoi (sm_color c))) (sm_plate c) [] g W V (toWord_lt _) (toWord_lt _))
    as (loc' & _ & R); [|apply text_fakeyanss; lia|exact Hi|exact Hg|exact Hgn|exact Hgl|].
  { split; [cbn; lia|]. right. exists [102; 97; 107; 101], 121. split; [reflexivity|discriminate]. }
  destruct (sim_online e ec sl slc s sc x xc k kc t c
    (mkReg (toWord (atoi (sm_prov c))) (toWord (atoi (sm_city c))) (firstn 5 fakeyanss) fakeyanss (sm_id c)
           (toByte (atoi (sm_color c))) (sm_plate c) loc') [] [] Ho C Hx Hk Hop Hxc Hkc Hopc W)
    as (l & sc1 & sc2 & sc3 & sc4 & s1 & s2 & f1 & f2 & f3 & f4 & code & G).
  - fold D. unfold genMsg0100. cbn [m_body]. rewrite Ei, Epl. unfold delivered in *.
    rewrite reg_cut; [exact R|exact V|cbn; lia].
  - fold D. rewrite Ep. exact Hph.
  - exact Hpl.
  - fold D. intros h' Hw' Hv' al code Hcl. eexists. apply auth2013_delivered; [exact Hw'|congruence|lia].
  - fold D in G. rewrite V, P in G. cbn [r_devid r_plate] in G. unfold comes_online. fold D.
    exists l, sc1, sc2, sc3, sc4, s1, s2, f1, f2, f3, f4, code. exact G.
Qed.

(** * Traffic of the simulated terminal *)
Lemma beat_delivered o h : hdr_wf h -> delivered o h B0002 B0002.
Proof. intros. eapply body_delivered; [assumption|constructor|cbn; lia]. Qed.
Lemma run_getSim s ph d : devAt s ph = Some d -> exists l, run (getSim ph) s = (Ok l, s) /\ st_devs s !! l = Some d.
Proof.
  intros H. destruct (devAt_look _ _ _ H) as (l & H1 & H2). exists l. split; [|exact H2]. unfold getSim. rewrite run_bind.
  unfold getDeviceByPhone, rd1. cbn [run ret]. rewrite H1. reflexivity.
Qed.
Lemma run_beats e sl s x k d f : st_sess s !! sl = Some x -> st_conns s !! ss_conn x = Some k -> cn_open k = true ->
  devAt s (d_phone d) = Some d -> encodePacket (e_o e) (genMsg0002 d) = Ok f -> forall n,
  exists s', run (keepalive e (d_phone d) sl (repeat None n)) s = (Ok tt, s')
    /\ st_conns s' !! ss_conn x = Some (mkConn true (cn_out k ++ repeat f n)) /\ st_sess s' = st_sess s
    /\ devAt s' (d_phone d) = Some d.
Proof.
  intros Hx Hk Ho Hd He n. destruct (run_getSim _ _ _ Hd) as (l & E & Hl).
  assert (K : forall n s k, st_sess s !! sl = Some x -> st_conns s !! ss_conn x = Some k -> cn_open k = true -> devAt s (d_phone d) = Some d ->
    exists s', run (beats0002 e (genMsg0002 d) sl (repeat None n)) s = (Ok tt, s')
    /\ st_conns s' !! ss_conn x = Some (mkConn true (cn_out k ++ repeat f n)) /\ st_sess s' = st_sess s
    /\ devAt s' (d_phone d) = Some d).
  { clear s k Hx Hk Ho Hd l E Hl n. induction n as [|n IH]; intros s k Hx Hk Ho Hd; cbn [repeat beats0002].
    - exists s. cbn [run ret]. rewrite app_nil_r. destruct k as [b o]. cbn in Ho. subst b. auto.
    - rewrite run_bind, (run_clientSend e sl s x k _ f Hx Hk Ho He).
      destruct (IH (with_out (ss_conn x) k f s) (mkConn true (cn_out k ++ [f]))) as (s' & R & Hc & Hs & Hd');
        [exact Hx|cbn; apply lookup_insert|reflexivity|exact Hd|].
      exists s'. split; [exact R|]. rewrite Hc. cbn [cn_out]. rewrite <- app_assoc. auto. }
  destruct (K n s k Hx Hk Ho Hd) as (s' & R & H). exists s'. split; [|exact H].
  unfold keepalive. rewrite run_bind, E, run_bind. unfold readConst. cbn [run]. rewrite Hl. exact R.
Qed.
Lemma run_report e other sl s x k d g r f : st_sess s !! sl = Some x -> st_conns s !! ss_conn x = Some k -> cn_open k = true ->
  devAt s (d_phone d) = Some d -> encodePacket (e_o e) (genMsg0200 other d g r (e_civil e (st_clock s))) = Ok f ->
  run (reportLocation e other (d_phone d) g sl [(r, None)]) s = (Ok tt, with_out (ss_conn x) k f s).
Proof.
  intros Hx Hk Ho Hd He. destruct (run_getSim _ _ _ Hd) as (l & E & Hl). cbn [reportLocation].
  rewrite run_bind, E, run_bind. unfold readConst. cbn [run]. rewrite Hl. cbn [run ret].
  rewrite run_bind. unfold getNow, rd1. cbn [run ret].
  rewrite run_bind, (run_clientSend e sl s x k _ f Hx Hk Ho He). reflexivity.
Qed.

(** a heartbeat of the simulated terminal refreshes its record on the server *)
Lemma sim_beat e ec sl slc s sc x xc k kc d d' : e_o ec = e_o e -> consistent s ->
  st_sess s !! sl = Some x -> st_conns s !! ss_conn x = Some k -> cn_open k = true ->
  st_sess sc !! slc = Some xc -> st_conns sc !! ss_conn xc = Some kc -> cn_open kc = true ->
  devAt sc (d_phone d) = Some d -> hdr_wf (simHeader 0x0002 d) -> devAt s (d_phone d) = Some d' ->
  exists sc' s' f f', run (keepalive ec (d_phone d) slc [None]) sc = (Ok tt, sc')
    /\ st_conns sc' !! ss_conn xc = Some (mkConn true (cn_out kc ++ [f]))
    /\ run (serveOne e sl (Ok f) None) s = (Ok true, s')
    /\ st_conns s' !! ss_conn x = Some (mkConn true (cn_out k ++ [f']))
    /\ devAt s' (d_phone d) =
       Some (mkDevice (d_id d') (d_plate d') (d_phone d') (d_sid d') (d_conn d') (d_keep d') (st_clock s)
                      (d_status d') (d_ver d') (d_proto d') (d_auth d') (d_imei d') (d_sw d')).
Proof.
  intros Ho C Hx Hk Hop Hxc Hkc Hopc Hc W Hd.
  destruct (beat_delivered (e_o e) _ W) as (n & D1). destruct (D1 (e_civil e (st_clock s))) as (f & p & E & Dc & Hh & _ & M).
  destruct (run_beats ec slc sc xc kc d f Hxc Hkc Hopc Hc ltac:(rewrite Ho; exact E) 1) as (sc' & R & Rc & _).
  destruct (simHeader_rest 0x0002 d) as (Hid & Hfr & Hsn).
  assert (Hnf : isFragmented (pk_hdr p) = false).
  { rewrite Hh. unfold isFragmented. cbn. rewrite Hfr. reflexivity. }
  assert (Hp : h_phone (pk_hdr p) = d_phone d) by (rewrite Hh; cbn; apply simHeader_phone).
  assert (K : carries e s p 0x0002 B0002).
  { split; [rewrite Hh; exact Hid|]. split; [left; exact Hnf|exact M]. }
  rewrite <- Hp in Hd. destruct (heartbeat e sl s p d' C K Hd) as (res & s1 & P & C1 & A & Dv & _ & _ & _ & Rk).
  assert (W2 : hdr_wf (hdr_set_id (simHeader 0x0002 d) 0x8001)) by (apply hdr_set_id_wf; [exact W|reflexivity]).
  destruct (reply_delivered (e_o e) _ 1 0x0002 0 W2 ltac:(lia) ltac:(lia)) as (_ & n2 & D2).
  destruct (D2 (e_civil e (st_clock s))) as (f' & _ & E2 & _).
  assert (E2' : encodePacket (e_o e) res = Ok f').
  { rewrite <- E2. etransitivity; [|exact (encode_len (e_o e) (hdr_set_id (simHeader 0x0002 d) 0x8001) n (B8001 1 0x0002 0))]. f_equal.
    assert (S : h_sn (pk_hdr p) = 1) by (rewrite Hh; exact Hsn). rewrite A. f_equal; [rewrite Hh; reflexivity|rewrite S; reflexivity]. }
  pose proof (serve_reply e sl s x k f p res s1 f' Hx Hk Hop Dc Hnf P ltac:(apply Rk) E2') as S1.
  eexists sc', _, f, f'. split; [exact R|]. split; [exact Rc|]. split; [exact S1|]. split; [cbn; apply lookup_insert|].
  rewrite Hp in Dv. exact Dv.
Qed.

(** ... and a report adds to its history what was generated *)
Lemma sim_report_stored e ec other sl slc s sc x xc k kc d d' g r ws : e_o ec = e_o e -> consistent s ->
  st_sess s !! sl = Some x -> st_conns s !! ss_conn x = Some k -> cn_open k = true ->
  st_sess sc !! slc = Some xc -> st_conns sc !! ss_conn xc = Some kc -> cn_open kc = true ->
  devAt sc (d_phone d) = Some d -> hdr_wf (simHeader 0x0200 d) -> devAt s (d_phone d) = Some d' -> track s (d_phone d) ws ->
  let now := e_civil ec (st_clock sc) in civil_valid now -> year_window now ->
  exists sc' s' f f' l, genMsg0200 other d g r now = mkMsg (simHeader 0x0200 d) (B0200 l)
    /\ run (reportLocation ec other (d_phone d) g slc [(r, None)]) sc = (Ok tt, sc')
    /\ st_conns sc' !! ss_conn xc = Some (mkConn true (cn_out kc ++ [f]))
    /\ run (serveOne e sl (Ok f) None) s = (Ok true, s')
    /\ st_conns s' !! ss_conn x = Some (mkConn true (cn_out k ++ [f']))
    /\ track s' (d_phone d) (ws ++ [mkDevGeo (d_phone d) (geoDecode (l_status l)) (l_lat l) (l_lon l) (l_altitude l) (l_speed l) (l_dir l) now]).
Proof.
  intros Ho C Hx Hk Hop Hxc Hkc Hopc Hc W Hd Ht now Hv Hy.
  destruct (sim_report other d g r now) as (l & El & _ & _ & _ & _ & _ & Etime & Dl).
  destruct (Dl (e_o e) Hv W) as (n & D1). destruct (D1 (e_civil e (st_clock s))) as (f & p & E & Dc & Hh & _ & M).
  assert (R : run (reportLocation ec other (d_phone d) g slc [(r, None)]) sc = (Ok tt, with_out (ss_conn xc) kc f sc)).
  { apply run_report; try assumption. fold now. rewrite El, Ho. exact E. }
  destruct (simHeader_rest 0x0200 d) as (Hid & Hfr & Hsn).
  assert (Hnf : isFragmented (pk_hdr p) = false).
  { rewrite Hh. unfold isFragmented. cbn. rewrite Hfr. reflexivity. }
  assert (Hp : h_phone (pk_hdr p) = d_phone d) by (rewrite Hh; cbn; apply simHeader_phone).
  assert (K : carries e s p 0x0200 (B0200 l)).
  { split; [rewrite Hh; exact Hid|]. split; [left; exact Hnf|exact M]. }
  rewrite <- Hp in Hd, Ht.
  destruct (location e sl s p l d' ws C K Hd Ht) as (res & s1 & gg & P & C1 & A & T & G & _ & _ & _ & _ & _ & _ & _ & _ & _ & Rk).
  assert (W2 : hdr_wf (hdr_set_id (simHeader 0x0200 d) 0x8001)) by (apply hdr_set_id_wf; [exact W|reflexivity]).
  destruct (reply_delivered (e_o e) _ 1 0x0200 0 W2 ltac:(lia) ltac:(lia)) as (_ & n2 & D2).
  destruct (D2 (e_civil e (st_clock s))) as (f' & _ & E2 & _).
  assert (E2' : encodePacket (e_o e) res = Ok f').
  { rewrite <- E2. etransitivity; [|exact (encode_len (e_o e) (hdr_set_id (simHeader 0x0200 d) 0x8001) n (B8001 1 0x0200 0))]. f_equal.
    assert (S : h_sn (pk_hdr p) = 1) by (rewrite Hh; exact Hsn). rewrite A. f_equal; [rewrite Hh; reflexivity|rewrite S; reflexivity]. }
  pose proof (serve_reply e sl s x k f p res s1 f' Hx Hk Hop Dc Hnf P Rk E2') as S1.
  eexists _, _, f, f', l. split; [exact El|]. split; [exact R|]. split; [cbn; apply lookup_insert|]. split; [exact S1|].
  split; [cbn; apply lookup_insert|]. rewrite Hp in T, G. rewrite G in T.
  unfold ParseTime in T. rewrite Etime, (timeParse_FormatTime now Hv Hy) in T. exact T.
Qed.

(** * A refused registration *)
Lemma no_code id pl ph : ~ is_code id pl ph authCode.
Proof. intros (_ & H & _). apply Forall_inv in H. lia. Qed.
Lemma refusal e sl s p r x : consistent s -> carries e s p 0x0100 (B0100 r) -> st_sess s !! sl = Some x ->
  devAt s (h_phone (pk_hdr p)) <> None \/ devWithPlate s (r_plate r) <> None ->
  exists res n, run (process e sl p) s = (Ok (Some res), s)
    /\ answers p 0x8100 (B8100 (h_sn (pk_hdr p)) n authCode) res
    /\ n = match devWithPlate s (r_plate r) with Some _ => 1 | None => 3 end.
Proof.
  intros C Hc Hx Hr. erewrite process_carries; [|exact Hc|reflexivity|reflexivity].
  unfold handler. cbn [m_body]. erewrite run_0100 by exact Hx. cbn [m_hdr].
  assert (Hp : devWithPlate s (r_plate r) = None <-> st_byPlate s !! r_plate r = None) by (apply devWithPlate_None; exact C).
  assert (Hq : devAt s (h_phone (pk_hdr p)) = None <-> st_byPhone s !! h_phone (pk_hdr p) = None) by (apply devAt_None; exact C).
  destruct (st_byPlate s !! r_plate r) as [l|].
  - destruct (devWithPlate s (r_plate r)) as [d|]; [|destruct Hp as [Hp _]; specialize (Hp eq_refl); discriminate].
    eexists _, 1. split; [reflexivity|]. split; reflexivity.
  - destruct (devWithPlate s (r_plate r)) as [d|]; [destruct Hp as [_ Hp]; specialize (Hp eq_refl); discriminate|].
    destruct (st_byPhone s !! h_phone (pk_hdr p)) as [l|].
    + eexists _, 3. split; [reflexivity|]. split; reflexivity.
    + exfalso. destruct Hq as [_ Hq]. specialize (Hq eq_refl). destruct Hr as [Hr|Hr]; [apply Hr, Hq|apply Hr; reflexivity].
Qed.

Section Refused.
Variables (e ec : env) (sl slc : nat) (s sc : st) (x xc : session) (k kc : conn) (t : Z) (c : simconf) (r' : reg) (imei sw : str) (d0 : device).
Let D := genDevice c (ss_id xc) (ss_conn xc).
Let h := simHeader 0x0100 D.
Hypothesis Ho : e_o ec = e_o e.
Hypothesis C : consistent s.
Hypothesis (Hx : st_sess s !! sl = Some x) (Hk : st_conns s !! ss_conn x = Some k) (Hop : cn_open k = true).
Hypothesis (Hxc : st_sess sc !! slc = Some xc) (Hkc : st_conns sc !! ss_conn xc = Some kc) (Hopc : cn_open kc = true).
Hypothesis Hwf : hdr_wf h.
Hypothesis Hreg : delivered (e_o e) h (m_body (genMsg0100 c D)) (B0100 r').
Hypothesis Hph : devAt s (d_phone D) = Some d0.
Hypothesis Hauth : forall h', hdr_wf h' -> a_ver (h_attr h') = a_ver (h_attr h) -> forall al code, (length code <= 20)%nat ->
  exists al', delivered (e_o e) h' (B0102 al code (d_imei D) (d_sw D)) (B0102 al' code imei sw).

Lemma sim_refused : exists l sc1 sc2 sc3 s1 s2 f1 f2 f3 f4 n,
  run (buildDevice c slc) sc = (Ok l, sc1)
  /\ run (register ec c (d_phone D) slc None) sc1 = (Ok tt, sc2)
  /\ st_conns sc2 !! ss_conn xc = Some (mkConn true (cn_out kc ++ [f1]))
  /\ run (serveOne e sl (Ok f1) None) s = (Ok true, s1)
  /\ st_conns s1 !! ss_conn x = Some (mkConn true (cn_out k ++ [f2]))
  (* the registration is refused and the device still there *)
  /\ (exists p2, decodePacket (e_o ec) f2 = Ok p2 /\ carries ec sc2 p2 0x8100 (B8100 1 n authCode)) /\ (n = 1 \/ n = 3)
  /\ devAt s1 (d_phone D) = Some d0
  (* the client authenticates all the same *)
  /\ run (clientLoop ec slc [(Ok f2, None)]) sc2 = (Ok false, sc3)
  /\ st_conns sc3 !! ss_conn xc = Some (mkConn true (cn_out kc ++ [f1; f3]))
  /\ run (serveOne e sl (Ok f3) None) (set_clock t s1) = (Ok true, s2)
  /\ st_conns s2 !! ss_conn x = Some (mkConn true (cn_out k ++ [f2; f4]))
  (* and the registered device is gone *)
  /\ devAt s2 (d_phone D) = None /\ devWithPlate s2 (d_plate d0) = None.
Proof using All.
  destruct (run_build c slc sc xc Hxc) as (B1 & B2). fold D in B2. set (sc1 := built c xc sc) in *.
  destruct (simHeader_rest 0x0100 D) as (Hid & Hfr & Hsn). fold h in Hid, Hfr, Hsn.
  pose proof (simHeader_phone 0x0100 D) as Hhp. fold h in Hhp.
  assert (Hnf : forall n, isFragmented (hdr_set_len h n) = false).
  { intros n. unfold isFragmented. cbn. rewrite Hfr. reflexivity. }
  destruct Hreg as (n1 & D1). destruct (D1 (e_civil e (st_clock s))) as (f1 & p1 & E1 & Dc1 & Hh1 & _ & M1).
  set (sc2 := with_out (ss_conn xc) kc f1 sc1).
  assert (R1 : run (register ec c (d_phone D) slc None) sc1 = (Ok tt, sc2)).
  { apply run_register; try assumption. rewrite Ho. exact E1. }
  set (k2 := mkConn true (cn_out kc ++ [f1])).
  assert (Hkc2 : st_conns sc2 !! ss_conn xc = Some k2) by (cbn; apply lookup_insert).
  assert (Hc1 : carries e s p1 0x0100 (B0100 r')).
  { split; [rewrite Hh1; exact Hid|]. split; [left; rewrite Hh1; apply Hnf|exact M1]. }
  assert (Hp1 : h_phone (pk_hdr p1) = d_phone D) by (rewrite Hh1; exact Hhp).
  destruct (refusal e sl s p1 r' x C Hc1 Hx ltac:(left; rewrite Hp1, Hph; discriminate)) as (m2 & n & P1 & A1 & Hn).
  assert (Hn' : n = 1 \/ n = 3) by (destruct (devWithPlate s (r_plate r')); auto).
  set (h2 := hdr_set_id h 0x8100).
  assert (W2 : hdr_wf h2) by (apply hdr_set_id_wf; [exact Hwf|reflexivity]).
  destruct (regreply_delivered (e_o e) h2 1 n authCode W2 ltac:(lia) ltac:(cbn; lia)) as (n2 & D2).
  destruct (D2 (e_civil ec (st_clock sc2))) as (f2 & p2 & E2 & Dc2 & Hh2 & _ & M2).
  assert (E2' : encodePacket (e_o e) m2 = Ok f2).
  { rewrite <- E2. etransitivity; [|exact (encode_len (e_o e) h2 n1 (B8100 1 n authCode))]. f_equal.
    assert (S : h_sn (pk_hdr p1) = 1) by (rewrite Hh1; exact Hsn). rewrite A1. f_equal; [rewrite Hh1; reflexivity|rewrite S; reflexivity]. }
  pose proof (serve_reply e sl s x k f1 p1 m2 s f2 Hx Hk Hop Dc1 ltac:(rewrite Hh1; apply Hnf) P1 eq_refl E2') as S1.
  set (s1 := set_conns (<[ss_conn x := mkConn true (cn_out k ++ [f2])]>) s) in *.
  (* the client *)
  assert (Hc2 : carries ec sc2 p2 0x8100 (B8100 1 n authCode)).
  { split; [rewrite Hh2; reflexivity|]. split; [left; rewrite Hh2; apply (Hnf n2)|]. rewrite Ho. exact M2. }
  destruct (devAt_look _ _ _ B2) as (lc & L1 & L2).
  set (h3 := hdr_set_id h 0x0102).
  assert (W3 : hdr_wf h3) by (apply hdr_set_id_wf; [exact Hwf|reflexivity]).
  set (m3 := mkMsg (hdr_set_len h3 n2) (B0102 (N.of_nat (length authCode) mod 256) authCode (d_imei D) (d_sw D))).
  assert (P3 : run (process ec slc p2) sc2 = (Ok (Some m3), sc2)).
  { erewrite process_carries; [|exact Hc2|reflexivity|reflexivity]. unfold handler. cbn [m_body].
    unfold process8100. rewrite run_bind. cbn [getDeviceByPhone rd1 run ret m_hdr]. unfold ret. rewrite Hh2.
    cbn [run with_len hdr_set_len h_phone]. change (h_phone h2) with (h_phone h). rewrite Hhp.
    change (st_byPhone sc2) with (st_byPhone sc1). rewrite L1. rewrite run_bind. cbn [readDev run].
    change (st_devs sc2) with (st_devs sc1). rewrite L2. reflexivity. }
  destruct (Hauth h3 W3 eq_refl (N.of_nat (length authCode) mod 256) authCode ltac:(cbn; lia)) as (al' & n3 & D3).
  destruct (D3 (e_civil e t)) as (f3 & p3 & E3 & Dc3 & Hh3 & _ & M3).
  assert (E3' : encodePacket (e_o ec) m3 = Ok f3) by (unfold m3; rewrite encode_len, Ho; exact E3).
  rewrite <- Ho in Dc2.
  pose proof (client_reply ec slc sc2 xc k2 f2 p2 m3 sc2 f3 Hxc Dc2 ltac:(rewrite Hh2; apply (Hnf n2)) P3 Hkc2 eq_refl E3') as L3.
  (* the server again *)
  set (s1t := set_clock t s1).
  assert (C1 : consistent s1t) by (apply consistent_clock, consistent_conns_insert; exact C).
  assert (Hc3 : carries e s1t p3 0x0102 (B0102 al' authCode imei sw)).
  { split; [rewrite Hh3; reflexivity|]. split; [left; rewrite Hh3; apply (Hnf n3)|exact M3]. }
  assert (Hp3 : h_phone (pk_hdr p3) = d_phone D) by (rewrite Hh3; exact Hhp).
  assert (Hd3 : devAt s1t (h_phone (pk_hdr p3)) = Some d0) by (rewrite Hp3; exact Hph).
  destruct (authentication e sl s1t p3 al' authCode imei sw d0 C1 Hc3 Hd3) as (m4 & sb & A & Cb & _ & Ar & _ & An).
  destruct (An (no_code _ _ _)) as (Aans & Adev & Apl & _).
  set (h4 := hdr_set_id h 0x8001).
  assert (W4 : hdr_wf h4) by (apply hdr_set_id_wf; [exact Hwf|reflexivity]).
  destruct (reply_delivered (e_o e) h4 1 0x0102 1 W4 ltac:(lia) ltac:(lia)) as (_ & n4 & D4).
  destruct (D4 (e_civil ec (st_clock sc))) as (f4 & _ & E4 & _).
  assert (E4' : encodePacket (e_o e) m4 = Ok f4).
  { rewrite <- E4. etransitivity; [|exact (encode_len (e_o e) h4 n3 (B8001 1 0x0102 1))]. f_equal.
    assert (S : h_sn (pk_hdr p3) = 1) by (rewrite Hh3; exact Hsn). rewrite Aans. f_equal; [rewrite Hh3; reflexivity|rewrite S; reflexivity]. }
  assert (Hk1 : st_conns s1t !! ss_conn x = Some (mkConn true (cn_out k ++ [f2]))) by (cbn; apply lookup_insert).
  pose proof (serve_reply e sl s1t x _ f3 p3 m4 sb f4 Hx Hk1 eq_refl Dc3 ltac:(rewrite Hh3; apply (Hnf n3)) A
    ltac:(apply Ar) E4') as S2. cbn [cn_out] in S2. rewrite <- app_assoc in S2. cbn [app] in S2.
  eexists _, sc1, sc2, _, s1, _, f1, f2, f3, f4, n. split; [exact B1|]. split; [exact R1|]. split; [exact Hkc2|]. split; [exact S1|].
  split; [cbn; apply lookup_insert|]. split; [exists p2; split; [exact Dc2|exact Hc2]|]. split; [exact Hn'|]. split; [exact Hph|]. split; [exact L3|].
  split; [cbn; rewrite lookup_insert, <- app_assoc; reflexivity|]. split; [exact S2|]. split; [cbn; apply lookup_insert|].
  rewrite Hp3 in Adev. split; [exact Adev|exact Apl].
Qed.
End Refused.

Lemma sim_refused_2019 e ec sl slc s sc x xc k kc t c g d0 : e_o ec = e_o e -> consistent s ->
  st_sess s !! sl = Some x -> st_conns s !! ss_conn x = Some k -> cn_open k = true ->
  st_sess sc !! slc = Some xc -> st_conns sc !! ss_conn xc = Some kc -> cn_open kc = true ->
  width (sm_version c) = Some 20%nat -> digits (sm_phone c) = true -> (length (sm_phone c) <= 20)%nat ->
  text_fits 30 (sm_id c) -> length (sm_imei c) = 15%nat -> gbk_fits (e_o e) (sm_plate c) g -> (length g < 948)%nat ->
  devAt s (repeat 48 (20 - length (sm_phone c)) ++ sm_phone c) = Some d0 ->
  supplants e ec sl slc s sc x xc k kc t c d0.
Proof.
  intros Ho C Hx Hk Hop Hxc Hkc Hopc Hw Hd Hl Hi Him Hg Hgl Hph.
  set (D := genDevice c (ss_id xc) (ss_conn xc)).
  destruct (sim_phone c (ss_id xc) (ss_conn xc) _ Hw) as (Ep & Ev & Ei & Epl). fold D in Ep, Ev, Ei, Epl.
  pose proof (sim_wf c (ss_id xc) (ss_conn xc) _ 0x0100 Hw Hd Hl eq_refl) as W. fold D in W.
  destruct (genDevice_rest c (ss_id xc) (ss_conn xc)) as (_ & _ & Eim & Esw). fold D in Eim, Esw.
  destruct (simHeader_ver 0x0100 D) as (V & P).
  destruct (version_eqb (d_ver D) V2019); [|discriminate Ev].
  destruct (reg2019_delivered (e_o e) (simHeader 0x0100 D) (toWord (atoi (sm_prov c))) (toWord (atoi (sm_city c)))
    fakeyanss fakeyanss (sm_id c) (toByte (atoi (sm_color c))) (sm_plate c) [] g W V (toWord_lt _) (toWord_lt _)
    (text_fakeyanss 11 ltac:(lia)) (text_fakeyanss 30 ltac:(lia)) Hi Hg Hgl) as (loc' & _ & R).
  destruct (sim_refused e ec sl slc s sc x xc k kc t c _ (sm_imei c) fakeyanssIO d0 Ho C Hx Hk Hop Hxc Hkc Hopc W
    ltac:(fold D; unfold genMsg0100; cbn [m_body]; rewrite Ei, Epl; exact R) ltac:(fold D; rewrite Ep; exact Hph))
    as (l & sc1 & sc2 & sc3 & s1 & s2 & f1 & f2 & f3 & f4 & n & G).
  - fold D. intros h' Hw' Hv' al code Hcl. eexists. rewrite Eim, Esw. apply auth2019_delivered; [exact Hw'|congruence|lia|exact Him|].
    split; [cbn; lia|]. right. exists (removelast fakeyanssIO), 111. split; [reflexivity|discriminate].
  - fold D in G. unfold supplants. fold D.
    exists l, sc1, sc2, sc3, s1, s2, f1, f2, f3, f4, n. exact G.
Qed.
Lemma sim_refused_2013 e ec sl slc s sc x xc k kc t c g d0 : e_o ec = e_o e -> consistent s ->
  st_sess s !! sl = Some x -> st_conns s !! ss_conn x = Some k -> cn_open k = true ->
  st_sess sc !! slc = Some xc -> st_conns sc !! ss_conn xc = Some kc -> cn_open kc = true ->
  width (sm_version c) = Some 12%nat -> digits (sm_phone c) = true -> (length (sm_phone c) <= 12)%nat ->
  text_fits 7 (sm_id c) -> gbk_fits (e_o e) (sm_plate c) g -> g <> [] -> (length g < 987)%nat ->
  devAt s (repeat 48 (12 - length (sm_phone c)) ++ sm_phone c) = Some d0 ->
  supplants e ec sl slc s sc x xc k kc t c d0.
Proof.
  intros Ho C Hx Hk Hop Hxc Hkc Hopc Hw Hd Hl Hi Hg Hgn Hgl Hph.
  set (D := genDevice c (ss_id xc) (ss_conn xc)).
  destruct (sim_phone c (ss_id xc) (ss_conn xc) _ Hw) as (Ep & Ev & Ei & Epl). fold D in Ep, Ev, Ei, Epl.
  pose proof (sim_wf c (ss_id xc) (ss_conn xc) _ 0x0100 Hw Hd Hl eq_refl) as W. fold D in W.
  destruct (simHeader_ver 0x0100 D) as (V & P).
  destruct (version_eqb (d_ver D) V2019); [discriminate Ev|].
  destruct (reg2013_delivered (e_o e) (simHeader 0x0100 D) (toWord (atoi (sm_prov c))) (toWord (atoi (sm_city c)))
    (firstn 5 fakeyanss) fakeyanss (sm_id c) (toByte (atoi (sm_color c))) (sm_plate c) [] g W V (toWord_lt _) (toWord_lt _))
    as (loc' & _ & R); [|apply text_fakeyanss; lia|exact Hi|exact Hg|exact Hgn|exact Hgl|].
  { split; [cbn; lia|]. right. exists [102; 97; 107; 101], 121. split; [reflexivity|discriminate]. }
  destruct (sim_refused e ec sl slc s sc x xc k kc t c
    (mkReg (toWord (atoi (sm_prov c))) (toWord (atoi (sm_city c))) (firstn 5 fakeyanss) fakeyanss (sm_id c)
           (toByte (atoi (sm_color c))) (sm_plate c) loc') [] [] d0 Ho C Hx Hk Hop Hxc Hkc Hopc W)
    as (l & sc1 & sc2 & sc3 & s1 & s2 & f1 & f2 & f3 & f4 & n & G).
  - fold D. unfold genMsg0100. cbn [m_body]. rewrite Ei, Epl. unfold delivered in *.
    rewrite reg_cut; [exact R|exact V|cbn; lia].
  - fold D. rewrite Ep. exact Hph.
  - fold D. intros h' Hw' Hv' al code Hcl. eexists. apply auth2013_delivered; [exact Hw'|congruence|lia].
  - fold D in G. unfold supplants. fold D.
    exists l, sc1, sc2, sc3, s1, s2, f1, f2, f3, f4, n. exact G.
Qed.

(** the headers as the specification puts them *)
Lemma sim_header c sid cn n id : width (sm_version c) = Some n ->
  simHeader id (genDevice c sid cn) = terminal_header n (zeros_before n (sm_phone c)) id 1.
Proof.
  intros Hw. destruct (sim_phone c sid cn n Hw) as (Ep & Ev & _). unfold simHeader, terminal_header. rewrite Ep.
  destruct (version_eqb _ _); subst n; reflexivity.
Qed.
Lemma sim_headers c sid cn n other g r now : width (sm_version c) = Some n -> digits (sm_phone c) = true -> (length (sm_phone c) <= n)%nat ->
  let d := genDevice c sid cn in
  forall m id, In (m, id) [(genMsg0100 c d, 0x0100); (genMsg0002 d, 0x0002); (genMsg0200 other d g r now, 0x0200)] ->
  m_hdr m = terminal_header n (zeros_before n (sm_phone c)) id 1 /\ hdr_wf (m_hdr m).
Proof.
  intros Hw Hd Hl d m id Hin.
  assert (K : m_hdr m = simHeader id d /\ id < 65536).
  { cbn [In] in Hin. destruct Hin as [E|[E|[E|[]]]]; injection E as <- <-; split; reflexivity || lia. }
  destruct K as (-> & Hi). split; [apply sim_header; exact Hw|]. apply (sim_wf c sid cn n id Hw Hd Hl Hi).
Qed.
Lemma sim_off other d la lo al sp r now l : wraps other ->
  genMsg0200 other d (mkSimGeo (f64_of_Z la) (f64_of_Z lo) al (f64_of_Z sp)) r now = mkMsg (simHeader 0x0200 d) (B0200 l) ->
  (la = 0%Z -> is_finite 53 1024 (dr_lat r) = true -> (-1 <= B2R 53 1024 (dr_lat r) <= - / IZR 1000000)%R -> l_lat l = 90000000)
  /\ (lo = 0%Z -> is_finite 53 1024 (dr_lon r) = true -> (-1 <= B2R 53 1024 (dr_lon r) <= - / IZR 1000000)%R -> l_lon l = 180000000)
  /\ (al < 65536 -> (-5 <= dr_altitude r <= 5)%Z -> (Z.of_N al + dr_altitude r < 0 \/ 5000 < Z.of_N al + dr_altitude r < 65536)%Z -> l_altitude l = 1000)
  /\ ((0 <= sp <= 9)%Z -> is_finite 53 1024 (dr_speed r) = true ->
      (IZR (-10) <= B2R 53 1024 (dr_speed r) <= IZR (- sp - 1))%R -> l_speed l = 1000).
Proof.
  intros Hw E. destruct (sim_below other d la lo al sp r now l Hw E) as (B1 & B2 & B3 & B4). split; [|split; [|split]].
  - intros -> F H. destruct (zero_trunc _ 1000000 ltac:(lia) F H) as (z & Hz & Hr). apply (B1 z Hz). lia.
  - intros -> F H. destruct (zero_trunc _ 1000000 ltac:(lia) F H) as (z & Hz & Hr). apply (B2 z Hz). lia.
  - exact B3.
  - intros Hs F (H1 & H2). destruct (low_trunc sp _ 10 ltac:(lia) ltac:(lia) F) as (z & Hz & Hr).
    { split; [|exact H2]. apply Rle_trans with (IZR (-10)); [apply IZR_le; lia|exact H1]. }
    apply (B4 z Hz). lia.
Qed.
