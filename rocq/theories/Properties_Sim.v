(** Property theorems C87-C93: the simulated terminal of test/client and test/datagen. *)
From Coq Require Import String Ascii Reals.
From stdpp Require Import gmap.
From Flocq Require Import IEEE754.Binary IEEE754.Bits.
From Verif Require Import Base HexM TimeM HashM HeaderM ParamsM GeoM MsgM PacketM FrameM FloatM ProgM RingM
  StateM ProcM ServerM ClientM DatagenM SpecRing SpecState SpecCodec SpecSim TimeP FloatP SimFloatP DatagenP ServerP ConcP ExampleData ExampleState.
Local Open Scope N_scope.
Ltac vmr := vm_compute; reflexivity.

(** "2019", "2013", "13912345678", id "ID00001", plate "A12345", imei 15 digits *)
Definition v19 : str := [50; 48; 49; 57].
Definition v13 : str := [50; 48; 49; 51].
Definition phone11 : str := [49; 51; 57; 49; 50; 51; 52; 53; 54; 55; 56].
Definition conf (v : str) : simconf :=
  mkSim [73; 68; 48; 48; 48; 48; 49] [65; 49; 50; 51; 52; 53] phone11 (repeat 49 15) v 20 [51; 49] [49; 49; 53] [49].
(** a client with its dialled connection *)
Definition sc0 : st := w_st (history e0 1000 [EAccept 0 addr1]).
Definition kc0 : conn := mkConn true [].
Definition k1 : conn := default (mkConn false []) (st_conns s2 !! 0%nat).

(** C87: phone and header of everything the terminal generates *)
Theorem C87_headers_partial : forall c sid cn n other g r now, width (sm_version c) = Some n ->
  digits (sm_phone c) = true -> (length (sm_phone c) <= n)%nat ->
  let d := genDevice c sid cn in
  forall m id, In (m, id) [(genMsg0100 c d, 0x0100); (genMsg0002 d, 0x0002); (genMsg0200 other d g r now, 0x0200)] ->
  m_hdr m = terminal_header n (zeros_before n (sm_phone c)) id 1 /\ hdr_wf (m_hdr m).
Proof. exact sim_headers. Qed.
Print Assumptions C87_headers_partial.
(** with any other version string a phone of 11 digits is read as another phone, and the body
    shifted by one byte *)
Theorem C87_refuted : forall o c sid cn id b w, width (sm_version c) = None ->
  digits (sm_phone c) = true -> length (sm_phone c) = 11%nat ->
  let h := simHeader id (genDevice c sid cn) in
  encBody o h b = Ok w -> bytes_ok w = true -> (1 <= length w < 1024)%nat ->
  exists frm p, encodePacket o (mkMsg h b) = Ok frm /\ decodePacket o frm = Ok p
    /\ h_phone (pk_hdr p) = firstn 10 (sm_phone c) ++ [48; 48] /\ sl_data (pk_body p) = skipn 1 w.
Proof. exact unpadded. Qed.
Print Assumptions C87_refuted.
Example C87_ex : width (sm_version (conf v19)) = Some 20%nat /\ width (sm_version (conf v13)) = Some 12%nat
  /\ digits (sm_phone (conf v19)) = true /\ (length (sm_phone (conf v19)) <= 12)%nat
  /\ zeros_before 12 (sm_phone (conf v13)) = 48 :: phone11
  /\ width (sm_version (conf [50; 48; 50; 48])) = None
  /\ exists w, encBody o0 (simHeader 0x0100 (genDevice (conf [50; 48; 50; 48]) [] 0))
                 (m_body (genMsg0100 (conf [50; 48; 50; 48]) (genDevice (conf [50; 48; 50; 48]) [] 0))) = Ok w
               /\ bytes_ok w = true /\ (length w = 43)%nat.
Proof.
  do 3 (split; [vmr|]). split; [vm_compute; lia|]. do 2 (split; [vmr|]).
  eexists. split; [vmr|]. split; vmr.
Qed.

(** C88: whatever the draws and whatever the conversion does with numbers that do not fit, the
    report is in range, has the time it was generated, and arrives as it is *)
Theorem C88_reports : forall other d g r now, exists l,
  genMsg0200 other d g r now = mkMsg (simHeader 0x0200 d) (B0200 l)
  /\ l_lat l <= 90000000 /\ l_lon l <= 180000000 /\ l_altitude l <= 5000 /\ l_speed l <= 3000
  /\ ((0 <= dr_dir r < 360)%Z -> l_dir l < 360) /\ (civil_valid now -> l_time l = time_digits now)
  /\ forall o, civil_valid now -> hdr_wf (simHeader 0x0200 d) -> delivered o (simHeader 0x0200 d) (B0200 l) (B0200 l).
Proof.
  intros other d g r now. destruct (sim_report other d g r now) as (l & H1 & H2 & H3 & H4 & H5 & H6 & H7 & H8). exists l.
  do 6 (split; [assumption|]). split; [intros Hv; rewrite H7; apply FormatTime_digits; exact Hv|exact H8].
Qed.
Print Assumptions C88_reports.
Definition dev19 : device := genDevice (conf v19) addr1 0.
Definition geo31 : simgeo := mkSimGeo (f64_of_Z 31) (f64_of_Z 121) 10 (f64_of_Z 60).
(** no offsets but three metres down *)
Definition draw0 : draw := mkDraw (f64_of_Z 0) (f64_of_Z 0) (-3) (f64_of_Z 0) 90 (fun _ => [49]).
Example C88_ex : hdr_wf (simHeader 0x0200 dev19) /\ civil_valid t_now
  /\ exists st tm, genMsg0200 (fun _ => 0) dev19 geo31 draw0 t_now
       = mkMsg (simHeader 0x0200 dev19) (B0200 (mkLoc 1024 st 31000000 121000000 7 600 90 tm)).
Proof.
  split. { unfold hdr_wf, attr_wf. cbn. repeat split; lia. }
  split. { unfold civil_valid. cbn. repeat split; try lia; intros; lia. }
  eexists _, _. vmr.
Qed.

(** C89: the report is near the configured position when that is away from the ends of the range *)
Theorem C89_near_partial : forall other d la lo al sp r now l,
  genMsg0200 other d (mkSimGeo (f64_of_Z la) (f64_of_Z lo) al (f64_of_Z sp)) r now = mkMsg (simHeader 0x0200 d) (B0200 l) ->
  ((1 <= la <= 90)%Z -> offset_in 1 (dr_lat r) -> (Z.abs (Z.of_N (l_lat l) - 1000000 * la) <= 1000000)%Z)
  /\ ((1 <= lo <= 180)%Z -> offset_in 1 (dr_lon r) -> (Z.abs (Z.of_N (l_lon l) - 1000000 * lo) <= 1000000)%Z)
  /\ (5 <= al <= 4995 -> (-5 <= dr_altitude r <= 5)%Z -> (Z.of_N (l_altitude l) = Z.of_N al + dr_altitude r)%Z)
  /\ ((10 <= sp <= 290)%Z -> offset_in 10 (dr_speed r) -> (Z.abs (Z.of_N (l_speed l) - 10 * sp) <= 100)%Z).
Proof. exact sim_near. Qed.
Print Assumptions C89_near_partial.
(** below zero, where negative numbers wrap around: the pole, the date line, 1000 m, 100 km/h *)
Theorem C89_refuted : forall other d la lo al sp r now l, wraps other ->
  genMsg0200 other d (mkSimGeo (f64_of_Z la) (f64_of_Z lo) al (f64_of_Z sp)) r now = mkMsg (simHeader 0x0200 d) (B0200 l) ->
  (la = 0%Z -> is_finite 53 1024 (dr_lat r) = true -> (-1 <= B2R 53 1024 (dr_lat r) <= - / IZR 1000000)%R -> l_lat l = 90000000)
  /\ (lo = 0%Z -> is_finite 53 1024 (dr_lon r) = true -> (-1 <= B2R 53 1024 (dr_lon r) <= - / IZR 1000000)%R -> l_lon l = 180000000)
  /\ (al < 65536 -> (-5 <= dr_altitude r <= 5)%Z -> (Z.of_N al + dr_altitude r < 0 \/ 5000 < Z.of_N al + dr_altitude r < 65536)%Z -> l_altitude l = 1000)
  /\ ((0 <= sp <= 9)%Z -> is_finite 53 1024 (dr_speed r) = true ->
      (IZR (-10) <= B2R 53 1024 (dr_speed r) <= IZR (- sp - 1))%R -> l_speed l = 1000).
Proof. exact sim_off. Qed.
Print Assumptions C89_refuted.
Definition wrap0 (x : binary64) : N := match f64_trunc x with Some z => Z.to_N (z mod 2 ^ 64) | None => 0 end.
(** one degree to the south and west, five metres down, 10 km/h slower *)
Definition draw_sw : draw := mkDraw (f64_of_Z (-1)) (f64_of_Z (-1)) (-5) (f64_of_Z (-10)) 0 (fun _ => [48]).
Example C89_ex : wraps wrap0 /\ offset_in 1 (dr_lat draw_sw) /\ offset_in 10 (dr_speed draw_sw)
  /\ is_finite 53 1024 (dr_lat draw_sw) = true /\ (-1 <= B2R 53 1024 (dr_lat draw_sw) <= - / IZR 1000000)%R
  /\ (exists st tm, genMsg0200 wrap0 dev19 geo31 draw_sw t_now
       = mkMsg (simHeader 0x0200 dev19) (B0200 (mkLoc 1024 st 30000000 120000000 5 500 0 tm)))
  /\ exists st tm, genMsg0200 wrap0 dev19 (mkSimGeo (f64_of_Z 0) (f64_of_Z 0) 4 (f64_of_Z 5)) draw_sw t_now
       = mkMsg (simHeader 0x0200 dev19) (B0200 (mkLoc 1024 st 90000000 180000000 1000 1000 0 tm)).
Proof.
  split. { intros x z H. unfold wrap0. rewrite H. reflexivity. }
  destruct (f64_of_Z_spec (-1) ltac:(lia)) as (E1 & F1). destruct (f64_of_Z_spec (-10) ltac:(lia)) as (E2 & F2).
  cbn [dr_lat dr_speed draw_sw]. unfold offset_in. rewrite E1, E2. 
  split; [split; [exact F1|Lra.lra]|]. split; [split; [exact F2|Lra.lra]|]. split; [exact F1|]. split; [Lra.lra|].
  split; eexists _, _; vmr.
Qed.

(** C90: from the dialled connection to the moment keepalive and reports start, through both
    programs and the wire *)
Theorem C90_online_2019 : forall e ec sl slc s sc x xc k kc t c g, e_o ec = e_o e -> consistent s ->
  st_sess s !! sl = Some x -> st_conns s !! ss_conn x = Some k -> cn_open k = true ->
  st_sess sc !! slc = Some xc -> st_conns sc !! ss_conn xc = Some kc -> cn_open kc = true ->
  width (sm_version c) = Some 20%nat -> digits (sm_phone c) = true -> (length (sm_phone c) <= 20)%nat ->
  text_fits 30 (sm_id c) -> length (sm_imei c) = 15%nat -> gbk_fits (e_o e) (sm_plate c) g -> (length g < 948)%nat ->
  devAt s (zeros_before 20 (sm_phone c)) = None -> devWithPlate s (sm_plate c) = None ->
  comes_online e ec sl slc s sc x xc k kc t c V2019 1 (sm_imei c)
    (List.map N_of_ascii (list_ascii_of_string "fakeyanss.github.io"%string)).
Proof. exact sim_online_2019. Qed.
Print Assumptions C90_online_2019.
Theorem C90_online_2013 : forall e ec sl slc s sc x xc k kc t c g, e_o ec = e_o e -> consistent s ->
  st_sess s !! sl = Some x -> st_conns s !! ss_conn x = Some k -> cn_open k = true ->
  st_sess sc !! slc = Some xc -> st_conns sc !! ss_conn xc = Some kc -> cn_open kc = true ->
  width (sm_version c) = Some 12%nat -> digits (sm_phone c) = true -> (length (sm_phone c) <= 12)%nat ->
  text_fits 7 (sm_id c) -> gbk_fits (e_o e) (sm_plate c) g -> g <> [] -> (length g < 987)%nat ->
  devAt s (zeros_before 12 (sm_phone c)) = None -> devWithPlate s (sm_plate c) = None ->
  comes_online e ec sl slc s sc x xc k kc t c V2013 0 [] [].
Proof. exact sim_online_2013. Qed.
Print Assumptions C90_online_2013.
Example C90_ex : consistent s2 /\ st_sess s2 !! 0%nat = Some x1 /\ st_conns s2 !! ss_conn x1 = Some k1 /\ cn_open k1 = true
  /\ st_sess sc0 !! 0%nat = Some x1 /\ st_conns sc0 !! ss_conn x1 = Some kc0
  /\ width v19 = Some 20%nat /\ width v13 = Some 12%nat /\ digits phone11 = true
  /\ text_fits 7 (sm_id (conf v13)) /\ text_fits 30 (sm_id (conf v19)) /\ length (sm_imei (conf v19)) = 15%nat
  /\ gbk_fits o0 (sm_plate (conf v19)) (sm_plate (conf v19))
  /\ devAt s2 (zeros_before 20 phone11) = None /\ devWithPlate s2 (sm_plate (conf v19)) = None
  /\ devAt s2 (zeros_before 12 phone11) = Some d1.
Proof.
  split; [exact s2_ok|]. split; [exact s2_x1|]. repeat (split; [vmr|]).
  do 2 (split; [split; [vm_compute; lia|right; exists [73; 68; 48; 48; 48; 48], 49; split; [reflexivity|discriminate]]|]).
  split; [reflexivity|]. split; [split; reflexivity|]. repeat (split; [vmr|]). vmr.
Qed.

(** C91: all messages of a terminal have the serial number 1 *)
Theorem C91_refuted : forall c d other g r now m,
  In m [genMsg0100 c d; genMsg0002 d; genMsg0200 other d g r now] -> h_sn (m_hdr m) = 1.
Proof. intros c d other g r now m. cbn [In]. unfold genMsg0100, genMsg0002, genMsg0200, simHeader.
  destruct (version_eqb (d_ver d) V2019); intros [<-|[<-|[<-|[]]]]; reflexivity. Qed.
Print Assumptions C91_refuted.
Example C91_ex : h_sn (m_hdr (genMsg0100 (conf v19) dev19)) = h_sn (m_hdr (genMsg0002 dev19)).
Proof. vmr. Qed.

(** C92: a second terminal with a registered phone is refused, authenticates with the text of
    the refusal, and the server drops the device that was registered *)
Theorem C92_refuted_2019 : forall e ec sl slc s sc x xc k kc t c g d0, e_o ec = e_o e -> consistent s ->
  st_sess s !! sl = Some x -> st_conns s !! ss_conn x = Some k -> cn_open k = true ->
  st_sess sc !! slc = Some xc -> st_conns sc !! ss_conn xc = Some kc -> cn_open kc = true ->
  width (sm_version c) = Some 20%nat -> digits (sm_phone c) = true -> (length (sm_phone c) <= 20)%nat ->
  text_fits 30 (sm_id c) -> length (sm_imei c) = 15%nat -> gbk_fits (e_o e) (sm_plate c) g -> (length g < 948)%nat ->
  devAt s (zeros_before 20 (sm_phone c)) = Some d0 ->
  supplants e ec sl slc s sc x xc k kc t c d0.
Proof. exact sim_refused_2019. Qed.
Print Assumptions C92_refuted_2019.
Theorem C92_refuted_2013 : forall e ec sl slc s sc x xc k kc t c g d0, e_o ec = e_o e -> consistent s ->
  st_sess s !! sl = Some x -> st_conns s !! ss_conn x = Some k -> cn_open k = true ->
  st_sess sc !! slc = Some xc -> st_conns sc !! ss_conn xc = Some kc -> cn_open kc = true ->
  width (sm_version c) = Some 12%nat -> digits (sm_phone c) = true -> (length (sm_phone c) <= 12)%nat ->
  text_fits 7 (sm_id c) -> gbk_fits (e_o e) (sm_plate c) g -> g <> [] -> (length g < 987)%nat ->
  devAt s (zeros_before 12 (sm_phone c)) = Some d0 ->
  supplants e ec sl slc s sc x xc k kc t c d0.
Proof. exact sim_refused_2013. Qed.
Print Assumptions C92_refuted_2013.
(** the refusal itself changes nothing and carries no code that would be accepted *)
Theorem C92_refusal_partial : forall e sl s p r x, consistent s -> carries e s p 0x0100 (B0100 r) -> st_sess s !! sl = Some x ->
  devAt s (h_phone (pk_hdr p)) <> None \/ devWithPlate s (r_plate r) <> None ->
  exists res n, run (process e sl p) s = (Ok (Some res), s)
    /\ answers p 0x8100 (B8100 (h_sn (pk_hdr p)) n authCode) res
    /\ n = match devWithPlate s (r_plate r) with Some _ => 1 | None => 3 end
    /\ forall id pl ph, ~ is_code id pl ph authCode.
Proof.
  intros e sl s p r x C Hc Hx Hr. destruct (refusal e sl s p r x C Hc Hx Hr) as (res & n & H1 & H2 & H3).
  exists res, n. split; [exact H1|]. split; [exact H2|]. split; [exact H3|]. exact no_code.
Qed.
Print Assumptions C92_refusal_partial.
(** the first device of the example server is online, and a terminal with its phone comes; on its
    own connection or another one *)
Example C92_ex : supplants e0 e0 1 0 s2 sc0 x2 x1 (default (mkConn false []) (st_conns s2 !! 1%nat)) kc0 3000 (conf v13) d1.
Proof.
  apply (C92_refuted_2013 e0 e0 1 0 s2 sc0 x2 x1 _ kc0 3000 (conf v13) (sm_plate (conf v13)) d1).
  - reflexivity.
  - exact s2_ok.
  - exact s2_x2.
  - vmr.
  - vmr.
  - vmr.
  - vmr.
  - vmr.
  - vmr.
  - vmr.
  - vm_compute. lia.
  - split; [vm_compute; lia|right; exists [73; 68; 48; 48; 48; 48], 49; split; [reflexivity|discriminate]].
  - split; reflexivity.
  - discriminate.
  - vm_compute. lia.
  - vmr.
Qed.

(** C93: heartbeats refresh the terminal's record; a report adds exactly the generated
    position, speed, direction and time to its history *)
Theorem C93_heartbeat : forall e ec sl slc s sc x xc k kc d d', e_o ec = e_o e -> consistent s ->
  st_sess s !! sl = Some x -> st_conns s !! ss_conn x = Some k -> cn_open k = true ->
  st_sess sc !! slc = Some xc -> st_conns sc !! ss_conn xc = Some kc -> cn_open kc = true ->
  devAt sc (d_phone d) = Some d -> hdr_wf (simHeader 0x0002 d) -> devAt s (d_phone d) = Some d' ->
  exists sc' s' f f', run (keepalive ec (d_phone d) slc [None]) sc = (Ok tt, sc')
    /\ st_conns sc' !! ss_conn xc = Some (mkConn true (cn_out kc ++ [f]))
    /\ run (serveOne e sl (Ok f) None) s = (Ok true, s')
    /\ st_conns s' !! ss_conn x = Some (mkConn true (cn_out k ++ [f']))
    /\ devAt s' (d_phone d) =
       Some (mkDevice (d_id d') (d_plate d') (d_phone d') (d_sid d') (d_conn d') (d_keep d') (st_clock s)
                      (d_status d') (d_ver d') (d_proto d') (d_auth d') (d_imei d') (d_sw d')).
Proof. exact sim_beat. Qed.
Print Assumptions C93_heartbeat.
Theorem C93_report : forall e ec other sl slc s sc x xc k kc d d' g r ws, e_o ec = e_o e -> consistent s ->
  st_sess s !! sl = Some x -> st_conns s !! ss_conn x = Some k -> cn_open k = true ->
  st_sess sc !! slc = Some xc -> st_conns sc !! ss_conn xc = Some kc -> cn_open kc = true ->
  devAt sc (d_phone d) = Some d -> hdr_wf (simHeader 0x0200 d) -> devAt s (d_phone d) = Some d' -> track s (d_phone d) ws ->
  let now := e_civil ec (st_clock sc) in civil_valid now -> year_window now ->
  exists sc' s' f f' l, genMsg0200 other d g r now = mkMsg (simHeader 0x0200 d) (B0200 l)
    /\ run (reportLocation ec other (d_phone d) g slc [(r, None)]) sc = (Ok tt, sc')
    /\ st_conns sc' !! ss_conn xc = Some (mkConn true (cn_out kc ++ [f]))
    /\ run (serveOne e sl (Ok f) None) s = (Ok true, s')
    /\ st_conns s' !! ss_conn x = Some (mkConn true (cn_out k ++ [f']))
    /\ track s' (d_phone d) (ws ++ [mkDevGeo (d_phone d) (geoDecode (l_status l)) (l_lat l) (l_lon l) (l_altitude l) (l_speed l) (l_dir l) now]).
Proof. exact sim_report_stored. Qed.
Print Assumptions C93_report.
(** any number of heartbeats are the same frame again and again, on the terminal's connection *)
Theorem C93_heartbeats : forall e sl s x k d f, st_sess s !! sl = Some x -> st_conns s !! ss_conn x = Some k -> cn_open k = true ->
  devAt s (d_phone d) = Some d -> encodePacket (e_o e) (genMsg0002 d) = Ok f -> forall n,
  exists s', run (keepalive e (d_phone d) sl (repeat None n)) s = (Ok tt, s')
    /\ st_conns s' !! ss_conn x = Some (mkConn true (cn_out k ++ repeat f n)) /\ st_sess s' = st_sess s
    /\ devAt s' (d_phone d) = Some d.
Proof. exact run_beats. Qed.
Print Assumptions C93_heartbeats.
Definition dev13 : device := genDevice (conf v13) addr1 0.
Definition sc1 : st := snd (run (buildDevice (conf v13) 0) sc0).
Example C93_ex : st_sess sc1 !! 0%nat = Some x1 /\ st_conns sc1 !! ss_conn x1 = Some kc0
  /\ d_phone dev13 = phone12 /\ devAt sc1 (d_phone dev13) = Some dev13
  /\ hdr_wf (simHeader 0x0002 dev13) /\ hdr_wf (simHeader 0x0200 dev13)
  /\ devAt s2 (d_phone dev13) = Some d1 /\ (exists g, track s2 (d_phone dev13) [g])
  /\ civil_valid (e_civil e0 (st_clock sc1)) /\ year_window (e_civil e0 (st_clock sc1)).
Proof.
  repeat (split; [vmr|]).
  do 2 (split; [unfold hdr_wf, attr_wf; cbn; repeat split; lia|]). split; [vmr|]. split.
  { exists (mkDevGeo phone12 (geoDecode 3) 31230416 121473701 10 600 90 (ParseTime t_now (l_time loc_on))).
    unfold track. replace (d_phone dev13) with phone12 by vmr.
    replace (ringOf s2 phone12) with (Some (mkRing 100 (Some (mkDevGeo phone12 (geoDecode 3) 31230416 121473701 10 600 90 (ParseTime t_now (l_time loc_on))) :: repeat None 99) 0 1)) by vmr.
    split; [reflexivity|]. split; [|split; reflexivity]. split; [reflexivity|]. split.
    - intros [|j] x0 Hj _; [exact (f_equal Some Hj)|destruct j; discriminate].
    - intros [|i] [Hi Hi']; [cbn in Hi; lia|]. cbn [nth_error rg_slots].
      rewrite (nth_error_nth' _ None), nth_repeat by (rewrite repeat_length; lia). reflexivity. }
  split; [unfold civil_valid; cbn; repeat split; try lia; intros; lia|]. unfold year_window. cbn. lia.
Qed.
