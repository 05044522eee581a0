(** Property theorems C36, C41, C42, C44-C50, C54-C57, C59, C60, C69: devices, parameters,
    keepalive checks, fragments and locations, one thing at a time. *)
From stdpp Require Import gmap.
From Verif Require Import Base HexM TimeM HashM HeaderM ParamsM GeoM MsgM PacketM FrameM ProgM RingM SpecRing
  StateM ProcM ServerM SpecState SpecCodec StateP ProcP ServerP EffectP ReplyP HandshakeP CmdP SessP OriginP LinkP ConcP
  ExampleData ExampleState.
Local Open Scope N_scope.
Ltac vmr := vm_compute; reflexivity.
Ltac carried := split; [vmr|split; [left; vmr|vmr]].

(** C36: what a query answers after any series of sets.  Setting a parameter that is not in
    the stored table does not add it. *)
Theorem C36_set_query_partial : forall e sl sl' s p p' cnt d, consistent s ->
  carries e s p 0x8103 (B8103 cnt (Some d)) ->
  carries e s p' 0x8104 B8104 -> h_phone (pk_hdr p') = h_phone (pk_hdr p) ->
  exists m s1 m' d', run (process e sl p) s = (Ok (Some m), s1)
    /\ run (process e sl' p') s1 = (Ok (Some m'), s1)
    /\ answers p' 0x0104 (B0104 (h_sn (pk_hdr p')) 0 (Some d')) m'
    /\ forall id, value_of d' id =
         match st_params s !! h_phone (pk_hdr p) with
         | None => value_of d id
         | Some old => match value_of old id, value_of d id with
                       | Some _, Some v => Some v
                       | Some v, None => Some v
                       | None, _ => None
                       end
         end.
Proof. exact set_query. Qed.
Print Assumptions C36_set_query_partial.
Theorem C36_sets_query_partial : forall e sl sl' (ds : list (packet * (N * devparams))) s ph old p', consistent s ->
  (forall p cnt d, In (p, (cnt, d)) ds -> carries e s p 0x8103 (B8103 cnt (Some d)) /\ h_phone (pk_hdr p) = ph) ->
  st_params s !! ph = Some old -> carries e s p' 0x8104 B8104 -> h_phone (pk_hdr p') = ph ->
  exists m d', fst (run (process e sl' p') (fold_left (fun t x => snd (run (process e sl (fst x)) t)) ds s)) = Ok (Some m)
    /\ answers p' 0x0104 (B0104 (h_sn (pk_hdr p')) 0 (Some d')) m
    /\ forall id, value_of d' id =
         match value_of old id with
         | None => None
         | Some v => Some (List.last (flat_map (fun x => match value_of (snd (snd x)) id with
                                                         | Some v' => [v'] | None => [] end) ds) v)
         end.
Proof. exact sets_query. Qed.
Print Assumptions C36_sets_query_partial.
Theorem C36_refuted : forall e sl sl' s p p' cnt d old id v, consistent s ->
  carries e s p 0x8103 (B8103 cnt (Some d)) ->
  carries e s p' 0x8104 B8104 -> h_phone (pk_hdr p') = h_phone (pk_hdr p) ->
  st_params s !! h_phone (pk_hdr p) = Some old -> value_of old id = None -> value_of d id = Some v ->
  exists m s1 m' d', run (process e sl p) s = (Ok (Some m), s1)
    /\ run (process e sl' p') s1 = (Ok (Some m'), s1)
    /\ answers p' 0x0104 (B0104 (h_sn (pk_hdr p')) 0 (Some d')) m' /\ value_of d' id = None.
Proof.
  intros e sl sl' s p p' cnt d old id v C Hp Hp' Hph Ho Hn Hv.
  destruct (set_query e sl sl' s p p' cnt d C Hp Hp' Hph) as (m & s1 & m' & d' & H1 & H2 & H3 & H4).
  exists m, s1, m', d'. split; [exact H1|]. split; [exact H2|]. split; [exact H3|].
  rewrite H4, Ho, Hn. reflexivity.
Qed.
Print Assumptions C36_refuted.
(** parameters 1 (heartbeat interval) and 2; the table has 1 only *)
Definition par (id v : N) : param := mkParam id 4 (VU32 v).
Definition s_par : st := set_params (<[phone12 := mkParams phone12 1 [par 1 30]]>) s2.
Definition p_set (l : list param) : packet := pk (mkMsg (hid 0x8103) (B8103 2 (Some (mkParams phone12 2 l)))).
Definition p_get : packet := pk (mkMsg (hid 0x8104) B8104).
Example C36_ex : consistent s_par
  /\ carries e0 s_par (p_set [par 1 60; par 2 7]) 0x8103 (B8103 2 (Some (mkParams phone12 2 [par 1 60; par 2 7])))
  /\ carries e0 s_par p_get 0x8104 B8104
  /\ st_params s_par !! phone12 = Some (mkParams phone12 1 [par 1 30])
  /\ value_of (mkParams phone12 2 [par 1 60; par 2 7]) 2 = Some (par 2 7)
  /\ value_of (mkParams phone12 1 [par 1 30]) 2 = None.
Proof.
  split; [apply consistent_params; [exact s2_ok|reflexivity]|].
  split; [carried|]. split; [carried|]. repeat (split; [vmr|]). vmr.
Qed.

(** C41 *)
Theorem C41_indexes_agree : forall e now evs, let s := w_st (history e now evs) in
  (forall ph d, devAt s ph = Some d -> d_phone d = ph /\ devWithPlate s (d_plate d) = Some d
                /\ st_byPlate s !! d_plate d = st_byPhone s !! ph)
  /\ (forall pl d, devWithPlate s pl = Some d -> d_plate d = pl /\ devAt s (d_phone d) = Some d
                /\ st_byPhone s !! d_phone d = st_byPlate s !! pl)
  /\ (forall ph ph' d d', devAt s ph = Some d -> devAt s ph' = Some d' -> d_plate d = d_plate d' -> ph = ph').
Proof. intros e now evs. exact (indexes_agree _ (wo_ok _ (history_ok e now evs))). Qed.
Print Assumptions C41_indexes_agree.
(** the invariant behind it holds at the start and is kept by everything *)
Theorem C41_invariant : forall e now evs, consistent (w_st (history e now evs)).
Proof. intros e now evs. exact (wo_ok _ (history_ok e now evs)). Qed.
Print Assumptions C41_invariant.
Example C41_ex : devAt s2 phone12 = Some d1 /\ devAt s2 phone12b = Some d2 /\ devWithPlate s2 (d_plate d2) = Some d2.
Proof. split; [exact s2_d1|]. split; [exact s2_d2|]. vm_compute. reflexivity. Qed.

(** C42 *)
Theorem C42_registration : forall e sl s p r x, consistent s -> carries e s p 0x0100 (B0100 r) -> st_sess s !! sl = Some x ->
  let ph := h_phone (pk_hdr p) in
  exists res s', run (process e sl p) s = (Ok (Some res), s')
    /\ match devWithPlate s (r_plate r), devAt s ph with
       | Some _, _ => (exists c, answers p 0x8100 (B8100 (h_sn (pk_hdr p)) 1 c) res) /\ s' = s
       | None, Some _ => (exists c, answers p 0x8100 (B8100 (h_sn (pk_hdr p)) 3 c) res) /\ s' = s
       | None, None =>
           (exists c, is_code (r_devid r) (r_plate r) ph c
                      /\ answers p 0x8100 (B8100 (h_sn (pk_hdr p)) 0 c) res)
           /\ devAt s' ph = Some (mkDevice (r_devid r) (r_plate r) ph (ss_id x) (ss_conn x) 60000
                                   (st_clock s) Offline (a_ver (h_attr (pk_hdr p))) (h_proto (pk_hdr p)) [] [] [])
           /\ devWithPlate s' (r_plate r) = devAt s' ph
           /\ others_kept ph (r_plate r) s s' /\ st_jobs s' = st_jobs s ++ [ph] /\ rest_kept s s'
           /\ consistent s'
       end.
Proof. exact registration. Qed.
Print Assumptions C42_registration.
(** a new plate and a new phone; the plate of the second device; the phone of the first *)
Definition reg3 : reg := mkReg 1 2 abc abc [68; 51] 1 [65; 51] [].
Definition phone12c : str := [48; 49; 51; 57; 49; 50; 51; 52; 53; 54; 56; 48].
Definition h3 : header := mkHeader 0x0100 attr13 0 phone12c 9 None.
Definition p_reg3 : packet := pk (mkMsg h3 (B0100 reg3)).
Example C42_ex : consistent s2 /\ st_sess s2 !! 0%nat = Some x1
  /\ (exists r, carries e0 s2 p_reg3 0x0100 (B0100 r) /\ r_plate r = [65; 51] /\ r_devid r = [68; 51]
      /\ devWithPlate s2 (r_plate r) = None /\ devAt s2 (h_phone (pk_hdr p_reg3)) = None)
  /\ (exists r, carries e0 s2 (pk (mkMsg h3 (B0100 reg2))) 0x0100 (B0100 r) /\ is_Some (devWithPlate s2 (r_plate r)))
  /\ (exists r, carries e0 s2 (pk (mkMsg (hid 0x0100) (B0100 reg3))) 0x0100 (B0100 r)
      /\ devWithPlate s2 (r_plate r) = None /\ devAt s2 (h_phone (pk_hdr (pk (mkMsg (hid 0x0100) (B0100 reg3))))) = Some d1).
Proof.
  split; [exact s2_ok|]. split; [exact s2_x1|]. split; [|split]; eexists.
  - split; [carried|]. repeat (split; [vmr|]). vmr.
  - split; [carried|]. vm_compute. eauto.
  - split; [carried|]. split; vm_compute; reflexivity.
Qed.

(** C44 *)
Theorem C44_authentication : forall e sl s p al code imei sw d, consistent s ->
  carries e s p 0x0102 (B0102 al code imei sw) -> devAt s (h_phone (pk_hdr p)) = Some d ->
  let ph := h_phone (pk_hdr p) in
  exists res s', run (process e sl p) s = (Ok (Some res), s') /\ consistent s'
    /\ others_kept ph (d_plate d) s s' /\ rest_kept s s'
    /\ (is_code (d_id d) (d_plate d) (d_phone d) code ->
          answers p 0x8001 (B8001 (h_sn (pk_hdr p)) 0x0102 0) res
          /\ devAt s' ph = Some (mkDevice (d_id d) (d_plate d) ph (d_sid d) (d_conn d) (d_keep d)
                                          (st_clock s) Online (d_ver d) (d_proto d) code imei sw)
          /\ devWithPlate s' (d_plate d) = devAt s' ph /\ st_jobs s' = st_jobs s)
    /\ (~ is_code (d_id d) (d_plate d) (d_phone d) code ->
          answers p 0x8001 (B8001 (h_sn (pk_hdr p)) 0x0102 1) res
          /\ devAt s' ph = None /\ devWithPlate s' (d_plate d) = None
          /\ forall q, q ∈ st_jobs s' <-> q ∈ st_jobs s /\ q <> ph).
Proof. exact authentication. Qed.
Print Assumptions C44_authentication.
Example C44_ex : consistent s2 /\ devAt s2 phone12 = Some d1
  /\ carries e0 s2 (unframe f_auth1) 0x0102 (B0102 0 code1 [] [])
  /\ is_code (d_id d1) (d_plate d1) (d_phone d1) code1
  /\ carries e0 s2 (pk (mkMsg (hid 0x0102) (B0102 0 abc [] []))) 0x0102 (B0102 0 abc [] [])
  /\ ~ is_code (d_id d1) (d_plate d1) (d_phone d1) abc.
Proof.
  split; [exact s2_ok|]. split; [exact s2_d1|]. split; [carried|]. split; [apply code_iff; reflexivity|].
  split; [carried|]. rewrite code_iff. vm_compute. discriminate.
Qed.

(** C45: client and server run the same code with their own states [sc] and [s]; the frames
    go through encode, escape, the byte stream and decode *)
Theorem C45_handshake_2019 : forall e ec sl slc s sc x k t h prov city manu mode did color plate loc g d,
  e_o ec = e_o e -> consistent s -> st_sess s !! sl = Some x -> st_conns s !! ss_conn x = Some k ->
  cn_open k = true -> hdr_wf h -> h_id h = 0x0100 -> a_frag (h_attr h) = 0 -> a_ver (h_attr h) = V2019 ->
  prov < 65536 -> city < 65536 -> text_fits 11 manu -> text_fits 30 mode -> text_fits 30 did ->
  gbk_fits (e_o e) plate g -> (length g < 948)%nat ->
  devAt s (h_phone h) = None -> devWithPlate s plate = None ->
  devAt sc (h_phone h) = Some d -> length (d_imei d) = 15%nat -> text_fits 20 (d_sw d) ->
  exists f1 f2 f3 f4 code s1 s2 p2 m3 p4,
    encodePacket (e_o e) (mkMsg h (B0100 (mkReg prov city manu mode did color plate loc))) = Ok f1
    /\ run (serveOne e sl (Ok f1) None) s = (Ok true, s1)
    /\ st_conns s1 !! ss_conn x = Some (mkConn true (cn_out k ++ [f2]))
    /\ decodePacket (e_o ec) f2 = Ok p2 /\ carries ec sc p2 0x8100 (B8100 (h_sn h) 0 code)
    /\ run (process ec slc p2) sc = (Ok (Some m3), sc) /\ encodePacket (e_o ec) m3 = Ok f3
    /\ run (serveOne e sl (Ok f3) None) (set_clock t s1) = (Ok true, s2)
    /\ st_conns s2 !! ss_conn x = Some (mkConn true (cn_out k ++ [f2; f4]))
    /\ decodePacket (e_o ec) f4 = Ok p4 /\ carries ec sc p4 0x8001 (B8001 (h_sn h) 0x0102 0)
    /\ h_phone (pk_hdr p4) = h_phone h
    /\ (d_phone d = h_phone h -> d_status d = Offline ->
      exists sc', run (process ec slc p4) sc = (Ok None, sc')
        /\ devAt sc' (h_phone h) = Some (mkDevice (d_id d) (d_plate d) (d_phone d) (d_sid d) (d_conn d) (d_keep d)
             (st_clock sc) Online (d_ver d) (d_proto d) (d_auth d) (d_imei d) (d_sw d))
        /\ st_conns sc' = st_conns sc /\ st_sess sc' = st_sess sc)
    /\ is_code did plate (h_phone h) code /\ consistent s2
    /\ devAt s2 (h_phone h) = Some (mkDevice did plate (h_phone h) (ss_id x) (ss_conn x) 60000 t
                                    Online V2019 (h_proto h) code (d_imei d) (d_sw d))
    /\ forall str, ~ In [] (st_next str) -> st_bytes str = f1 ++ f3 -> frames str = [f1; f3].
Proof. exact handshake2019. Qed.
Print Assumptions C45_handshake_2019.
Theorem C45_handshake_2013 : forall e ec sl slc s sc x k t h prov city manu mode did color plate loc g d,
  e_o ec = e_o e -> consistent s -> st_sess s !! sl = Some x -> st_conns s !! ss_conn x = Some k ->
  cn_open k = true -> hdr_wf h -> h_id h = 0x0100 -> a_frag (h_attr h) = 0 -> a_ver (h_attr h) = V2013 ->
  prov < 65536 -> city < 65536 -> text_fits 5 manu -> text_fits 20 mode -> text_fits 7 did ->
  gbk_fits (e_o e) plate g -> g <> [] -> (length g < 987)%nat ->
  devAt s (h_phone h) = None -> devWithPlate s plate = None ->
  devAt sc (h_phone h) = Some d ->
  exists f1 f2 f3 f4 code s1 s2 p2 m3 p4,
    encodePacket (e_o e) (mkMsg h (B0100 (mkReg prov city manu mode did color plate loc))) = Ok f1
    /\ run (serveOne e sl (Ok f1) None) s = (Ok true, s1)
    /\ st_conns s1 !! ss_conn x = Some (mkConn true (cn_out k ++ [f2]))
    /\ decodePacket (e_o ec) f2 = Ok p2 /\ carries ec sc p2 0x8100 (B8100 (h_sn h) 0 code)
    /\ run (process ec slc p2) sc = (Ok (Some m3), sc) /\ encodePacket (e_o ec) m3 = Ok f3
    /\ run (serveOne e sl (Ok f3) None) (set_clock t s1) = (Ok true, s2)
    /\ st_conns s2 !! ss_conn x = Some (mkConn true (cn_out k ++ [f2; f4]))
    /\ decodePacket (e_o ec) f4 = Ok p4 /\ carries ec sc p4 0x8001 (B8001 (h_sn h) 0x0102 0)
    /\ h_phone (pk_hdr p4) = h_phone h
    /\ (d_phone d = h_phone h -> d_status d = Offline ->
      exists sc', run (process ec slc p4) sc = (Ok None, sc')
        /\ devAt sc' (h_phone h) = Some (mkDevice (d_id d) (d_plate d) (d_phone d) (d_sid d) (d_conn d) (d_keep d)
             (st_clock sc) Online (d_ver d) (d_proto d) (d_auth d) (d_imei d) (d_sw d))
        /\ st_conns sc' = st_conns sc /\ st_sess sc' = st_sess sc)
    /\ is_code did plate (h_phone h) code /\ consistent s2
    /\ devAt s2 (h_phone h) = Some (mkDevice did plate (h_phone h) (ss_id x) (ss_conn x) 60000 t
                                    Online V2013 (h_proto h) code [] [])
    /\ forall str, ~ In [] (st_next str) -> st_bytes str = f1 ++ f3 -> frames str = [f1; f3].
Proof. exact handshake2013. Qed.
Print Assumptions C45_handshake_2013.
(** the third device registers on the first connection; the client knows itself *)
Definition d3 (h : header) : device :=
  mkDevice [68; 51] [65; 51] (h_phone h) addr2 0 60000 1000 Offline (a_ver (h_attr h)) (h_proto h) [] (repeat 49 15) abc.
Definition client_of (h : header) : st :=
  snd (run (l <- allocDev (d3 h) ;; cacheDevice l)%prog (init 1000)).
Definition k1 : conn := default (mkConn false []) (st_conns s2 !! 0%nat).
Definition h19r : header := hdr_set_id h19 0x0100.
Example C45_ex : consistent s2
  /\ st_sess s2 !! 0%nat = Some x1 /\ st_conns s2 !! ss_conn x1 = Some k1 /\ cn_open k1 = true
  /\ (hdr_wf h19r /\ h_id h19r = 0x0100 /\ a_frag (h_attr h19r) = 0 /\ a_ver (h_attr h19r) = V2019)
  /\ (hdr_wf h3 /\ a_ver (h_attr h3) = V2013)
  /\ text_fits 11 abc /\ text_fits 30 abc /\ text_fits 5 abc /\ text_fits 20 abc /\ text_fits 7 [68; 51]
  /\ gbk_fits o0 [65; 51] [65; 51]
  /\ devAt s2 (h_phone h19r) = None /\ devAt s2 (h_phone h3) = None /\ devWithPlate s2 [65; 51] = None
  /\ devAt (client_of h19r) (h_phone h19r) = Some (d3 h19r) /\ length (d_imei (d3 h19r)) = 15%nat
  /\ devAt (client_of h3) (h_phone h3) = Some (d3 h3).
Proof.
  split; [exact s2_ok|]. split; [exact s2_x1|].
  split; [vm_compute; reflexivity|]. split; [vm_compute; reflexivity|].
  split. { split; [|repeat split]. repeat (split; [reflexivity || lia|]); repeat split. }
  split. { split; [|repeat split]. repeat (split; [reflexivity || lia|]); repeat split. }
  do 4 (split; [split; [cbn; lia|right; exists [65; 66], 67; split; [reflexivity|discriminate]]|]).
  split; [split; [cbn; lia|right; exists [68], 51; split; [reflexivity|discriminate]]|].
  split; [split; reflexivity|]. repeat (split; [vmr|]). vmr.
Qed.

(** C46: the code is a 32-bit hash of id_plate_phone: two devices have the same code exactly
    when the hashes agree, which happens for different phones and plates and for ids and
    plates that contain the separator *)
Theorem C46_codes_partial : forall id pl ph c id' pl' ph' c', is_code id pl ph c -> is_code id' pl' ph' c' ->
  (c = c' <-> fnv1a 0x811c9dc5 (id ++ [95] ++ pl ++ [95] ++ ph) = fnv1a 0x811c9dc5 (id' ++ [95] ++ pl' ++ [95] ++ ph')).
Proof. exact codes_equal. Qed.
Print Assumptions C46_codes_partial.
Theorem C46_refuted : forall c, is_code str_T plate_a phone_a c <-> is_code str_T plate_b phone_b c.
Proof. exact collision. Qed.
Print Assumptions C46_refuted.
Theorem C46_refuted_separator : forall x y z ph c, is_code (x ++ [95] ++ y) z ph c <-> is_code x (y ++ [95] ++ z) ph c.
Proof. exact separator. Qed.
Print Assumptions C46_refuted_separator.
(** any two devices with different phones and plates can both be registered *)
Theorem C46_both_registered_partial : forall e sl s x p r p' r', consistent s -> st_sess s !! sl = Some x ->
  carries e s p 0x0100 (B0100 r) -> carries e s p' 0x0100 (B0100 r') ->
  h_phone (pk_hdr p) <> h_phone (pk_hdr p') -> r_plate r <> r_plate r' ->
  devAt s (h_phone (pk_hdr p)) = None -> devAt s (h_phone (pk_hdr p')) = None ->
  devWithPlate s (r_plate r) = None -> devWithPlate s (r_plate r') = None ->
  exists c c' m m' s1 s2 d d',
    run (process e sl p) s = (Ok (Some m), s1) /\ answers p 0x8100 (B8100 (h_sn (pk_hdr p)) 0 c) m
    /\ run (process e sl p') s1 = (Ok (Some m'), s2) /\ answers p' 0x8100 (B8100 (h_sn (pk_hdr p')) 0 c') m'
    /\ consistent s2
    /\ is_code (r_devid r) (r_plate r) (h_phone (pk_hdr p)) c
    /\ is_code (r_devid r') (r_plate r') (h_phone (pk_hdr p')) c'
    /\ devAt s2 (h_phone (pk_hdr p)) = Some d /\ devAt s2 (h_phone (pk_hdr p')) = Some d'
    /\ d_id d = r_devid r /\ d_plate d = r_plate r /\ d_id d' = r_devid r' /\ d_plate d' = r_plate r'.
Proof. exact two_registered. Qed.
Print Assumptions C46_both_registered_partial.
(** the colliding devices as registrations *)
Definition p_a : packet :=
  pk (mkMsg (mkHeader 0x0100 attr13 0 phone_a 1 None) (B0100 (mkReg 1 2 abc abc str_T 1 plate_a []))).
Definition p_b : packet :=
  pk (mkMsg (mkHeader 0x0100 attr13 0 phone_b 1 None) (B0100 (mkReg 1 2 abc abc str_T 1 plate_b []))).
Example C46_ex : consistent s2 /\ st_sess s2 !! 0%nat = Some x1
  /\ h_phone (pk_hdr p_a) <> h_phone (pk_hdr p_b)
  /\ (exists r r', carries e0 s2 p_a 0x0100 (B0100 r) /\ carries e0 s2 p_b 0x0100 (B0100 r')
      /\ r_devid r = str_T /\ r_plate r = plate_a /\ r_devid r' = str_T /\ r_plate r' = plate_b
      /\ plate_a <> plate_b /\ devWithPlate s2 plate_a = None /\ devWithPlate s2 plate_b = None)
  /\ devAt s2 (h_phone (pk_hdr p_a)) = None /\ devAt s2 (h_phone (pk_hdr p_b)) = None.
Proof.
  split; [exact s2_ok|]. split; [exact s2_x1|]. split; [vm_compute; discriminate|]. split; [|split; vmr].
  eexists _, _. split; [carried|]. split; [carried|]. repeat (split; [vmr|]). split; [discriminate|]. split; vmr.
Qed.

(** C47: an offline device also becomes online by a general reply it sends (unauthenticated),
    and sleeping by a location report with ACC off; by nothing else *)
Theorem C47_status_change_partial : forall e sl s p q d d', consistent s -> is_Some (st_sess s !! sl) ->
  devAt s q = Some d -> d_status d = Offline ->
  devAt (snd (run (process e sl p) s)) q = Some d' -> d_status d' <> Offline ->
  q = h_phone (pk_hdr p) /\
  ((exists al c i w, carries e s p 0x0102 (B0102 al c i w) /\ is_code (d_id d) (d_plate d) (d_phone d) c)
   \/ (exists a b, carries e s p 0x8001 (B8001 a b 0))
   \/ (exists m, carries e s p 0x0200 (B0200 m) /\ N.testbit (l_status m) 0 = false)).
Proof. exact status_change. Qed.
Print Assumptions C47_status_change_partial.
Theorem C47_refuted : forall e sl s p a b d, consistent s -> carries e s p 0x8001 (B8001 a b 0) ->
  devAt s (h_phone (pk_hdr p)) = Some d -> d_status d = Offline ->
  exists s', run (process e sl p) s = (Ok None, s') /\ consistent s'
    /\ devAt s' (h_phone (pk_hdr p)) =
       Some (mkDevice (d_id d) (d_plate d) (d_phone d) (d_sid d) (d_conn d) (d_keep d) (st_clock s)
                      Online (d_ver d) (d_proto d) (d_auth d) (d_imei d) (d_sw d)).
Proof. exact reply_wakes. Qed.
Print Assumptions C47_refuted.
(** the second device has only registered; it sends a general reply, and a location with ACC off *)
Example C47_ex : consistent s2 /\ devAt s2 phone12b = Some d2 /\ d_status d2 = Offline /\ d_auth d2 = []
  /\ h_phone (pk_hdr (pk (mkMsg (hidb 0x8001) (B8001 0 0 0)))) = phone12b
  /\ carries e0 s2 (pk (mkMsg (hidb 0x8001) (B8001 0 0 0))) 0x8001 (B8001 0 0 0)
  /\ carries e0 s2 (pk (mkMsg (hidb 0x0200) (B0200 loc_off))) 0x0200 (B0200 loc_off)
  /\ N.testbit (l_status loc_off) 0 = false.
Proof.
  split; [exact s2_ok|]. split; [exact s2_d2|]. split; [reflexivity|]. split; [reflexivity|]. split; [vmr|].
  split; [carried|]. split; [carried|]. reflexivity.
Qed.

(** C48 *)
Theorem C48_heartbeat : forall e sl s p d, consistent s -> carries e s p 0x0002 B0002 ->
  devAt s (h_phone (pk_hdr p)) = Some d ->
  exists res s', run (process e sl p) s = (Ok (Some res), s') /\ consistent s'
    /\ answers p 0x8001 (B8001 (h_sn (pk_hdr p)) 0x0002 0) res
    /\ devAt s' (h_phone (pk_hdr p)) =
       Some (mkDevice (d_id d) (d_plate d) (d_phone d) (d_sid d) (d_conn d) (d_keep d) (st_clock s)
                      (d_status d) (d_ver d) (d_proto d) (d_auth d) (d_imei d) (d_sw d))
    /\ devWithPlate s' (d_plate d) = devAt s' (h_phone (pk_hdr p))
    /\ others_kept (h_phone (pk_hdr p)) (d_plate d) s s' /\ st_jobs s' = st_jobs s /\ rest_kept s s'.
Proof. exact heartbeat. Qed.
Print Assumptions C48_heartbeat.
(** of an unknown phone: the connection is closed, nothing else changes *)
Theorem C48_unknown : forall e sl s x k frm p w, consistent s -> st_sess s !! sl = Some x ->
  st_conns s !! ss_conn x = Some k -> decodePacket (e_o e) frm = Ok p -> carries e s p 0x0002 B0002 ->
  fragment (pk_hdr p) = false -> devAt s (h_phone (pk_hdr p)) = None ->
  exists s', run (serveLoop e sl [(Ok frm, w)]) s = (Ok true, s')
    /\ st_conns s' = <[ss_conn x := mkConn false (cn_out k)]> (st_conns s)
    /\ st_byID s' = delete (ss_id x) (st_byID s)
    /\ st_devs s' = st_devs s /\ st_byPhone s' = st_byPhone s /\ st_byPlate s' = st_byPlate s
    /\ st_rings s' = st_rings s /\ st_geo s' = st_geo s /\ st_params s' = st_params s
    /\ st_segs s' = st_segs s /\ st_sess s' = st_sess s /\ st_jobs s' = st_jobs s.
Proof. exact heartbeat_unknown. Qed.
Print Assumptions C48_unknown.
Example C48_ex : consistent s2 /\ devAt s2 phone12 = Some d1 /\ carries e0 s2 (unframe f_heart1) 0x0002 B0002
  /\ h_phone (pk_hdr (unframe f_heart1)) = phone12
  /\ carries e0 s2 (pk (mkMsg (hdr_set_id h3 0x0002) B0002)) 0x0002 B0002
  /\ devAt s2 (h_phone (pk_hdr (pk (mkMsg (hdr_set_id h3 0x0002) B0002)))) = None.
Proof.
  split; [exact s2_ok|]. split; [exact s2_d1|]. split; [carried|]. split; [vmr|]. split; [carried|]. vmr.
Qed.

(** C49 *)
Theorem C49_logout : forall e sl s p d, consistent s -> carries e s p 0x0003 B0003 ->
  devAt s (h_phone (pk_hdr p)) = Some d ->
  exists res s', run (process e sl p) s = (Ok (Some res), s') /\ consistent s'
    /\ answers p 0x8001 (B8001 (h_sn (pk_hdr p)) 0x0003 0) res
    /\ devAt s' (h_phone (pk_hdr p)) = None /\ devWithPlate s' (d_plate d) = None
    /\ others_kept (h_phone (pk_hdr p)) (d_plate d) s s'
    /\ (forall q, q ∈ st_jobs s' <-> q ∈ st_jobs s /\ q <> h_phone (pk_hdr p)) /\ rest_kept s s'.
Proof. exact logout. Qed.
Print Assumptions C49_logout.
Theorem C49_register_again : forall e sl s p d, consistent s -> carries e s p 0x0003 B0003 ->
  devAt s (h_phone (pk_hdr p)) = Some d ->
  exists m s1, run (process e sl p) s = (Ok (Some m), s1)
    /\ forall p' r sl' x, carries e s p' 0x0100 (B0100 r) -> h_phone (pk_hdr p') = h_phone (pk_hdr p) ->
         r_plate r = d_plate d -> st_sess s !! sl' = Some x ->
         exists m' s2 c, run (process e sl' p') s1 = (Ok (Some m'), s2)
           /\ answers p' 0x8100 (B8100 (h_sn (pk_hdr p')) 0 c) m' /\ is_Some (devAt s2 (h_phone (pk_hdr p))).
Proof. exact logout_register. Qed.
Print Assumptions C49_register_again.
Definition p_logout : packet := pk (mkMsg (hid 0x0003) B0003).
Example C49_ex : consistent s2 /\ carries e0 s2 p_logout 0x0003 B0003
  /\ devAt s2 (h_phone (pk_hdr p_logout)) = Some d1
  /\ (exists r, carries e0 s2 (unframe f_reg1) 0x0100 (B0100 r) /\ r_plate r = d_plate d1)
  /\ h_phone (pk_hdr (unframe f_reg1)) = h_phone (pk_hdr p_logout) /\ st_sess s2 !! 1%nat = Some x2.
Proof.
  split; [exact s2_ok|]. split; [carried|]. split; [vmr|]. split; [|split; [vmr|exact s2_x2]].
  eexists. split; [carried|]. reflexivity.
Qed.

(** C50 *)
Theorem C50_location : forall e sl s p m d ws, consistent s -> carries e s p 0x0200 (B0200 m) ->
  devAt s (h_phone (pk_hdr p)) = Some d -> track s (h_phone (pk_hdr p)) ws ->
  let ph := h_phone (pk_hdr p) in
  exists res s' g, run (process e sl p) s = (Ok (Some res), s') /\ consistent s'
    /\ answers p 0x8001 (B8001 (h_sn (pk_hdr p)) 0x0200 0) res
    /\ track s' ph (ws ++ [g])
    /\ g = mkDevGeo ph (geoDecode (l_status m)) (l_lat m) (l_lon m) (l_altitude m) (l_speed m) (l_dir m)
                    (ParseTime (e_civil e (st_clock s)) (l_time m))
    /\ devAt s' ph = Some (if N.testbit (l_status m) 0 then d else
         mkDevice (d_id d) (d_plate d) (d_phone d) (d_sid d) (d_conn d) (d_keep d) (st_clock s)
                  Sleeping (d_ver d) (d_proto d) (d_auth d) (d_imei d) (d_sw d))
    /\ devWithPlate s' (d_plate d) = devAt s' ph
    /\ others_kept ph (d_plate d) s s' /\ (forall q, q <> ph -> ringOf s' q = ringOf s q)
    /\ st_jobs s' = st_jobs s /\ st_params s' = st_params s /\ st_segs s' = st_segs s
    /\ st_sess s' = st_sess s /\ st_byID s' = st_byID s /\ st_conns s' = st_conns s.
Proof. exact location. Qed.
Print Assumptions C50_location.
Definition g_on : devgeo := mkDevGeo phone12 (geoDecode 3) 31230416 121473701 10 600 90
                                     (ParseTime t_now (l_time loc_on)).
Example C50_ex : consistent s2 /\ devAt s2 phone12 = Some d1 /\ track s2 phone12 [g_on]
  /\ h_phone (pk_hdr (unframe f_loc1)) = phone12
  /\ carries e0 s2 (unframe f_loc1) 0x0200 (B0200 loc_on)
  /\ carries e0 s2 (pk (mkMsg (hid 0x0200) (B0200 loc_off))) 0x0200 (B0200 loc_off).
Proof.
  split; [exact s2_ok|]. split; [exact s2_d1|]. split.
  { unfold track. replace (ringOf s2 phone12) with (Some (mkRing 100 (Some g_on :: repeat None 99) 0 1)) by vmr.
    split; [reflexivity|]. split; [|split; reflexivity]. split; [reflexivity|]. split.
    - intros [|j] x0 Hj _; [exact (f_equal Some Hj)|destruct j; discriminate].
    - intros [|i] [Hi Hi']; [cbn in Hi; lia|]. cbn [nth_error rg_slots].
      rewrite (nth_error_nth' _ None), nth_repeat by (rewrite repeat_length; lia). reflexivity. }
  split; [vmr|]. split; [carried|]. carried.
Qed.

(** C54: everything one connection sends leaves the devices of other phones alone *)
Theorem C54_isolation : forall e sl ins s x, consistent s -> st_sess s !! sl = Some x ->
  exists b s', run (serveLoop e sl ins) s = (Ok b, s')
    /\ forall q, (forall frm w p, In (Ok frm, w) ins -> decodePacket (e_o e) frm = Ok p -> h_phone (pk_hdr p) <> q) ->
         devAt s' q = devAt s q /\ ringOf s' q = ringOf s q /\ st_params s' !! q = st_params s !! q.
Proof. exact isolation. Qed.
Print Assumptions C54_isolation.
Lemma in_two (frm f : bytes) (w w0 w1 : wres) er : In (Ok frm, w) [(Ok f, w0); (Err er, w1)] -> frm = f.
Proof. intros [[= -> _]|[H|[]]]; [reflexivity|discriminate]. Qed.
Example C54_ex : consistent s2 /\ st_sess s2 !! 0%nat = Some x1 /\ devAt s2 phone12b = Some d2
  /\ forall frm (w : wres) p, In (Ok frm, w) [(Ok f_loc1, None); (Err ErrEOF, None)] -> decodePacket o0 frm = Ok p ->
       h_phone (pk_hdr p) <> phone12b.
Proof.
  split; [exact s2_ok|]. split; [exact s2_x1|]. split; [exact s2_d2|].
  intros frm w p Hin. rewrite (in_two _ _ _ _ _ _ Hin). intros E.
  apply (f_equal (fun r => match r with Ok q => h_phone (pk_hdr q) | _ => [] end)) in E. rewrite <- E.
  vm_compute. discriminate.
Qed.

(** C55 *)
Theorem C55_fresh_kept : forall ph s q d, consistent s -> devAt s q = Some d ->
  devAt (snd (run (checkKeepalive ph) s)) q <> Some d ->
  q = ph /\ (d_last d + d_keep d < st_clock s)%Z.
Proof. exact tick_due. Qed.
Print Assumptions C55_fresh_kept.
Theorem C55_fresh_nothing : forall ph s d, consistent s -> devAt s ph = Some d -> (st_clock s <= d_last d + d_keep d)%Z ->
  run (checkKeepalive ph) s = (Ok tt, s).
Proof. exact tick_fresh. Qed.
Print Assumptions C55_fresh_nothing.
(** one minute and a millisecond after its authentication the first device is due *)
Example C55_ex : consistent (set_clock 62001 s2) /\ devAt (set_clock 62001 s2) phone12 = Some d1
  /\ devAt (snd (run (checkKeepalive phone12) (set_clock 62001 s2))) phone12 <> Some d1
  /\ consistent (set_clock 62000 s2) /\ (st_clock (set_clock 62000 s2) <= d_last d1 + d_keep d1)%Z.
Proof.
  split; [apply consistent_clock, s2_ok|]. split; [vmr|]. split; [vm_compute; discriminate|].
  split; [apply consistent_clock, s2_ok|]. vm_compute. discriminate.
Qed.

(** C56 *)
Theorem C56_silent : forall ph s d t1 t2, consistent s -> devAt s ph = Some d -> d_status d <> Offline ->
  (d_last d + d_keep d < t1)%Z -> (t1 <= t2)%Z ->
  exists s1 s2, run (checkKeepalive ph) (set_clock t1 s) = (Ok tt, s1)
    /\ devAt s1 ph = Some (with_status d Offline) /\ st_conns s1 = st_conns s
    /\ run (checkKeepalive ph) (set_clock t2 s1) = (Ok tt, s2) /\ consistent s2
    /\ devAt s2 ph = None /\ devWithPlate s2 (d_plate d) = None
    /\ (forall k, st_conns s !! d_conn d = Some k -> st_conns s2 !! d_conn d = Some (mkConn false (cn_out k)))
    /\ ~ ph ∈ st_jobs s2
    /\ forall e sl p r, carries e s2 p 0x0100 (B0100 r) -> h_phone (pk_hdr p) = ph -> r_plate r = d_plate d ->
         is_Some (st_sess s !! sl) ->
         exists c s3 m, run (process e sl p) s2 = (Ok (Some m), s3)
           /\ answers p 0x8100 (B8100 (h_sn (pk_hdr p)) 0 c) m /\ is_Some (devAt s3 ph).
Proof. exact silent. Qed.
Print Assumptions C56_silent.
Example C56_ex : consistent s2 /\ devAt s2 phone12 = Some d1 /\ d_status d1 <> Offline
  /\ (d_last d1 + d_keep d1 < 62001)%Z /\ is_Some (st_conns s2 !! d_conn d1).
Proof.
  split; [exact s2_ok|]. split; [exact s2_d1|]. split; [discriminate|]. split; [reflexivity|]. vm_compute. eauto.
Qed.

(** C57 *)
Theorem C57_jobs : forall e now evs, let s := w_st (history e now evs) in
  base.NoDup (st_jobs s) /\ forall ph, ph ∈ st_jobs s <-> is_Some (devAt s ph).
Proof. intros e now evs. exact (jobs_match _ (wo_ok _ (history_ok e now evs))). Qed.
Print Assumptions C57_jobs.
Example C57_ex : st_jobs s2 = [phone12; phone12b].
Proof. vmr. Qed.

(** C59: a check of a device that is gone cancels the job and then panics; the goroutine of
    a job is not recovered, so this ends the process.  When things happen one at a time no job
    outlives its device. *)
Theorem C59_refuted : forall ph s, st_byPhone s !! ph = None ->
  run (checkKeepalive ph) s = (Panic, set_jobs (base.filter (fun p => p <> ph)) s).
Proof. exact tick_unknown. Qed.
Print Assumptions C59_refuted.
Theorem C59_alive_partial : forall e now evs, let w := history e now evs in
  w_dead w = false /\ forall ph, ph ∈ st_jobs (w_st w) -> exists s', run (checkKeepalive ph) (w_st w) = (Ok tt, s').
Proof. exact alive. Qed.
Print Assumptions C59_alive_partial.
Example C59_ex : st_byPhone s2 !! phone12c = None /\ phone12 ∈ st_jobs s2.
Proof. split; [vmr|]. rewrite C57_ex. left. Qed.

(** C60: the first fragment of a message panics in the cache, which ends the connection; later
    ones are merged there, but the message is processed with the body of its last fragment *)
Theorem C60_refuted : forall e sl s x k frm p f w, consistent s -> st_sess s !! sl = Some x ->
  st_conns s !! ss_conn x = Some k -> decodePacket (e_o e) frm = Ok p -> fragment (pk_hdr p) = true ->
  h_frag (pk_hdr p) = Some f -> st_segs s !! segKey (h_phone (pk_hdr p)) (h_id (pk_hdr p)) = None ->
  exists s', run (serveLoop e sl [(Ok frm, w)]) s = (Ok true, s')
    /\ st_conns s' !! ss_conn x = Some (mkConn false (cn_out k)) /\ st_byID s' !! ss_id x = None.
Proof. exact first_fragment. Qed.
Print Assumptions C60_refuted.
Theorem C60_refuted_last : forall e sl s frm p f y, decodePacket (e_o e) frm = Ok p -> fragment (pk_hdr p) = true ->
  h_frag (pk_hdr p) = Some f -> st_segs s !! segKey (h_phone (pk_hdr p)) (h_id (pk_hdr p)) = Some y ->
  sg_total y = f_index f ->
  run (frm <- lift (Ok frm) ;; p <- decodeP e frm ;; process e sl p)%prog s =
  run (process e sl (mkPacket (pk_hdr p) (pk_body p) (pk_code p) true))
      (set_segs (<[segKey (h_phone (pk_hdr p)) (h_id (pk_hdr p)) :=
                   mkSeg (sg_phone y) (sg_id y) (sg_total y) (f_index f) (sg_data y ++ sl_data (pk_body p))]>) s).
Proof. exact last_fragment. Qed.
Print Assumptions C60_refuted_last.
(** the cache keeps, for each phone and message id, the concatenation of the fragments that arrived
    for it, however the fragments of different messages are interleaved *)
Theorem C60_cache_partial : forall ph id xs s, st_segs s !! segKey ph id = None -> plain_key ph id ->
  Forall (fun x => plain_key (sg_phone x) (sg_id x)) xs ->
  option_map sg_data (st_segs (cacheAll xs s) !! segKey ph id)
  = match List.filter (of_message ph id) xs with [] => None | own => Some (concat (List.map sg_data own)) end.
Proof. exact cacheAll_concat. Qed.
Print Assumptions C60_cache_partial.
(** but ids in the range of the surrogates share one entry *)
Theorem C60_refuted_mixed : forall s x x', sg_phone x = sg_phone x' -> surrogate (sg_id x) -> surrogate (sg_id x') ->
  st_segs s !! segKey (sg_phone x) (sg_id x) = None ->
  option_map sg_data (st_segs (cacheAll [x; x'] s) !! segKey (sg_phone x) (sg_id x)) = Some (sg_data x ++ sg_data x').
Proof. exact mixed_fragments. Qed.
Print Assumptions C60_refuted_mixed.
Example C60_ex_mixed : plain_key phone12 0x0200 /\ surrogate 0xd800 /\ surrogate 0xd801
  /\ List.filter (of_message phone12 0x0200) [mkSeg phone12 0x0200 2 1 [1; 2]; mkSeg phone12 0x0704 2 1 [9]; mkSeg phone12 0x0200 2 2 [3]]
     = [mkSeg phone12 0x0200 2 1 [1; 2]; mkSeg phone12 0x0200 2 2 [3]].
Proof.
  split; [split; [repeat constructor; vm_compute; discriminate|unfold surrogate; lia]|].
  split; [unfold surrogate; lia|]. split; [unfold surrogate; lia|]. vmr.
Qed.
Definition h_frag2 (n : N) : header :=
  mkHeader 0x0200 (mkAttr 0 0 1 0 0 EncNone true V2013) 0 phone12 7 (Some (mkFrag 2 n)).
Definition f_frag (n : N) : bytes := frame (mkMsg (h_frag2 n) (B0200 loc_on)).
Example C60_ex : consistent s2 /\ st_sess s2 !! 0%nat = Some x1 /\ is_Some (st_conns s2 !! ss_conn x1)
  /\ decodePacket o0 (f_frag 1) = Ok (unframe (f_frag 1)) /\ fragment (pk_hdr (unframe (f_frag 1))) = true
  /\ h_frag (pk_hdr (unframe (f_frag 1))) = Some (mkFrag 2 1)
  /\ st_segs s2 !! segKey phone12 0x0200 = None.
Proof.
  split; [exact s2_ok|]. split; [exact s2_x1|]. split; [vm_compute; eauto|]. repeat (split; [vmr|]). vmr.
Qed.

(** C69: logout leaves the location history, and the next registration of the phone reports
    it; the keepalive check that clears a device removes it *)
Theorem C69_refuted : forall e sl s p p' r d x ws g, consistent s -> st_sess s !! sl = Some x ->
  carries e s p 0x0003 B0003 -> devAt s (h_phone (pk_hdr p)) = Some d ->
  track s (h_phone (pk_hdr p)) (ws ++ [g]) -> (length ws mod 100 <> 99)%nat ->
  carries e s p' 0x0100 (B0100 r) -> h_phone (pk_hdr p') = h_phone (pk_hdr p) ->
  (r_plate r = d_plate d \/ devWithPlate s (r_plate r) = None) ->
  exists s1 s2 m1 m2 c, run (process e sl p) s = (Ok (Some m1), s1)
    /\ devAt s1 (h_phone (pk_hdr p)) = None
    /\ run (process e sl p') s1 = (Ok (Some m2), s2) /\ answers p' 0x8100 (B8100 (h_sn (pk_hdr p')) 0 c) m2
    /\ fst (run (apiGeo (h_phone (pk_hdr p))) s2) = Ok ([200], Some g).
Proof. exact inherited. Qed.
Print Assumptions C69_refuted.
Theorem C69_cleared_partial : forall e sl ph s d x, consistent s -> devAt s ph = Some d -> d_status d = Offline ->
  (d_last d + d_keep d < st_clock s)%Z -> st_sess s !! sl = Some x ->
  exists s1, run (checkKeepalive ph) s = (Ok tt, s1) /\ forall p r, carries e s p 0x0100 (B0100 r) -> h_phone (pk_hdr p) = ph ->
    devWithPlate s1 (r_plate r) = None ->
    exists m s2 c, run (process e sl p) s1 = (Ok (Some m), s2)
      /\ answers p 0x8100 (B8100 (h_sn (pk_hdr p)) 0 c) m
      /\ fst (run (apiGeo ph) s2) = Ok ([], None).
Proof. exact cleared_location. Qed.
Print Assumptions C69_cleared_partial.
Example C69_ex : carries e0 s2 p_logout 0x0003 B0003 /\ devAt s2 (h_phone (pk_hdr p_logout)) = Some d1
  /\ track s2 (h_phone (pk_hdr p_logout)) ([] ++ [g_on])
  /\ (exists r, carries e0 s2 (unframe f_reg1) 0x0100 (B0100 r) /\ r_plate r = d_plate d1)
  /\ h_phone (pk_hdr (unframe f_reg1)) = h_phone (pk_hdr p_logout)
  /\ devAt (set_clock 61001 s2) phone12b = Some d2 /\ d_status d2 = Offline
  /\ (d_last d2 + d_keep d2 < st_clock (set_clock 61001 s2))%Z.
Proof.
  split; [carried|]. split; [vmr|]. split; [|split; [eexists; split; [carried|reflexivity]|repeat (split; [vmr|]); vmr]].
  replace (h_phone (pk_hdr p_logout)) with phone12 by vmr. apply C50_ex.
Qed.
