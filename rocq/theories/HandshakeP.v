(** Registration and authentication over the wire *)
From stdpp Require Import gmap.
From Verif Require Import Base HexM TimeM HashM HeaderM ParamsM GeoM MsgM PacketM FrameM ProgM ProgP RingM SpecRing RingP
  StateM ProcM ServerM SpecState SpecCodec HexP HeaderP FrameP MsgP CodecP CodecP3 StateP ProcP ServerP ParamsP EffectP ReplyP.
Local Open Scope N_scope.

(** one served frame with an answer *)
Lemma serve_reply e sl s x k frm p m s1 b : st_sess s !! sl = Some x -> st_conns s !! ss_conn x = Some k ->
  cn_open k = true -> decodePacket (e_o e) frm = Ok p -> isFragmented (pk_hdr p) = false ->
  run (process e sl p) s = (Ok (Some m), s1) -> st_conns s1 = st_conns s -> encodePacket (e_o e) m = Ok b ->
  run (serveOne e sl (Ok frm) None) s =
  (Ok true, set_conns (<[ss_conn x := mkConn true (cn_out k ++ [b])]>) s1).
Proof.
  intros Hx Hk Ho Hd Hf Hp Hc He. unfold serveOne. rewrite run_bind. cbn [readSess run]. rewrite Hx. cbn [run ret].
  rewrite run_bindR, run_read. unfold frameOut. rewrite run_bind. cbn [lift run].
  rewrite run_bind. unfold decodeP. rewrite run_bind. cbn [lift run]. rewrite Hd, Hf. cbn [run ret]. rewrite Hp.
  unfold processConnWrite. rewrite run_bind. cbn [lift run]. rewrite He. unfold connSend. cbn [run].
  rewrite Hc, Hk, Ho. cbn [run ret fst snd]. unfold ret. f_equal. unfold set_conns. f_equal. rewrite Hc.
  rewrite <- (insert_id (st_conns s) (ss_conn x) k Hk) at 1. rewrite alter_insert, Ho. reflexivity.
Qed.

Lemma consistent_clock t s : consistent s -> consistent (set_clock t s).
Proof. intros [? ? ? ? ? ? ? ? ? ?]. split; assumption. Qed.
Lemma consistent_conns_insert c k s : consistent s -> consistent (set_conns (<[c := k]>) s).
Proof.
  intros [? ? ? ? ? ? ? ? Hc ?]. split; try assumption. intros l x Hx. destruct (Hc l x Hx) as (H1 & H2). split; [|exact H2].
  cbn. destruct (decide (ss_conn x = c)) as [->|Hn]; [rewrite lookup_insert; eauto|]. rewrite lookup_insert_ne by congruence. exact H1.
Qed.

(** an encoded message is one frame of the stream *)
Lemma encodePacket_escape o m f : encodePacket o m = Ok f -> exists q, f = escape q.
Proof. unfold encodePacket, rmap. destruct (msgEncode o m); [|discriminate..]. intros [= <-]. eauto. Qed.
Lemma encoded_frames o ms fs st : Forall2 (fun m f => encodePacket o m = Ok f) ms fs ->
  ~ In [] (st_next st) -> st_bytes st = concat fs -> frames st = fs.
Proof.
  intros H Hn Hs.
  assert (Hq : exists qs, fs = List.map escape qs).
  { clear Hs. induction H as [|m f ms fs Hm H (qs & ->)]; [exists []; reflexivity|].
    destruct (encodePacket_escape _ _ _ Hm) as (q & ->). exists (q :: qs). reflexivity. }
  destruct Hq as (qs & ->).
  destruct (frames_escaped qs [] [] st Hn) as (E & _); [intros j []|intros []| |exact E].
  rewrite Hs. clear. induction qs as [|q qs IH]; [reflexivity|]. cbn [List.map concat interleaved hd tl app]. rewrite IH. reflexivity.
Qed.

Lemma encode_len o h n b : encodePacket o (mkMsg (hdr_set_len h n) b) = encodePacket o (mkMsg h b).
Proof. unfold encodePacket, msgEncode. cbn [m_hdr m_body]. destruct b; reflexivity. Qed.
Lemma code_short id pl ph c : is_code id pl ph c -> (length c <= 20)%nat.
Proof.
  intros H. pose proof (proj1 (code_iff (mkDevice id pl ph [] 0 0 0 0 V2013 0 [] [] []) c) H) as ->.
  unfold genAuthCode, itoa. pose proof (itoa_fuel_length 20 (FNV32 (id ++ 95 :: pl ++ 95 :: ph)) []) as L. cbn [length] in L. cbn [d_id d_plate d_phone]. lia.
Qed.

(** a success reply, wherever the device is known *)
Lemma client_wakes e sl s p a b d : carries e s p 0x8001 (B8001 a b 0) ->
  devAt s (h_phone (pk_hdr p)) = Some d -> d_phone d = h_phone (pk_hdr p) -> d_status d = Offline ->
  exists s', run (process e sl p) s = (Ok None, s')
    /\ devAt s' (h_phone (pk_hdr p)) =
       Some (mkDevice (d_id d) (d_plate d) (d_phone d) (d_sid d) (d_conn d) (d_keep d) (st_clock s)
                      Online (d_ver d) (d_proto d) (d_auth d) (d_imei d) (d_sw d))
    /\ st_conns s' = st_conns s /\ st_sess s' = st_sess s.
Proof.
  intros (Hid & Hf & Hd) Hdv Hp Hs.
  assert (exists l, st_byPhone s !! h_phone (pk_hdr p) = Some l /\ st_devs s !! l = Some d) as (l & H & H1).
  { revert Hdv. unfold devAt. destruct (st_byPhone s !! _) as [l|]; [eauto|discriminate]. }
  rewrite run_process, Hid. cbn [lookupN optionTable N.eqb Pos.eqb].
  replace (isFragmented (pk_hdr p) && negb (pk_segdone p)) with false.
  2:{ unfold fragment in Hf; fold (isFragmented (pk_hdr p)) in Hf; destruct Hf as [-> | ->]; [reflexivity|]. rewrite andb_false_r. reflexivity. }
  cbn [kind_of] in Hd. rewrite Hd. cbn [m_body].
  set (f := fun d => dset_last (dset_status d Online) (st_clock s)).
  assert (E : exists s', run (process8001 (mkMsg (pk_hdr p) (B8001 a b 0)) 0) s = (Ok tt, s')
    /\ st_devs s' !! l = Some (f d) /\ st_byPhone s' = <[h_phone (pk_hdr p) := l]> (st_byPhone s)
    /\ st_conns s' = st_conns s /\ st_sess s' = st_sess s).
  { unfold process8001. cbn [N.eqb m_hdr]. rewrite run_bind. unfold getDeviceByPhone, rd1. cbn [run ret]. rewrite H.
    rewrite run_bind. unfold readDev. cbn [run]. rewrite H1. cbn [run ret]. rewrite Hs. cbn [N.eqb Offline].
    unfold writeDev, getNow, cacheDevice, wr1, rd1, ret, pbind. cbn -[alter insert lookup].
    rewrite !lookup_alter, H1. cbn -[alter insert lookup]. eexists. split; [reflexivity|].
    cbn -[alter insert lookup]. rewrite !lookup_alter, H1, Hp. repeat split; reflexivity. }
  destruct E as (s' & E & E1 & E2 & E3 & E4). rewrite E. exists s'. split; [reflexivity|].
  unfold devAt. rewrite E2, lookup_insert. split; [exact E1|]. split; [exact E3|exact E4].
Qed.

Section Handshake.
Variables (e ec : env) (sl slc : nat) (s sc : st) (x : session) (k : conn) (t : Z).
Variables (h : header) (r r' : reg) (d : device) (imei sw : str).
Hypothesis Ho : e_o ec = e_o e.
Hypothesis C : consistent s.
Hypothesis (Hx : st_sess s !! sl = Some x) (Hk : st_conns s !! ss_conn x = Some k) (Hop : cn_open k = true).
Hypothesis (Hwf : hdr_wf h) (Hid : h_id h = 0x0100) (Hfr : a_frag (h_attr h) = 0).
Hypothesis Hreg : delivered (e_o e) h (B0100 r) (B0100 r').
Hypothesis (Hph : devAt s (h_phone h) = None) (Hpl : devWithPlate s (r_plate r') = None).
Hypothesis Hcd : devAt sc (h_phone h) = Some d.
Hypothesis Hauth : forall h', hdr_wf h' -> a_ver (h_attr h') = a_ver (h_attr h) -> forall al code, (length code <= 20)%nat ->
  exists al', delivered (e_o e) h' (B0102 al code (d_imei d) (d_sw d)) (B0102 al' code imei sw).

Lemma handshake : exists f1 f2 f3 f4 code s1 s2 p2 m3 p4,
  (* the client sends its registration *)
  encodePacket (e_o e) (mkMsg h (B0100 r)) = Ok f1
  (* the server answers with f2 *)
  /\ run (serveOne e sl (Ok f1) None) s = (Ok true, s1)
  /\ st_conns s1 !! ss_conn x = Some (mkConn true (cn_out k ++ [f2]))
  (* which the client answers with f3 *)
  /\ decodePacket (e_o ec) f2 = Ok p2 /\ carries ec sc p2 0x8100 (B8100 (h_sn h) 0 code)
  /\ run (process ec slc p2) sc = (Ok (Some m3), sc) /\ encodePacket (e_o ec) m3 = Ok f3
  (* which, later, the server answers with f4: success *)
  /\ run (serveOne e sl (Ok f3) None) (set_clock t s1) = (Ok true, s2)
  /\ st_conns s2 !! ss_conn x = Some (mkConn true (cn_out k ++ [f2; f4]))
  /\ decodePacket (e_o ec) f4 = Ok p4
  /\ carries ec sc p4 0x8001 (B8001 (h_sn h) 0x0102 0) /\ h_phone (pk_hdr p4) = h_phone h
  (* which makes the client's own record online *)
  /\ (d_phone d = h_phone h -> d_status d = Offline ->
      exists sc', run (process ec slc p4) sc = (Ok None, sc')
        /\ devAt sc' (h_phone h) = Some (mkDevice (d_id d) (d_plate d) (d_phone d) (d_sid d) (d_conn d) (d_keep d)
             (st_clock sc) Online (d_ver d) (d_proto d) (d_auth d) (d_imei d) (d_sw d))
        /\ st_conns sc' = st_conns sc /\ st_sess sc' = st_sess sc)
  /\ is_code (r_devid r') (r_plate r') (h_phone h) code
  /\ consistent s2
  /\ devAt s2 (h_phone h) = Some (mkDevice (r_devid r') (r_plate r') (h_phone h) (ss_id x) (ss_conn x) 60000 t
                                  Online (a_ver (h_attr h)) (h_proto h) code imei sw)
  (* both frames arrive as they are however the stream is cut *)
  /\ forall str, ~ In [] (st_next str) -> st_bytes str = f1 ++ f3 -> frames str = [f1; f3].
Proof using All.
  assert (Hnf : forall n, isFragmented (hdr_set_len h n) = false).
  { intros n. unfold isFragmented. cbn. rewrite Hfr. reflexivity. }
  destruct Hreg as (n1 & D1). destruct (D1 (e_civil e (st_clock s))) as (f1 & p1 & E1 & Dc1 & Hh1 & Hn1 & M1).
  assert (Hc1 : carries e s p1 0x0100 (B0100 r')).
  { split; [rewrite Hh1; exact Hid|]. split; [left; rewrite Hh1; apply Hnf|exact M1]. }
  destruct (registration e sl s p1 r' x C Hc1 Hx) as (m2 & sa & R1 & R2).
  assert (Hphone : h_phone (pk_hdr p1) = h_phone h) by (rewrite Hh1; reflexivity).
  rewrite Hphone, Hph, Hpl in R2. destruct R2 as ((code & Hcode & Hans) & Rd & Rp & Roth & Rj & Rr & Ca).
  assert (Hsn : h_sn (pk_hdr p1) = h_sn h) by (rewrite Hh1; reflexivity).
  assert (Hfrag : h_frag h = None).
  { destruct Hwf as (_ & (_ & _ & _ & _ & _ & _ & Hfd & _) & _ & _ & _ & _ & H7). rewrite Hfd, Hfr in H7. exact H7. }
  pose proof (proj1 (proj2 (proj2 Hwf))) as Hsnb.
  set (h2 := hdr_set_id h 0x8100).
  assert (W2 : hdr_wf h2) by (apply hdr_set_id_wf; [exact Hwf|reflexivity]).
  assert (Hm2 : m2 = mkMsg (hdr_set_len h2 n1) (B8100 (h_sn h) 0 code)).
  { rewrite Hans, Hsn, Hh1. reflexivity. }
  pose proof (code_short _ _ _ _ Hcode) as Hcl.
  destruct (regreply_delivered (e_o e) h2 (h_sn h) 0 code W2 Hsnb ltac:(lia)) as (n2 & D2).
  destruct (D2 (e_civil ec (st_clock sc))) as (f2 & p2 & E2 & Dc2 & Hh2 & Hn2 & M2).
  assert (E2' : encodePacket (e_o e) m2 = Ok f2) by (rewrite Hm2, encode_len; exact E2).
  pose proof (serve_reply e sl s x k f1 p1 m2 sa f2 Hx Hk Hop Dc1 ltac:(rewrite Hh1; apply Hnf) R1
    ltac:(apply Rr) E2') as S1.
  set (s1 := set_conns (<[ss_conn x := mkConn true (cn_out k ++ [f2])]>) sa) in *.
  (* the client *)
  assert (Hc2 : carries ec sc p2 0x8100 (B8100 (h_sn h) 0 code)).
  { split; [rewrite Hh2; reflexivity|]. split; [left; rewrite Hh2; apply (Hnf n2)|]. rewrite Ho. exact M2. }
  assert (exists lc, st_byPhone sc !! h_phone h = Some lc /\ st_devs sc !! lc = Some d) as (lc & Hlc & Hlc1).
  { revert Hcd. unfold devAt. destruct (st_byPhone sc !! h_phone h) as [lc|]; [eauto|discriminate]. }
  set (h3 := hdr_set_id h 0x0102).
  assert (W3 : hdr_wf h3) by (apply hdr_set_id_wf; [exact Hwf|reflexivity]).
  set (al3 := N.of_nat (length code) mod 256).
  set (m3 := mkMsg (hdr_set_len h3 n2) (B0102 al3 code (d_imei d) (d_sw d))).
  assert (P3 : run (process ec slc p2) sc = (Ok (Some m3), sc)).
  { erewrite process_carries; [|exact Hc2|reflexivity|reflexivity]. unfold handler. cbn [m_body].
    unfold process8100. rewrite run_bind. cbn [getDeviceByPhone rd1 run ret m_hdr]. unfold ret. rewrite Hh2.
    cbn [run with_len hdr_set_len h_phone]. change (h_phone h2) with (h_phone h). rewrite Hlc. rewrite run_bind. cbn [readDev run].
    rewrite Hlc1. reflexivity. }
  destruct (Hauth h3 W3 eq_refl al3 code Hcl) as (al' & n3 & D3).
  destruct (D3 (e_civil e t)) as (f3 & p3 & E3 & Dc3 & Hh3 & Hn3 & M3).
  assert (E3' : encodePacket (e_o ec) m3 = Ok f3) by (unfold m3; rewrite encode_len, Ho; exact E3).
  (* the server again *)
  set (s1t := set_clock t s1).
  assert (C1 : consistent s1t) by (apply consistent_clock, consistent_conns_insert; exact Ca).
  assert (Hc3 : carries e s1t p3 0x0102 (B0102 al' code imei sw)).
  { split; [rewrite Hh3; reflexivity|]. split; [left; rewrite Hh3; apply (Hnf n3)|exact M3]. }
  assert (Hp3 : h_phone (pk_hdr p3) = h_phone h) by (rewrite Hh3; reflexivity).
  assert (Hd3 : devAt s1t (h_phone (pk_hdr p3)) = devAt sa (h_phone h)) by (rewrite Hp3; reflexivity).
  rewrite Rd in Hd3.
  destruct (authentication e sl s1t p3 al' code imei sw _ C1 Hc3 Hd3) as (m4 & sb & A1 & Cb & _ & Ar & Aok & _).
  destruct (Aok Hcode) as (Aans & Adev & _).
  assert (Hsn3 : h_sn (pk_hdr p3) = h_sn h) by (rewrite Hh3; reflexivity).
  set (h4 := hdr_set_id h 0x8001).
  assert (W4 : hdr_wf h4) by (apply hdr_set_id_wf; [exact Hwf|reflexivity]).
  assert (Hm4 : m4 = mkMsg (hdr_set_len h4 n3) (B8001 (h_sn h) 0x0102 0)).
  { rewrite Aans, Hsn3, Hh3. reflexivity. }
  destruct (reply_delivered (e_o e) h4 (h_sn h) 0x0102 0 W4 Hsnb ltac:(lia)) as (_ & n4 & D4).
  destruct (D4 (e_civil ec (st_clock sc))) as (f4 & p4 & E4 & Dc4 & Hh4 & Hn4 & M4).
  assert (E4' : encodePacket (e_o e) m4 = Ok f4) by (rewrite Hm4, encode_len; exact E4).
  assert (Hx1 : st_sess s1t !! sl = Some x).
  { destruct Rr as (_ & _ & _ & _ & Rs & _). cbn. rewrite Rs. exact Hx. }
  assert (Hk1 : st_conns s1t !! ss_conn x = Some (mkConn true (cn_out k ++ [f2]))) by (cbn; apply lookup_insert).
  pose proof (serve_reply e sl s1t x _ f3 p3 m4 sb f4 Hx1 Hk1 eq_refl Dc3 ltac:(rewrite Hh3; apply (Hnf n3)) A1
    ltac:(apply Ar) E4') as S2. cbn [cn_out] in S2. rewrite <- app_assoc in S2. cbn [app] in S2.
  exists f1, f2, f3, f4, code, s1, (set_conns (<[ss_conn x := mkConn true (cn_out k ++ [f2; f4])]>) sb), p2, m3, p4.
  split; [exact E1|]. split; [exact S1|]. split; [cbn; apply lookup_insert|]. split; [rewrite Ho; exact Dc2|].
  split; [exact Hc2|].
  split; [exact P3|]. split; [exact E3'|]. split; [exact S2|]. split; [cbn; apply lookup_insert|].
  assert (Hc4 : carries ec sc p4 0x8001 (B8001 (h_sn h) 0x0102 0)).
  { split; [rewrite Hh4; reflexivity|]. split; [left; rewrite Hh4; apply (Hnf n4)|]. rewrite Ho. exact M4. }
  split; [rewrite Ho; exact Dc4|]. split; [exact Hc4|].
  assert (Hp4 : h_phone (pk_hdr p4) = h_phone h) by (rewrite Hh4; reflexivity). split; [exact Hp4|]. split.
  { intros Hdp Hst. rewrite <- Hp4 in *.
    apply (client_wakes ec slc sc p4 (h_sn h) 0x0102 d Hc4 Hcd Hdp Hst). }
  split; [exact Hcode|]. split; [apply consistent_conns_insert; exact Cb|]. split.
  { rewrite Hp3 in Adev. change (devAt sb (h_phone h) = Some (mkDevice (r_devid r') (r_plate r') (h_phone h) (ss_id x) (ss_conn x) 60000 t
                                  Online (a_ver (h_attr h)) (h_proto h) code imei sw)).
    rewrite Adev. cbn. rewrite Hh1. reflexivity. }
  intros str Hne Hs. apply (encoded_frames (e_o e) [mkMsg h (B0100 r); m3]); [|exact Hne|rewrite Hs; cbn; rewrite app_nil_r; reflexivity].
  constructor; [exact E1|]. constructor; [rewrite <- Ho; exact E3'|constructor].
Qed.
End Handshake.

(** the two header versions *)
Lemma handshake2019 e ec sl slc s sc x k t h prov city manu mode did color plate loc g d :
  e_o ec = e_o e -> consistent s -> st_sess s !! sl = Some x -> st_conns s !! ss_conn x = Some k ->
  cn_open k = true -> hdr_wf h -> h_id h = 0x0100 -> a_frag (h_attr h) = 0 -> a_ver (h_attr h) = V2019 ->
  prov < 65536 -> city < 65536 -> text_fits 11 manu -> text_fits 30 mode -> text_fits 30 did ->
  gbk_fits (e_o e) plate g -> (length g < 948)%nat ->
  devAt s (h_phone h) = None -> devWithPlate s plate = None ->
  devAt sc (h_phone h) = Some d -> length (d_imei d) = 15%nat -> text_fits 20 (d_sw d) ->
  exists f1 f2 f3 f4 code s1 s2 p2 m3 p4,
    encodePacket (e_o e) (mkMsg h (B0100 (mkReg prov city manu mode did color plate loc))) = Ok f1
    /\ run (serveOne e sl (Ok f1) None) s = (Ok true, s1)
    /\ st_conns s1 !! ss_conn x = Some (mkConn true (cn_out k ++ [f2]))
    /\ decodePacket (e_o ec) f2 = Ok p2 /\ carries ec sc p2 0x8100 (B8100 (h_sn h) 0 code)
    /\ run (process ec slc p2) sc = (Ok (Some m3), sc) /\ encodePacket (e_o ec) m3 = Ok f3
    /\ run (serveOne e sl (Ok f3) None) (set_clock t s1) = (Ok true, s2)
    /\ st_conns s2 !! ss_conn x = Some (mkConn true (cn_out k ++ [f2; f4]))
    /\ decodePacket (e_o ec) f4 = Ok p4 /\ carries ec sc p4 0x8001 (B8001 (h_sn h) 0x0102 0)
    /\ h_phone (pk_hdr p4) = h_phone h
    /\ (d_phone d = h_phone h -> d_status d = Offline ->
      exists sc', run (process ec slc p4) sc = (Ok None, sc')
        /\ devAt sc' (h_phone h) = Some (mkDevice (d_id d) (d_plate d) (d_phone d) (d_sid d) (d_conn d) (d_keep d)
             (st_clock sc) Online (d_ver d) (d_proto d) (d_auth d) (d_imei d) (d_sw d))
        /\ st_conns sc' = st_conns sc /\ st_sess sc' = st_sess sc)
    /\ is_code did plate (h_phone h) code /\ consistent s2
    /\ devAt s2 (h_phone h) = Some (mkDevice did plate (h_phone h) (ss_id x) (ss_conn x) 60000 t
                                    Online V2019 (h_proto h) code (d_imei d) (d_sw d))
    /\ forall str, ~ In [] (st_next str) -> st_bytes str = f1 ++ f3 -> frames str = [f1; f3].
Proof.
  intros Ho C Hx Hk Hop Hwf Hid Hfr Hv Hpr Hci Hma Hmo Hdi Hg Hgl Hph Hpl Hcd Him Hsw.
  destruct (reg2019_delivered (e_o e) h prov city manu mode did color plate loc g Hwf Hv Hpr Hci Hma Hmo Hdi Hg Hgl) as (loc' & _ & D).
  rewrite <- Hv.
  apply (handshake e ec sl slc s sc x k t h _ _ d (d_imei d) (d_sw d) Ho C Hx Hk Hop Hwf Hid Hfr D Hph Hpl Hcd).
  intros h' Hw' Hv' al code Hl. eexists. apply auth2019_delivered; [exact Hw'|congruence|lia|exact Him|exact Hsw].
Qed.
Lemma handshake2013 e ec sl slc s sc x k t h prov city manu mode did color plate loc g d :
  e_o ec = e_o e -> consistent s -> st_sess s !! sl = Some x -> st_conns s !! ss_conn x = Some k ->
  cn_open k = true -> hdr_wf h -> h_id h = 0x0100 -> a_frag (h_attr h) = 0 -> a_ver (h_attr h) = V2013 ->
  prov < 65536 -> city < 65536 -> text_fits 5 manu -> text_fits 20 mode -> text_fits 7 did ->
  gbk_fits (e_o e) plate g -> g <> [] -> (length g < 987)%nat ->
  devAt s (h_phone h) = None -> devWithPlate s plate = None ->
  devAt sc (h_phone h) = Some d ->
  exists f1 f2 f3 f4 code s1 s2 p2 m3 p4,
    encodePacket (e_o e) (mkMsg h (B0100 (mkReg prov city manu mode did color plate loc))) = Ok f1
    /\ run (serveOne e sl (Ok f1) None) s = (Ok true, s1)
    /\ st_conns s1 !! ss_conn x = Some (mkConn true (cn_out k ++ [f2]))
    /\ decodePacket (e_o ec) f2 = Ok p2 /\ carries ec sc p2 0x8100 (B8100 (h_sn h) 0 code)
    /\ run (process ec slc p2) sc = (Ok (Some m3), sc) /\ encodePacket (e_o ec) m3 = Ok f3
    /\ run (serveOne e sl (Ok f3) None) (set_clock t s1) = (Ok true, s2)
    /\ st_conns s2 !! ss_conn x = Some (mkConn true (cn_out k ++ [f2; f4]))
    /\ decodePacket (e_o ec) f4 = Ok p4 /\ carries ec sc p4 0x8001 (B8001 (h_sn h) 0x0102 0)
    /\ h_phone (pk_hdr p4) = h_phone h
    /\ (d_phone d = h_phone h -> d_status d = Offline ->
      exists sc', run (process ec slc p4) sc = (Ok None, sc')
        /\ devAt sc' (h_phone h) = Some (mkDevice (d_id d) (d_plate d) (d_phone d) (d_sid d) (d_conn d) (d_keep d)
             (st_clock sc) Online (d_ver d) (d_proto d) (d_auth d) (d_imei d) (d_sw d))
        /\ st_conns sc' = st_conns sc /\ st_sess sc' = st_sess sc)
    /\ is_code did plate (h_phone h) code /\ consistent s2
    /\ devAt s2 (h_phone h) = Some (mkDevice did plate (h_phone h) (ss_id x) (ss_conn x) 60000 t
                                    Online V2013 (h_proto h) code [] [])
    /\ forall str, ~ In [] (st_next str) -> st_bytes str = f1 ++ f3 -> frames str = [f1; f3].
Proof.
  intros Ho C Hx Hk Hop Hwf Hid Hfr Hv Hpr Hci Hma Hmo Hdi Hg Hgn Hgl Hph Hpl Hcd.
  destruct (reg2013_delivered (e_o e) h prov city manu mode did color plate loc g Hwf Hv Hpr Hci Hma Hmo Hdi Hg Hgn Hgl) as (loc' & _ & D).
  rewrite <- Hv.
  apply (handshake e ec sl slc s sc x k t h _ _ d [] [] Ho C Hx Hk Hop Hwf Hid Hfr D Hph Hpl Hcd).
  intros h' Hw' Hv' al code Hl. eexists. apply auth2013_delivered; [exact Hw'|congruence|lia].
Qed.
