(** The effect of each message and check *)
From stdpp Require Import gmap.
From Verif Require Import Base HexM TimeM HashM HeaderM ParamsM GeoM MsgM PacketM ProgM ProgP RingM SpecRing RingP
  StateM ProcM ServerM SpecState StateP ProcP ServerP ParamsP SpecCodec DecP.
Local Open Scope N_scope.

Lemma FNV32_fnv1a s : FNV32 s = fnv1a 0x811c9dc5 s.
Proof. unfold FNV32. generalize 0x811c9dc5. induction s as [|b s IH]; intros h; [reflexivity|]. cbn. apply IH. Qed.
Lemma fnv1a_bound s : forall h, h < 2 ^ 32 -> fnv1a h s < 2 ^ 32.
Proof.
  induction s as [|b s IH]; intros h Hh; [exact Hh|]. cbn [fnv1a]. apply IH. apply N.mod_upper_bound. discriminate.
Qed.
Lemma code_iff d c : is_code (d_id d) (d_plate d) (d_phone d) c <-> c = genAuthCode d.
Proof.
  unfold is_code, genAuthCode. rewrite FNV32_fnv1a. cbn [app].
  pose proof (fnv1a_bound (d_id d ++ 95 :: d_plate d ++ 95 :: d_phone d) 0x811c9dc5 ltac:(reflexivity)) as Hb.
  assert (Hb' : fnv1a 0x811c9dc5 (d_id d ++ 95 :: d_plate d ++ 95 :: d_phone d) < 10 ^ 20).
  { eapply N.lt_trans; [exact Hb|reflexivity]. }
  split; [apply decimal_itoa; exact Hb'|]. intros ->. apply itoa_decimal. exact Hb'.
Qed.

(** * Processing a decoded message *)
Lemma process_carries e sl s p id b k out : carries e s p id b ->
  lookupN optionTable id = Some (kind_of b, Some k) ->
  genOutgoing (e_civil e (st_clock s)) k (mkMsg (pk_hdr p) b) = Ok (Some out) ->
  run (process e sl p) s = okSome (run (handler e sl (mkMsg (pk_hdr p) b) out) s).
Proof.
  intros (Hid & Hf & Hd) Hl Hg. rewrite run_process, Hid, Hl.
  replace (isFragmented (pk_hdr p) && negb (pk_segdone p)) with false.
  - rewrite Hd, Hg. reflexivity.
  - change (fragment (pk_hdr p)) with (isFragmented (pk_hdr p)) in Hf. destruct Hf as [-> | ->]; [reflexivity|]. rewrite andb_false_r. reflexivity.
Qed.

(** C42 *)
Lemma registration e sl s p r x : consistent s -> carries e s p 0x0100 (B0100 r) -> st_sess s !! sl = Some x ->
  let ph := h_phone (pk_hdr p) in
  exists res s', run (process e sl p) s = (Ok (Some res), s')
    /\ match devWithPlate s (r_plate r), devAt s ph with
       | Some _, _ => (exists c, answers p 0x8100 (B8100 (h_sn (pk_hdr p)) 1 c) res) /\ s' = s
       | None, Some _ => (exists c, answers p 0x8100 (B8100 (h_sn (pk_hdr p)) 3 c) res) /\ s' = s
       | None, None =>
           (exists c, is_code (r_devid r) (r_plate r) ph c
                      /\ answers p 0x8100 (B8100 (h_sn (pk_hdr p)) 0 c) res)
           /\ devAt s' ph = Some (mkDevice (r_devid r) (r_plate r) ph (ss_id x) (ss_conn x) 60000
                                   (st_clock s) Offline (a_ver (h_attr (pk_hdr p))) (h_proto (pk_hdr p)) [] [] [])
           /\ devWithPlate s' (r_plate r) = devAt s' ph
           /\ others_kept ph (r_plate r) s s' /\ st_jobs s' = st_jobs s ++ [ph] /\ rest_kept s s'
           /\ consistent s'
       end.
Proof.
  intros C Hc Hx. cbn zeta. erewrite process_carries; [|exact Hc|reflexivity|reflexivity].
  unfold handler. cbn [m_body]. erewrite run_0100 by exact Hx. cbn [m_hdr].
  assert (Hp : devWithPlate s (r_plate r) = None <-> st_byPlate s !! r_plate r = None) by (apply devWithPlate_None; exact C).
  assert (Hq : devAt s (h_phone (pk_hdr p)) = None <-> st_byPhone s !! h_phone (pk_hdr p) = None) by (apply devAt_None; exact C).
  destruct (st_byPlate s !! r_plate r) as [l|] eqn:E1.
  { destruct (devWithPlate s (r_plate r)) as [d|]; [|exfalso; destruct Hp as [Hp _]; specialize (Hp eq_refl); discriminate].
    eexists _, s. split; [reflexivity|]. split; [|reflexivity]. eexists. reflexivity. }
  destruct (devWithPlate s (r_plate r)) as [d|]; [exfalso; destruct Hp as [_ Hp]; specialize (Hp eq_refl); discriminate|].
  destruct (st_byPhone s !! h_phone (pk_hdr p)) as [l|] eqn:E2.
  { destruct (devAt s (h_phone (pk_hdr p))) as [d|]; [|exfalso; destruct Hq as [Hq _]; specialize (Hq eq_refl); discriminate].
    eexists _, s. split; [reflexivity|]. split; [|reflexivity]. eexists. reflexivity. }
  destruct (devAt s (h_phone (pk_hdr p))) as [d|]; [exfalso; destruct Hq as [_ Hq]; specialize (Hq eq_refl); discriminate|].
  set (d := newDevice (pk_hdr p) r x (st_clock s)).
  pose proof (added_spec s C d E2 E1) as (A1 & A2 & A3 & A4 & A5).
  pose proof (added_ok s C d E2 E1) as C'.
  eexists _, (added s d). split; [reflexivity|]. split.
  { exists (genAuthCode d). split; [apply (code_iff d); reflexivity|reflexivity]. }
  split; [exact A1|]. split; [exact (eq_trans A2 (eq_sym A1))|]. auto.
Qed.

(** C44 *)
Lemma authentication e sl s p al code imei sw d : consistent s ->
  carries e s p 0x0102 (B0102 al code imei sw) -> devAt s (h_phone (pk_hdr p)) = Some d ->
  let ph := h_phone (pk_hdr p) in
  exists res s', run (process e sl p) s = (Ok (Some res), s') /\ consistent s'
    /\ others_kept ph (d_plate d) s s' /\ rest_kept s s'
    /\ (is_code (d_id d) (d_plate d) (d_phone d) code ->
          answers p 0x8001 (B8001 (h_sn (pk_hdr p)) 0x0102 0) res
          /\ devAt s' ph = Some (mkDevice (d_id d) (d_plate d) ph (d_sid d) (d_conn d) (d_keep d)
                                          (st_clock s) Online (d_ver d) (d_proto d) code imei sw)
          /\ devWithPlate s' (d_plate d) = devAt s' ph /\ st_jobs s' = st_jobs s)
    /\ (~ is_code (d_id d) (d_plate d) (d_phone d) code ->
          answers p 0x8001 (B8001 (h_sn (pk_hdr p)) 0x0102 1) res
          /\ devAt s' ph = None /\ devWithPlate s' (d_plate d) = None
          /\ forall q, q ∈ st_jobs s' <-> q ∈ st_jobs s /\ q <> ph).
Proof.
  intros C Hc Hd. cbn zeta. destruct (devAt_Some s C _ _ Hd) as (l & H & H1 & Hp & Hq).
  erewrite process_carries; [|exact Hc|reflexivity|reflexivity].
  destruct Hc as (Hid & _). unfold handler. cbn [m_body].
  rewrite (run_0102 s C (mkMsg (pk_hdr p) (B0102 al code imei sw)) _ _ _ _ l d H H1). case_bool_decide as Hcode.
  - eexists _, _. split; [reflexivity|].
    destruct (touch_spec s C (fun d => dset_auth (dset_last (dset_status d Online) (st_clock s)) code imei sw) _ l d H H1) as (T1 & T2 & T3).
    split; [eapply touch_ok; [exact C|exact H1|reflexivity..]|]. split; [exact T3|]. split; [apply rest_kept_devs|].
    split; [|intros Hn; exfalso; apply Hn; apply code_iff; exact Hcode].
    intros _. split; [cbn; unfold answers; rewrite Hid; reflexivity|]. rewrite T1, T2.
    unfold dset_auth, dset_last, dset_status. cbn. rewrite Hp. auto.
  - eexists _, _. split; [reflexivity|].
    assert (H' : st_byPhone s !! d_phone d = Some l) by (rewrite Hp; exact H).
    destruct (dropped_spec s d l H' H1) as (D1 & D2 & D3 & D4 & D5).
    split; [eapply dropped_ok; eassumption|]. rewrite Hp in D1, D3, D4. split; [exact D3|]. split; [exact D5|].
    split; [intros Hy; exfalso; apply Hcode; apply code_iff; exact Hy|].
    intros _. split; [cbn; unfold answers; rewrite Hid; reflexivity|]. auto.
Qed.

(** an unknown phone: the connection is to be closed and nothing changes *)
Lemma unknown_phone e sl s p id b : consistent s -> carries e s p id b -> devAt s (h_phone (pk_hdr p)) = None ->
  (id = 0x0002 /\ b = B0002) \/ (id = 0x0003 /\ b = B0003)
  \/ (id = 0x0102 /\ exists al c i w, b = B0102 al c i w) \/ (id = 0x0200 /\ exists m, b = B0200 m) ->
  run (process e sl p) s = (Err ErrDeviceNotFound, s).
Proof.
  intros C Hc Hd Hb. apply (devAt_None s C) in Hd.
  destruct Hb as [(-> & ->)|[(-> & ->)|[(-> & al & c & i & w & ->)|(-> & m & ->)]]];
    (erewrite process_carries; [|exact Hc|reflexivity|reflexivity]); unfold handler; cbn [m_body].
  - rewrite run_0002_none by exact Hd. reflexivity.
  - rewrite run_0003_none by exact Hd. reflexivity.
  - rewrite run_0102_none by exact Hd. reflexivity.
  - rewrite run_0200_none by exact Hd. reflexivity.
Qed.

(** C48 *)
Lemma heartbeat e sl s p d : consistent s -> carries e s p 0x0002 B0002 ->
  devAt s (h_phone (pk_hdr p)) = Some d ->
  exists res s', run (process e sl p) s = (Ok (Some res), s') /\ consistent s'
    /\ answers p 0x8001 (B8001 (h_sn (pk_hdr p)) 0x0002 0) res
    /\ devAt s' (h_phone (pk_hdr p)) =
       Some (mkDevice (d_id d) (d_plate d) (d_phone d) (d_sid d) (d_conn d) (d_keep d) (st_clock s)
                      (d_status d) (d_ver d) (d_proto d) (d_auth d) (d_imei d) (d_sw d))
    /\ devWithPlate s' (d_plate d) = devAt s' (h_phone (pk_hdr p))
    /\ others_kept (h_phone (pk_hdr p)) (d_plate d) s s' /\ st_jobs s' = st_jobs s /\ rest_kept s s'.
Proof.
  intros C Hc Hd. destruct (devAt_Some s C _ _ Hd) as (l & H & H1 & Hp & Hq).
  erewrite process_carries; [|exact Hc|reflexivity|reflexivity].
  destruct Hc as (Hid & _). unfold handler. cbn [m_body]. rewrite (run_0002 s C (mkMsg (pk_hdr p) B0002) _ l H).
  eexists _, _. split; [reflexivity|].
  destruct (touch_spec s C (fun d => dset_last d (st_clock s)) _ l d H H1) as (T1 & T2 & T3).
  split; [eapply touch_ok; [exact C|exact H1|reflexivity..]|].
  split; [cbn; unfold answers; rewrite Hid; reflexivity|]. rewrite T1, T2. split; [reflexivity|].
  split; [reflexivity|]. split; [exact T3|]. split; [reflexivity|apply rest_kept_devs].
Qed.

(** C49 *)
Lemma logout e sl s p d : consistent s -> carries e s p 0x0003 B0003 ->
  devAt s (h_phone (pk_hdr p)) = Some d ->
  exists res s', run (process e sl p) s = (Ok (Some res), s') /\ consistent s'
    /\ answers p 0x8001 (B8001 (h_sn (pk_hdr p)) 0x0003 0) res
    /\ devAt s' (h_phone (pk_hdr p)) = None /\ devWithPlate s' (d_plate d) = None
    /\ others_kept (h_phone (pk_hdr p)) (d_plate d) s s'
    /\ (forall q, q ∈ st_jobs s' <-> q ∈ st_jobs s /\ q <> h_phone (pk_hdr p)) /\ rest_kept s s'.
Proof.
  intros C Hc Hd. destruct (devAt_Some s C _ _ Hd) as (l & H & H1 & Hp & Hq).
  erewrite process_carries; [|exact Hc|reflexivity|reflexivity].
  destruct Hc as (Hid & _). unfold handler. cbn [m_body]. rewrite (run_0003 s C (mkMsg (pk_hdr p) B0003) _ l d H H1).
  eexists _, _. split; [reflexivity|]. cbn [m_hdr] in *.
  assert (H' : st_byPhone s !! d_phone d = Some l) by (rewrite Hp; exact H).
  destruct (dropped_spec s d l H' H1) as (D1 & D2 & D3 & D4 & D5).
  split; [eapply dropped_ok; eassumption|]. rewrite Hp in D1, D3, D4.
  split; [cbn; unfold answers; rewrite Hid; reflexivity|]. auto 10.
Qed.

(** C50 *)
Lemma location e sl s p m d ws : consistent s -> carries e s p 0x0200 (B0200 m) ->
  devAt s (h_phone (pk_hdr p)) = Some d -> track s (h_phone (pk_hdr p)) ws ->
  let ph := h_phone (pk_hdr p) in
  exists res s' g, run (process e sl p) s = (Ok (Some res), s') /\ consistent s'
    /\ answers p 0x8001 (B8001 (h_sn (pk_hdr p)) 0x0200 0) res
    /\ track s' ph (ws ++ [g])
    /\ g = mkDevGeo ph (geoDecode (l_status m)) (l_lat m) (l_lon m) (l_altitude m) (l_speed m) (l_dir m)
                    (ParseTime (e_civil e (st_clock s)) (l_time m))
    /\ devAt s' ph = Some (if N.testbit (l_status m) 0 then d else
         mkDevice (d_id d) (d_plate d) (d_phone d) (d_sid d) (d_conn d) (d_keep d) (st_clock s)
                  Sleeping (d_ver d) (d_proto d) (d_auth d) (d_imei d) (d_sw d))
    /\ devWithPlate s' (d_plate d) = devAt s' ph
    /\ others_kept ph (d_plate d) s s' /\ (forall q, q <> ph -> ringOf s' q = ringOf s q)
    /\ st_jobs s' = st_jobs s /\ st_params s' = st_params s /\ st_segs s' = st_segs s
    /\ st_sess s' = st_sess s /\ st_byID s' = st_byID s /\ st_conns s' = st_conns s.
Proof.
  intros C Hc Hd Ht. cbn zeta. destruct (devAt_Some s C _ _ Hd) as (l & H & H1 & Hp & Hq).
  erewrite process_carries; [|exact Hc|reflexivity|reflexivity].
  destruct Hc as (Hid & _). unfold handler. cbn [m_body].
  destruct (run_0200 e s (mkMsg (pk_hdr p) (B0200 m)) m
    (mkMsg (hdr_set_id (pk_hdr p) 32769) (B8001 (h_sn (pk_hdr p)) (h_id (pk_hdr p)) 0)) l d C H H1)
    as (s' & E & C1 & Htr & Ho & Hon & C'). cbn [m_hdr] in *.
  rewrite E. eexists _, s', _. split; [reflexivity|]. split; [exact C'|].
  split; [unfold answers; rewrite Hid; reflexivity|]. split; [apply Htr; exact Ht|]. split; [reflexivity|].
  destruct (touch_spec s C (dozed (st_clock s) m) _ l d H H1) as (T1 & T2 & T3 & T4).
  destruct Hon as (O1 & O2 & O3 & O4 & O5 & O6 & O7 & O8 & O9 & O10).
  assert (Ed : forall q, devAt s' q = devAt (set_devs (alter (dozed (st_clock s) m) l) s) q).
  { intros q. unfold devAt. rewrite O1, O3. reflexivity. }
  assert (Eq : forall q, devWithPlate s' q = devWithPlate (set_devs (alter (dozed (st_clock s) m) l) s) q).
  { intros q. unfold devWithPlate. rewrite O1, O2. reflexivity. }
  rewrite Ed, Eq, T1, T2. split; [unfold dozed, dset_last, dset_status; destruct (N.testbit _ _); reflexivity|].
  split; [reflexivity|]. split; [split; intros q Hn; [rewrite Ed; apply T3|rewrite Eq; apply T4]; exact Hn|].
  split; [exact Ho|]. split; [exact O8|]. auto 10.
Qed.
