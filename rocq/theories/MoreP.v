(** Proofs of C101-C102: codes after a second registration, a check that overlaps an
    authentication *)
From stdpp Require Import gmap.
From Verif Require Import Base HexM TimeM HashM HeaderM ParamsM GeoM MsgM PacketM FrameM ProgM ProgP RingM
  StateM ProcM ServerM ConcM SpecCodec SpecState SpecConc StateP ProcP ServerP EffectP HandshakeP CmdP InterP.
Local Open Scope N_scope.

(** * C101 *)
Lemma same_code e sl sl' s x p r p3 p' r' : consistent s -> st_sess s !! sl = Some x ->
  carries e s p 0x0100 (B0100 r) -> carries e s p3 0x0003 B0003 -> carries e s p' 0x0100 (B0100 r') ->
  h_phone (pk_hdr p3) = h_phone (pk_hdr p) -> h_phone (pk_hdr p') = h_phone (pk_hdr p) ->
  r_devid r' = r_devid r -> r_plate r' = r_plate r ->
  devAt s (h_phone (pk_hdr p)) = None -> devWithPlate s (r_plate r) = None ->
  exists c m m3 m' s1 s2 s3,
    run (process e sl p) s = (Ok (Some m), s1) /\ answers p 0x8100 (B8100 (h_sn (pk_hdr p)) 0 c) m
    /\ run (process e sl' p3) s1 = (Ok (Some m3), s2) /\ devAt s2 (h_phone (pk_hdr p)) = None
    /\ run (process e sl p') s2 = (Ok (Some m'), s3) /\ answers p' 0x8100 (B8100 (h_sn (pk_hdr p')) 0 c) m'.
Proof.
  intros C Hx Hc Hc3 Hc' Hp3 Hp' Hi Hq D P.
  destruct (registration e sl s p r x C Hc Hx) as (m & s1 & E & R). rewrite D, P in R.
  destruct R as ((c & Hcode & Ha) & Hd & _ & _ & _ & RK & C1).
  assert (Hx1 : st_sess s1 !! sl = Some x) by (destruct RK as (_ & _ & _ & _ & -> & _); exact Hx).
  assert (Hk : st_clock s1 = st_clock s) by (destruct RK as (_ & _ & _ & _ & _ & _ & _ & ->); reflexivity).
  assert (Hc1 : carries e s1 p3 0x0003 B0003) by (unfold carries in *; rewrite Hk; exact Hc3).
  rewrite <- Hp3 in Hd. destruct (logout e sl' s1 p3 _ C1 Hc1 Hd) as (m3 & s2 & E3 & C2 & _ & D2 & P2 & _ & _ & RK2).
  cbn [d_plate] in P2. rewrite Hp3 in D2.
  assert (Hx2 : st_sess s2 !! sl = Some x) by (destruct RK2 as (_ & _ & _ & _ & -> & _); exact Hx1).
  assert (Hk2 : st_clock s2 = st_clock s) by (destruct RK2 as (_ & _ & _ & _ & _ & _ & _ & ->); exact Hk).
  assert (Hc2 : carries e s2 p' 0x0100 (B0100 r')) by (unfold carries in *; rewrite Hk2; exact Hc').
  destruct (registration e sl s2 p' r' x C2 Hc2 Hx2) as (m' & s3 & E' & R). rewrite Hp', Hq, D2, P2 in R.
  destruct R as ((c' & Hcode' & Ha') & _). rewrite Hi in Hcode'.
  assert (c' = c) as ->.
  { apply (proj2 (codes_equal _ _ _ _ _ _ _ _ Hcode' Hcode)). reflexivity. }
  exists c, m, m3, m', s1, s2, s3. auto 10.
Qed.

(** * C102 *)
Lemma late_clear e sl s p al code imei sw d k : consistent s -> carries e s p 0x0102 (B0102 al code imei sw) ->
  let ph := h_phone (pk_hdr p) in
  devAt s ph = Some d -> is_code (d_id d) (d_plate d) ph code ->
  d_status d = Offline -> (d_last d + d_keep d < st_clock s)%Z -> st_conns s !! d_conn d = Some k ->
  exists sch q s1 sch' s2 d1,
    running e [GMsg sl p; GTick ph] s sch = ([Ret (Ok tt); q], s1)
    /\ devAt s1 ph = Some d1 /\ d_status d1 = Online /\ d_last d1 = st_clock s1 /\ st_clock s1 = st_clock s
    /\ psteps [Ret (Ok tt); q] s1 sch' = ([Ret (Ok tt); Ret (Ok tt)], s2)
    /\ devAt s2 ph = None /\ devWithPlate s2 (d_plate d) = None /\ ~ ph ∈ st_jobs s2
    /\ st_conns s2 !! d_conn d = Some (mkConn false (cn_out k)).
Proof.
  intros C Hc ph Hd Hcode Hst Hdue Hk. destruct (devAt_Some s C _ _ Hd) as (l & Hl & H1 & Hp & Hq).
  destruct (authentication e sl s p al code imei sw d C Hc Hd) as (m & s1 & R & C1 & _ & RK & G & _).
  rewrite Hp in G. destruct (G Hcode) as (_ & D1 & P1 & _). clear G.
  set (q := (connClose (d_conn d) ;;; delDeviceByPhone ph ;;; delGeoByPhone ph ;;; timerCancel ph)%prog).
  assert (M : moves (checkKeepalive ph) s q s).
  { unfold checkKeepalive. eapply moves_trans; [apply (moves_seq (getDeviceByPhone ph) _ s (Some l) s); cbn; fold ph in Hl; rewrite Hl; reflexivity|].
    cbv beta iota. eapply moves_trans; [apply (moves_seq (shouldTurnOffline l) _ s false s)|].
    { rewrite (run_turnOffline l s d H1), Hst. reflexivity. }
    eapply moves_trans; [apply (moves_seq (shouldClear l) _ s true s)|].
    { rewrite (run_clear l s d H1), Hst. change (Offline =? Offline) with true. unfold expired.
      assert (d_keep d + d_last d <? st_clock s = true)%Z as -> by (apply Z.ltb_lt; lia). reflexivity. }
    eapply moves_trans; [apply (moves_seq (readConst l) _ s d s); cbn; rewrite H1; reflexivity|].
    apply mv_refl. }
  destruct (devAt_Some s1 C1 _ _ D1) as (l1 & Hl1 & H1' & Hp1 & Hq1).
  assert (T : run (process e sl p ;;; ret tt)%prog s = (Ok tt, s1)) by (rewrite run_bind, R; reflexivity).
  edestruct (psteps_then [(process e sl p ;;; ret tt)%prog; checkKeepalive ph]) as (sch & S1);
    [apply reach_1; exact M|apply reach_0; apply moves_done; exact T|].
  destruct (run q s1) as [r s2] eqn:Eq.
  assert (E2 : r = Ok tt /\ devAt s2 ph = None /\ devWithPlate s2 (d_plate d) = None /\ ~ ph ∈ st_jobs s2
     /\ st_conns s2 !! d_conn d = Some (mkConn false (cn_out k))).
  { revert Eq. unfold q. cbn. fold ph in Hl1. rewrite Hl1, H1'. cbn. intros [= <- <-]. split; [reflexivity|].
    unfold devAt, devWithPlate. cbn. fold ph. rewrite !lookup_delete.
    split; [reflexivity|]. split; [reflexivity|]. split; [rewrite elem_of_list_filter; tauto|].
    destruct RK as (_ & _ & _ & _ & _ & _ & Hcn & _). rewrite lookup_alter.
    rewrite Hcn, Hk. reflexivity. }
  destruct E2 as (-> & F1 & F2 & F3 & F4).
  destruct (reach_1 (Ret (Ok tt)) q (Ret (Ok tt)) s1 s2 (moves_done _ _ _ _ Eq)) as (sch' & S2).
  eexists sch, q, s1, sch', s2, _. split; [exact S1|]. split; [exact D1|]. split; [reflexivity|].
  assert (Hclk : st_clock s1 = st_clock s) by (destruct RK as (_ & _ & _ & _ & _ & _ & _ & ->); reflexivity).
  split; [cbn; symmetry; exact Hclk|]. split; [exact Hclk|]. split; [exact S2|]. auto 10.
Qed.
