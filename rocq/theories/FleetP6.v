(** A fleet of simulated terminals in time: when a device was last heard of *)
From Coq Require Import ZArith.
From stdpp Require Import gmap.
From Flocq Require Import IEEE754.Bits.
From Verif Require Import Base HexM TimeM HashM HeaderM ParamsM GeoM MsgM PacketM FrameM FloatM ProgM ProgP RingM SpecRing RingP
  StateM ProcM ServerM ClientM DatagenM NetM SpecState SpecCodec SpecSim SpecNet HexP HeaderP FrameP MsgP CodecP CodecP3 TimeP StateP ProcP
  ServerP ParamsP EffectP ReplyP HandshakeP CmdP DatagenP FleetP FleetP2 FleetP3 FleetP4 FleetP5.
Local Open Scope N_scope.

Section Server.
Context (e : env) (c : simconf) (sid : str) (cn : nat) (sl : nat) (s : st) (x : session) (out : list bytes).
Let D := genDevice c sid cn.
Let ph := number c.
Hypothesis A : able (e_o e) c.
Hypothesis C : consistent s.
Hypothesis Hx : st_sess s !! sl = Some x.
Hypothesis Hk : st_conns s !! ss_conn x = Some (mkConn true out).

Lemma last_register f r : reads (e_o e) f (simHeader 0x0100 D) (B0100 r) -> r_devid r = sm_id c -> r_plate r = sm_plate c ->
  devAt s ph = None -> devWithPlate s (sm_plate c) = None ->
  exists s' d, run (serveLoop e sl [(Ok f, None)]) s = (Ok false, s') /\ devAt s' ph = Some d
    /\ d_keep d = 60000%Z /\ d_last d = st_clock s /\ st_clock s' = st_clock s.
Proof using A C Hx Hk.
  intros (p & n & Dc & Hh & M) Hi Hp Hd Hq.
  destruct (simHeader_rest 0x0100 D) as (Hid & Hfr & Hsn).
  destruct (reads_carries e s f _ _ p n Dc Hh M Hfr) as (K & Hnf). rewrite Hid in K.
  assert (Hph : h_phone (pk_hdr p) = ph) by (rewrite Hh; cbn; rewrite simHeader_phone; apply simPhone_number).
  assert (Hs1 : h_sn (pk_hdr p) = 1) by (rewrite Hh; exact Hsn).
  destruct (registration e sl s p r x C K Hx) as (res & s1 & R1 & R2).
  rewrite Hph, Hp, Hi, Hd, Hq, Hs1 in R2. destruct R2 as ((code & Hc & Ha) & R3 & R4 & (R5a & R5b) & R6 & R7 & C1).
  destruct (able_regreply (e_o e) c sid cn A code (code_short _ _ _ _ Hc)) as (f2 & E2 & Rd2). fold D in E2, Rd2.
  rewrite <- (answer_frame (e_o e) p 0x0100 0x8100 D n _ res Ha Hh) in E2.
  pose proof (serve_reply e sl s x _ f p res s1 f2 Hx Hk eq_refl Dc Hnf R1 ltac:(apply R7) E2) as S1. cbn [cn_out] in S1.
  eexists _, _. split; [apply served_loop; exact S1|]. split; [exact R3|]. do 2 (split; [reflexivity|]). apply R7.
Qed.
Lemma last_auth f al code imei sw d : reads (e_o e) f (simHeader 0x0102 D) (B0102 al code imei sw) ->
  is_code (sm_id c) (sm_plate c) ph code -> devAt s ph = Some d ->
  d_id d = sm_id c -> d_plate d = sm_plate c -> d_phone d = ph ->
  exists s' d', run (serveLoop e sl [(Ok f, None)]) s = (Ok false, s') /\ devAt s' ph = Some d'
    /\ d_keep d' = d_keep d /\ d_last d' = st_clock s /\ st_clock s' = st_clock s.
Proof using A C Hx Hk.
  intros (p & n & Dc & Hh & M) Hc Hd Hi Hpl Hp.
  destruct (simHeader_rest 0x0102 D) as (Hid & Hfr & Hsn).
  destruct (reads_carries e s f _ _ p n Dc Hh M Hfr) as (K & Hnf). rewrite Hid in K.
  assert (Hph : h_phone (pk_hdr p) = ph) by (rewrite Hh; cbn; rewrite simHeader_phone; apply simPhone_number).
  assert (Hs1 : h_sn (pk_hdr p) = 1) by (rewrite Hh; exact Hsn).
  destruct (authentication e sl s p al code imei sw d C K ltac:(rewrite Hph; exact Hd)) as (res & s1 & R1 & C1 & (R5a & R5b) & R7 & Rok & _).
  destruct (Rok ltac:(rewrite Hi, Hpl, Hp; exact Hc)) as (Ha & R3 & R4 & R6). rewrite Hph in *. rewrite Hs1 in Ha. rewrite Hpl in R4, R5b.
  destruct (able_confirm (e_o e) c sid cn A 0x0102 eq_refl) as (f4 & E4 & Rd4). fold D in E4, Rd4.
  rewrite <- (answer_frame (e_o e) p 0x0102 0x8001 D n _ res Ha Hh) in E4.
  pose proof (serve_reply e sl s x _ f p res s1 f4 Hx Hk eq_refl Dc Hnf R1 ltac:(apply R7) E4) as S1. cbn [cn_out] in S1.
  eexists _, _. split; [apply served_loop; exact S1|]. split; [exact R3|]. do 2 (split; [reflexivity|]). apply R7.
Qed.
Lemma last_beat f d : reads (e_o e) f (simHeader 0x0002 D) B0002 -> devAt s ph = Some d ->
  exists s' d', run (serveLoop e sl [(Ok f, None)]) s = (Ok false, s') /\ devAt s' ph = Some d'
    /\ d_keep d' = d_keep d /\ d_last d' = st_clock s /\ st_clock s' = st_clock s.
Proof using A C Hx Hk.
  intros (p & n & Dc & Hh & M) Hd.
  destruct (simHeader_rest 0x0002 D) as (Hid & Hfr & Hsn).
  destruct (reads_carries e s f _ _ p n Dc Hh M Hfr) as (K & Hnf). rewrite Hid in K.
  assert (Hph : h_phone (pk_hdr p) = ph) by (rewrite Hh; cbn; rewrite simHeader_phone; apply simPhone_number).
  assert (Hs1 : h_sn (pk_hdr p) = 1) by (rewrite Hh; exact Hsn).
  destruct (heartbeat e sl s p d C K ltac:(rewrite Hph; exact Hd)) as (res & s1 & R1 & C1 & Ha & R3 & R4 & (R5a & R5b) & R6 & R7).
  rewrite Hph in *. rewrite Hs1 in Ha.
  destruct (able_confirm (e_o e) c sid cn A 0x0002 eq_refl) as (f4 & E4 & Rd4). fold D in E4, Rd4.
  rewrite <- (answer_frame (e_o e) p 0x0002 0x8001 D n _ res Ha Hh) in E4.
  pose proof (serve_reply e sl s x _ f p res s1 f4 Hx Hk eq_refl Dc Hnf R1 ltac:(apply R7) E4) as S1. cbn [cn_out] in S1.
  eexists _, _. split; [apply served_loop; exact S1|]. split; [exact R3|]. do 2 (split; [reflexivity|]). apply R7.
Qed.
Lemma last_report f l ws d : reads (e_o e) f (simHeader 0x0200 D) (B0200 l) -> devAt s ph = Some d -> track s ph ws ->
  exists s' d', run (serveLoop e sl [(Ok f, None)]) s = (Ok false, s') /\ devAt s' ph = Some d'
    /\ d_keep d' = d_keep d /\ (d_last d' = d_last d \/ d_last d' = st_clock s) /\ st_clock s' = st_clock s.
Proof using A C Hx Hk.
  intros (p & n & Dc & Hh & M) Hd Hw.
  destruct (simHeader_rest 0x0200 D) as (Hid & Hfr & Hsn).
  destruct (reads_carries e s f _ _ p n Dc Hh M Hfr) as (K & Hnf). rewrite Hid in K.
  assert (Hph : h_phone (pk_hdr p) = ph) by (rewrite Hh; cbn; rewrite simHeader_phone; apply simPhone_number).
  assert (Hs1 : h_sn (pk_hdr p) = 1) by (rewrite Hh; exact Hsn).
  destruct (location e sl s p l d ws C K ltac:(rewrite Hph; exact Hd) ltac:(rewrite Hph; exact Hw))
    as (res & s1 & g & R1 & C1 & Ha & T & G & R3 & R4 & (R5a & R5b) & R8 & R6 & _ & _ & G5 & _ & G7).
  rewrite Hph in *. rewrite Hs1 in Ha.
  destruct (able_confirm (e_o e) c sid cn A 0x0200 eq_refl) as (f4 & E4 & Rd4). fold D in E4, Rd4.
  rewrite <- (answer_frame (e_o e) p 0x0200 0x8001 D n _ res Ha Hh) in E4.
  pose proof (serve_reply e sl s x _ f p res s1 f4 Hx Hk eq_refl Dc Hnf R1 G7 E4) as S1. cbn [cn_out] in S1.
  eexists _, _. split; [apply served_loop; exact S1|]. split; [exact R3|].
  split; [destruct (N.testbit (l_status l) 0); reflexivity|]. split; [destruct (N.testbit (l_status l) 0); cbn; auto|].
  pose proof (frameOut_kept e sl (Ok f) s (ss_conn x) C ltac:(rewrite Hx; eauto)) as (FK & _).
  assert (E : frameOut e sl (Ok f) s = (Ok (Some res), s1)).
  { unfold frameOut. rewrite run_bind. cbn [lift run]. rewrite run_bind. unfold decodeP. rewrite run_bind. cbn [lift run]. rewrite Dc, Hnf. exact R1. }
  rewrite E in FK. exact (fk_clock _ _ _ _ FK).
Qed.
End Server.

Section Steps.
Context (e ec : env) (other : binary64 -> N).
Hypothesis Ho : e_o ec = e_o e.
Let o := e_o e.
Local Notation step := (nstep e ec other).

Ltac simp := cbn [tm_conf tm_geo tm_srv tm_cli tm_at tm_up tm_down tm_served tm_runs set_at read_up read_down] in *.
Ltac opened I Hi :=
  let C := fresh "C" in let A := fresh "A" in let K := fresh "K" in
  pose proof I as (C & A & K); specialize (K _ _ Hi);
  destruct K as (Hab & Hsv & Hrn & x & xc & os & oc & Hx & Hxc & Hk & Hkc & St); simp; subst.

(** [f] reads as a heartbeat *)
Definition a_beat (f : bytes) : Prop := exists p, decodePacket o f = Ok p /\ h_id (pk_hdr p) = 0x0002.
Lemma reads_id f h b : reads o f h b -> exists p, decodePacket o f = Ok p /\ h_id (pk_hdr p) = h_id h.
Proof. intros (p & n & Dc & Hh & _). exists p. split; [exact Dc|]. rewrite Hh. reflexivity. Qed.

(** a frame of terminal [i] is read by the server *)
Lemma serve_last n G i t f : inv o n G -> nt_terms n !! i = Some t ->
  nth_error (written (nt_cli n) (tm_cli t)) (tm_up t) = Some f ->
  exists s' d', act e ec other n i (NServe i) t = mkNet s' (nt_cli n) (<[i := read_up t true]> (nt_terms n))
    /\ st_clock s' = st_clock (nt_srv n) /\ devAt s' (number (tm_conf t)) = Some d'
    /\ ((tm_up t <= 1)%nat \/ a_beat f -> d_last d' = st_clock (nt_srv n))
    /\ match devAt (nt_srv n) (number (tm_conf t)) with
       | Some d => d_keep d' = d_keep d /\ (d_last d' = d_last d \/ d_last d' = st_clock (nt_srv n))
       | None => d_keep d' = 60000%Z /\ d_last d' = st_clock (nt_srv n)
       end.
Proof using Ho.
  intros I Hi. destruct t as [c g0 sl slc a up down sv rn]. opened I Hi. unfold act. simp.
  pose proof (written_of _ _ _ _ Hxc Hkc) as W. cbn [cn_out] in W. rewrite W. unfold set_term.
  remember (G i) as gi eqn:Eg. destruct St as [U T|U T Hd|f1 r U T Hd R1 Hr1 Hr2|f1 f2 d code O T Hd R2 Hc|
    f1 f2 f3 d code al imei sw O T Hd R3 Hc|f1 f2 f3 f4 d O T Hd S4 Hc R4|
    f1 f2 f3 f4 d its tr rs dc a u w O S4 Hc Hd Hp Hv Hst Ha Ht Hrs Hu Hut Hwu T]; cbn [nth_error Nat.add]; try discriminate.
  - intros [= <-]. destruct U as (U1 & U2).
    destruct (last_register e c (ss_id xc) (ss_conn xc) sl (nt_srv n) x [] Hab C Hx Hk f1 r R1 Hr1 Hr2 U1 U2) as (s' & d & R & Q1 & Q2 & Q3 & Q4).
    rewrite R, U1. exists s', d. auto 10.
  - intros [= <-]. destruct O as (O1 & O2 & O3 & O4 & O5 & O6 & O7).
    destruct (last_auth e c (ss_id xc) (ss_conn xc) sl (nt_srv n) x [f2] Hab C Hx Hk f3 al code imei sw d R3 Hc O1 O3 O4 O5) as (s' & d' & R & Q1 & Q2 & Q3 & Q4).
    rewrite R, O1. exists s', d'. auto 10.
  - intros En. pose proof (Forall2_length _ _ _ Ht) as HL.
    pose proof (proj1 (nth_error_Some tr u) ltac:(rewrite En; discriminate)) as Hlt.
    assert (exists it, nth_error its u = Some it /\ tells o (genDevice c (ss_id xc) (ss_conn xc)) it f) as (it & Hit & Htl).
    { destruct (nth_error its u) as [it|] eqn:E2; [|apply nth_error_None in E2; lia]. exists it. split; [reflexivity|].
      refine (Forall2_lookup_lr _ _ _ u it f Ht _ _); rewrite <- nth_lookup; assumption. }
    destruct O as (O1 & O2 & O3 & O4 & O5 & O6 & O7). rewrite En, O1. destruct it as [(l & now)|].
    + destruct Htl as (Rd & El & Hvl & Hyw).
      destruct (last_report e c (ss_id xc) (ss_conn xc) sl (nt_srv n) x _ Hab C Hx Hk f l _ d Rd O1 T) as (s' & d' & R & Q1 & Q2 & Q3 & Q4).
      rewrite R. exists s', d'. split; [reflexivity|]. split; [exact Q4|]. split; [exact Q1|]. split; [|auto].
      intros [Hle|(p & Dc & Hid)]; [lia|]. destruct (reads_id _ _ _ Rd) as (p' & Dc' & Hid'). rewrite Dc in Dc'. injection Dc' as <-.
      rewrite Hid in Hid'. destruct (simHeader_rest 0x0200 (genDevice c (ss_id xc) (ss_conn xc))) as (E & _). rewrite E in Hid'. discriminate Hid'.
    + destruct (last_beat e c (ss_id xc) (ss_conn xc) sl (nt_srv n) x _ Hab C Hx Hk f d Htl O1) as (s' & d' & R & Q1 & Q2 & Q3 & Q4).
      rewrite R. exists s', d'. auto 10.
Qed.
End Steps.
