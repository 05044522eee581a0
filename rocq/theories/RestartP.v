(** A restarted simulator: what a refused terminal's messages do; the invariant (C135) *)
From Coq Require Import ZArith.
From stdpp Require Import gmap.
From Flocq Require Import IEEE754.Bits.
From Verif Require Import Base HexM TimeM HashM HeaderM ParamsM GeoM MsgM PacketM FrameM FloatM ProgM ProgP RingM SpecRing RingP
  StateM ProcM ServerM ClientM DatagenM NetM SpecState SpecCodec SpecSim SpecNet RestartM SpecRestart HexP HeaderP FrameP MsgP CodecP CodecP3 TimeP StateP ProcP
  ServerP ParamsP EffectP ReplyP HandshakeP CmdP DatagenP FleetP FleetP2.
Local Open Scope N_scope.

Lemma authCode_short : (length authCode <= 20)%nat.
Proof. cbn. lia. Qed.

Section Able.
Context (o : oracle) (c : simconf) (sid : str) (cn : nat).
Let D := genDevice c sid cn.
Hypothesis A : able o c.
Lemma able_refusal n : exists f, encodePacket o (mkMsg (simHeader 0x8100 D) (B8100 1 n authCode)) = Ok f
  /\ reads o f (simHeader 0x8100 D) (B8100 1 n authCode).
Proof using A.
  pose proof authCode_short as Hc.
  pose proof (regreply_delivered o _ 1 n authCode (able_wf o c sid cn A 0x8100 eq_refl) ltac:(lia) ltac:(lia)) as R.
  exact (delivered_reads _ _ _ _ R eq_refl).
Qed.
Lemma able_failed id : id < 65536 -> exists f, encodePacket o (mkMsg (simHeader 0x8001 D) (B8001 1 id 1)) = Ok f
  /\ reads o f (simHeader 0x8001 D) (B8001 1 id 1).
Proof using A.
  intros Hi. destruct (reply_delivered o _ 1 id 1 (able_wf o c sid cn A 0x8001 eq_refl) ltac:(lia) Hi) as (_ & R).
  exact (delivered_reads _ _ _ _ R eq_refl).
Qed.
End Able.

Section Server.
Context (e : env) (c : simconf) (sid : str) (cn : nat) (sl : nat) (s : st) (x : session) (out : list bytes).
Let D := genDevice c sid cn.
Let ph := number c.
Hypothesis A : able (e_o e) c.
Hypothesis C : consistent s.
Hypothesis Hx : st_sess s !! sl = Some x.
Hypothesis Hk : st_conns s !! ss_conn x = Some (mkConn true out).

(** a registration is refused *)
Lemma srv_refuse f r d : reads (e_o e) f (simHeader 0x0100 D) (B0100 r) -> devAt s ph = Some d ->
  exists s' f2 n, run (serveLoop e sl [(Ok f, None)]) s = (Ok false, s')
    /\ st_conns s' !! ss_conn x = Some (mkConn true (out ++ [f2])) /\ srv_kept ph (sm_plate c) (ss_conn x) s s'
    /\ reads (e_o e) f2 (simHeader 0x8100 D) (B8100 1 n authCode) /\ n <> 0
    /\ devAt s' ph = devAt s ph /\ devWithPlate s' (sm_plate c) = devWithPlate s (sm_plate c) /\ ringOf s' ph = ringOf s ph.
Proof using A C Hx Hk.
  intros (p & n & Dc & Hh & M) Hd.
  destruct (simHeader_rest 0x0100 D) as (Hid & Hfr & Hsn).
  destruct (reads_carries e s f _ _ p n Dc Hh M Hfr) as (K & Hnf). rewrite Hid in K.
  assert (Hph : h_phone (pk_hdr p) = ph) by (rewrite Hh; cbn; rewrite simHeader_phone; apply simPhone_number).
  assert (Hs1 : h_sn (pk_hdr p) = 1) by (rewrite Hh; exact Hsn).
  destruct (refusal e sl s p r x C K Hx ltac:(left; rewrite Hph, Hd; discriminate)) as (res & m & R1 & Ha & Hm).
  rewrite Hs1 in Ha.
  destruct (able_refusal (e_o e) c sid cn A m) as (f2 & E2 & Rd2). fold D in E2, Rd2.
  rewrite <- (answer_frame (e_o e) p 0x0100 0x8100 D n _ res Ha Hh) in E2.
  pose proof (serve_reply e sl s x _ f p res s f2 Hx Hk eq_refl Dc Hnf R1 eq_refl E2) as S1. cbn [cn_out] in S1.
  eexists _, f2, m. split; [apply served_loop; exact S1|]. split; [cbn; apply lookup_insert|]. split.
  { split; try reflexivity; [apply consistent_conns_insert; exact C|].
    intros c0 Hn. cbn. rewrite lookup_insert_ne by congruence. reflexivity. }
  split; [exact Rd2|]. split; [destruct (devWithPlate s (r_plate r)); rewrite Hm; discriminate|]. repeat split; reflexivity.
Qed.
(** the refused terminal's authentication removes the device *)
Lemma srv_unauth f al imei sw d : reads (e_o e) f (simHeader 0x0102 D) (B0102 al authCode imei sw) ->
  devAt s ph = Some d -> d_plate d = sm_plate c ->
  exists s' f4, run (serveLoop e sl [(Ok f, None)]) s = (Ok false, s')
    /\ st_conns s' !! ss_conn x = Some (mkConn true (out ++ [f4])) /\ srv_kept ph (sm_plate c) (ss_conn x) s s'
    /\ reads (e_o e) f4 (simHeader 0x8001 D) (B8001 1 0x0102 1)
    /\ devAt s' ph = None /\ devWithPlate s' (sm_plate c) = None /\ ringOf s' ph = ringOf s ph.
Proof using A C Hx Hk.
  intros (p & n & Dc & Hh & M) Hd Hpl.
  destruct (simHeader_rest 0x0102 D) as (Hid & Hfr & Hsn).
  destruct (reads_carries e s f _ _ p n Dc Hh M Hfr) as (K & Hnf). rewrite Hid in K.
  assert (Hph : h_phone (pk_hdr p) = ph) by (rewrite Hh; cbn; rewrite simHeader_phone; apply simPhone_number).
  assert (Hs1 : h_sn (pk_hdr p) = 1) by (rewrite Hh; exact Hsn).
  destruct (authentication e sl s p al authCode imei sw d C K ltac:(rewrite Hph; exact Hd)) as (res & s1 & R1 & C1 & (R5a & R5b) & R7 & _ & Rno).
  destruct (Rno (no_code _ _ _)) as (Ha & R3 & R4 & R6). rewrite Hph in *. rewrite Hs1 in Ha. rewrite Hpl in R4, R5b.
  destruct (able_failed (e_o e) c sid cn A 0x0102 eq_refl) as (f4 & E4 & Rd4). fold D in E4, Rd4.
  rewrite <- (answer_frame (e_o e) p 0x0102 0x8001 D n _ res Ha Hh) in E4.
  pose proof (serve_reply e sl s x _ f p res s1 f4 Hx Hk eq_refl Dc Hnf R1 ltac:(apply R7) E4) as S1. cbn [cn_out] in S1.
  destruct R7 as (G1 & G2 & G3 & G4 & G5 & G6 & G7 & G8).
  eexists _, f4. split; [apply served_loop; exact S1|]. split; [cbn; apply lookup_insert|]. split.
  { split; [apply consistent_conns_insert; exact C1|exact G5| |exact R5a|exact R5b|].
    - intros c0 Hn. cbn. rewrite lookup_insert_ne by congruence. rewrite G7. reflexivity.
    - intros q _. unfold ringOf. cbn. rewrite G1, G2. reflexivity. }
  split; [exact Rd4|]. split; [exact R3|]. split; [exact R4|]. unfold ringOf. cbn. rewrite G1, G2. reflexivity.
Qed.
End Server.

Section Client.
Context (o : oracle) (ec : env) (c : simconf) (sl : nat) (s : st) (x : session) (out : list bytes).
Let D := genDevice c (ss_id x) (ss_conn x).
Let ph := number c.
Hypothesis Ho : e_o ec = o.
Hypothesis A : able o c.
Hypothesis Hx : st_sess s !! sl = Some x.
Hypothesis Hk : st_conns s !! ss_conn x = Some (mkConn true out).
(** the client authenticates with whatever the reply to its registration holds *)
Lemma cli_auth' f m code : reads o f (simHeader 0x8100 D) (B8100 1 m code) -> (length code <= 20)%nat -> devAt s ph = Some D ->
  exists s' f3 al imei sw, run (clientLoop ec sl [(Ok f, None)]) s = (Ok false, s')
    /\ st_conns s' !! ss_conn x = Some (mkConn true (out ++ [f3])) /\ devAt s' ph = Some D /\ cli_kept ph (ss_conn x) s s'
    /\ reads o f3 (simHeader 0x0102 D) (B0102 al code imei sw).
Proof using A Hx Hk Ho.
  intros (p & n & Dc & Hh & M) Hl Hd. destruct (simHeader_rest 0x8100 D) as (Hid & Hfr & Hsn). rewrite <- Ho in Dc, M.
  destruct (reads_carries ec s f _ _ p n Dc Hh M Hfr) as (K & Hnf). rewrite Hid in K.
  assert (Hph : h_phone (pk_hdr p) = ph) by (rewrite Hh; cbn; rewrite simHeader_phone; apply simPhone_number).
  destruct (devAt_look _ _ _ Hd) as (lc & L1 & L2).
  set (al3 := N.of_nat (length code) mod 256).
  set (m3 := mkMsg (hdr_set_len (simHeader 0x0102 D) n) (B0102 al3 code (d_imei D) (d_sw D))).
  assert (P3 : run (process ec sl p) s = (Ok (Some m3), s)).
  { erewrite process_carries; [|exact K|reflexivity|reflexivity]. unfold handler. cbn [m_body].
    unfold process8100. rewrite run_bind. cbn [getDeviceByPhone rd1 run ret m_hdr]. unfold ret. rewrite Hph.
    rewrite L1. rewrite run_bind. cbn [readDev run]. rewrite L2. cbn [run ret]. unfold ret, m3. rewrite Hh, <- (sim_set_id 0x8100 0x0102). reflexivity. }
  destruct (able_auth o c (ss_id x) (ss_conn x) A al3 code Hl) as (f3 & al & imei & sw & E3 & R3). fold D in E3, R3.
  assert (E3' : encodePacket (e_o ec) m3 = Ok f3) by (unfold m3; rewrite encode_len, Ho; exact E3).
  pose proof (client_reply ec sl s x _ f p m3 s f3 Hx Dc Hnf P3 Hk eq_refl E3') as L3.
  eexists _, f3, al, imei, sw. split; [exact L3|]. split; [cbn; apply lookup_insert|]. split; [exact Hd|].
  split; [apply with_out_kept; exact Hk|exact R3].
Qed.
(** a reply that is not a success changes nothing *)
Lemma cli_ignores f i : reads o f (simHeader 0x8001 D) (B8001 1 i 1) -> run (clientLoop ec sl [(Ok f, None)]) s = (Ok false, s).
Proof using Hx Ho.
  intros (p & n & Dc & Hh & M). destruct (simHeader_rest 0x8001 D) as (Hid & Hfr & Hsn). rewrite <- Ho in Dc, M.
  destruct (reads_carries ec s f _ _ p n Dc Hh M Hfr) as (K & Hnf). rewrite Hid in K.
  apply (client_silent ec sl s x f p s Hx Dc Hnf). destruct K as (Ki & Kf & Kd).
  rewrite run_process, Ki. cbn [lookupN optionTable N.eqb Pos.eqb].
  replace (isFragmented (pk_hdr p) && negb (pk_segdone p)) with false by (rewrite Hnf; reflexivity).
  cbn [kind_of] in Kd. rewrite Kd. reflexivity.
Qed.
End Client.

(** * The invariant: fresh terminals go on as in FleetP2.v, starting from any track; the others
    ([true]) are refused *)
Section Stage.
Context (o : oracle) (c : simconf) (x xc : session) (s sc : st).
Let D := genDevice c (ss_id xc) (ss_conn xc).
Let ph := number c.
Definition stored (d : device) : Prop := devAt s ph = Some d /\ d_plate d = sm_plate c.
Inductive rstage : bool -> list bytes -> list bytes -> progress -> nat -> nat -> list devgeo -> Prop :=
| rs_idle ws : unknown c s -> track s ph ws -> rstage false [] [] PIdle 0 0 ws
| rs_built ws : unknown c s -> track s ph ws -> devAt sc ph = Some D -> rstage false [] [] PBuilt 0 0 ws
| rs_1 f1 r ws : unknown c s -> track s ph ws -> devAt sc ph = Some D ->
    reads o f1 (simHeader 0x0100 D) (B0100 r) -> r_devid r = sm_id c -> r_plate r = sm_plate c ->
    rstage false [f1] [] PSent 0 0 ws
| rs_2 f1 f2 d code ws : owned c x s d -> track s ph ws -> devAt sc ph = Some D ->
    reads o f2 (simHeader 0x8100 D) (B8100 1 0 code) -> is_code (sm_id c) (sm_plate c) ph code ->
    rstage false [f1] [f2] PSent 1 0 ws
| rs_3 f1 f2 f3 d code al imei sw ws : owned c x s d -> track s ph ws -> devAt sc ph = Some D ->
    reads o f3 (simHeader 0x0102 D) (B0102 al code imei sw) -> is_code (sm_id c) (sm_plate c) ph code ->
    rstage false [f1; f3] [f2] PSent 1 1 ws
| rs_4 f1 f2 f3 f4 d ws : owned c x s d -> track s ph ws -> devAt sc ph = Some D -> d_status d <> Offline ->
    is_code (sm_id c) (sm_plate c) ph (d_auth d) -> confirms o D f4 -> rstage false [f1; f3] [f2; f4] PSent 2 1 ws
| rs_5 f1 f2 f3 f4 d its tr rs dc a u w ws : owned c x s d -> d_status d <> Offline ->
    is_code (sm_id c) (sm_plate c) ph (d_auth d) ->
    devAt sc ph = Some dc -> d_phone dc = d_phone D -> d_ver dc = d_ver D -> d_status dc = Online ->
    a = PSent /\ its = [] \/ a = POnline ->
    Forall2 (tells o D) its tr -> Forall (confirms o D) rs -> length rs = u -> (u <= length tr)%nat -> (w <= u)%nat ->
    track s ph (ws ++ geos ph (firstn u its)) ->
    rstage false (f1 :: f3 :: tr) (f2 :: f4 :: rs) a (2 + u) (2 + w) (ws ++ geos ph its)
| ro_idle d ws : stored d -> track s ph ws -> rstage true [] [] PIdle 0 0 ws
| ro_built d ws : stored d -> track s ph ws -> devAt sc ph = Some D -> rstage true [] [] PBuilt 0 0 ws
| ro_1 d f1 r ws : stored d -> track s ph ws -> devAt sc ph = Some D ->
    reads o f1 (simHeader 0x0100 D) (B0100 r) -> rstage true [f1] [] PSent 0 0 ws
| ro_2 d f1 f2 m ws : stored d -> track s ph ws -> devAt sc ph = Some D ->
    reads o f2 (simHeader 0x8100 D) (B8100 1 m authCode) -> m <> 0 -> rstage true [f1] [f2] PSent 1 0 ws
| ro_3 d f1 f2 f3 al imei sw ws : stored d -> track s ph ws -> devAt sc ph = Some D ->
    reads o f3 (simHeader 0x0102 D) (B0102 al authCode imei sw) -> rstage true [f1; f3] [f2] PSent 1 1 ws
| ro_4 f1 f2 f3 f4 w ws : unknown c s -> track s ph ws -> devAt sc ph = Some D ->
    reads o f4 (simHeader 0x8001 D) (B8001 1 0x0102 1) -> (w = 1 \/ w = 2)%nat -> rstage true [f1; f3] [f2; f4] PSent 2 w ws.
End Stage.

Lemma rstage_kept o c x xc s sc s' sc' b oc os a u w g :
  devAt s' (number c) = devAt s (number c) -> devWithPlate s' (sm_plate c) = devWithPlate s (sm_plate c) ->
  ringOf s' (number c) = ringOf s (number c) ->
  (forall d, devAt sc (number c) = Some d -> d_phone d = number c -> devAt sc' (number c) = Some d) ->
  rstage o c x xc s sc b oc os a u w g -> rstage o c x xc s' sc' b oc os a u w g.
Proof.
  intros H1 H2 H3 H4 S.
  assert (U : unknown c s -> unknown c s') by (unfold unknown; rewrite H1, H2; auto).
  assert (W : forall d, owned c x s d -> owned c x s' d) by (intros d; unfold owned; rewrite H1, H2; auto).
  assert (V : forall d, stored c s d -> stored c s' d) by (intros d; unfold stored; rewrite H1; auto).
  assert (T : forall ws, track s (number c) ws -> track s' (number c) ws) by (intros ws; unfold track; rewrite H3; auto).
  assert (Dv : devAt sc (number c) = Some (genDevice c (ss_id xc) (ss_conn xc)) -> devAt sc' (number c) = Some (genDevice c (ss_id xc) (ss_conn xc))).
  { intros H. apply (H4 _ H). apply simPhone_number. }
  destruct S;
    first [solve [eapply rs_idle; eauto]|solve [eapply rs_built; eauto]|solve [eapply rs_1; eauto]|solve [eapply rs_2; eauto]
          |solve [eapply rs_3; eauto]|solve [eapply rs_4; eauto]
          |solve [eapply rs_5; eauto; apply H4; [assumption|]; etransitivity; [eassumption|]; apply simPhone_number]
          |solve [eapply ro_idle; eauto]|solve [eapply ro_built; eauto]|solve [eapply ro_1; eauto]|solve [eapply ro_2; eauto]
          |solve [eapply ro_3; eauto]|solve [eapply ro_4; eauto]].
Qed.

Definition rtinv (o : oracle) (s sc : st) (t : term) (b : bool) (g : list devgeo) : Prop :=
  able o (tm_conf t) /\ tm_served t = true /\ tm_runs t = true
  /\ exists x xc os oc, st_sess s !! tm_srv t = Some x /\ st_sess sc !! tm_cli t = Some xc
     /\ st_conns s !! ss_conn x = Some (mkConn true os) /\ st_conns sc !! ss_conn xc = Some (mkConn true oc)
     /\ rstage o (tm_conf t) x xc s sc b oc os (tm_at t) (tm_up t) (tm_down t) g.
Definition rinv (o : oracle) (B : nat -> bool) (n : net) (G : nat -> list devgeo) : Prop :=
  consistent (nt_srv n) /\ apart n /\ forall i t, nt_terms n !! i = Some t -> rtinv o (nt_srv n) (nt_cli n) t (B i) (G i).

Lemma rinv_step o B n G G' i t t' s' sc' x xc : rinv o B n G -> nt_terms n !! i = Some t -> same_term t t' ->
  st_sess (nt_srv n) !! tm_srv t = Some x -> st_sess (nt_cli n) !! tm_cli t = Some xc ->
  srv_kept (number (tm_conf t)) (sm_plate (tm_conf t)) (ss_conn x) (nt_srv n) s' ->
  cli_kept (number (tm_conf t)) (ss_conn xc) (nt_cli n) sc' ->
  (forall j, j <> i -> G' j = G j) -> rtinv o s' sc' t' (B i) (G' i) ->
  rinv o B (mkNet s' sc' (<[i := t']> (nt_terms n))) G'.
Proof.
  intros (C & A & I) Hi Hsame Hx Hxc SK CK HG Ht. split; [apply SK|].
  split; [apply (apart_step n i t); try assumption; apply CK|].
  cbn [nt_terms nt_srv nt_cli]. intros j u Hu. apply list_lookup_insert_Some in Hu as [(<- & <- & _)|(Hj & Hu)]; [exact Ht|].
  rewrite HG by congruence. destruct (I _ _ Hu) as (B1 & B2 & B3 & y & yc & os & oc & Y1 & Y2 & Y3 & Y4 & Y5).
  destruct (A i j t u Hj Hi Hu) as (N1 & N2 & N3 & N4). specialize (N4 xc yc Hxc Y2).
  split; [exact B1|]. split; [exact B2|]. split; [exact B3|]. exists y, yc, os, oc.
  split; [rewrite (sk_sess _ _ _ _ _ SK); exact Y1|]. split; [rewrite (ck_sess _ _ _ _ CK); exact Y2|].
  split. { rewrite (sk_conns _ _ _ _ _ SK); [exact Y3|]. intros E. apply N3. symmetry. exact (cs_conn_inj _ C _ _ _ _ Y1 Hx E). }
  split; [rewrite (ck_conns _ _ _ _ CK); [exact Y4|congruence]|].
  eapply rstage_kept; [apply SK; congruence|apply SK; congruence|apply SK; congruence| |exact Y5].
  intros d Hd Hp. apply (ck_dev _ _ _ _ CK); [congruence|exact Hd|exact Hp].
Qed.
