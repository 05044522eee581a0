(** A fleet of simulated terminals: every schedule (C107, C108) *)
From Coq Require Import ZArith.
From stdpp Require Import gmap.
From Flocq Require Import IEEE754.Bits.
From Verif Require Import Base HexM TimeM HashM HeaderM ParamsM GeoM MsgM PacketM FrameM FloatM ProgM ProgP RingM SpecRing RingP
  StateM ProcM ServerM ClientM DatagenM NetM SpecState SpecCodec SpecSim SpecNet HexP HeaderP FrameP MsgP CodecP CodecP3 TimeP StateP ProcP
  ServerP ParamsP EffectP ReplyP HandshakeP CmdP DatagenP.
Local Open Scope N_scope.

(** * Frames *)
(** [f] is a frame with header [h] (but for the length) whose body reads [b] at any time *)
Definition reads (o : oracle) (f : bytes) (h : header) (b : body) : Prop :=
  exists p n, decodePacket o f = Ok p /\ pk_hdr p = with_len h n
    /\ forall now, msgDecode o now (kind_of b) p = Ok (mkMsg (pk_hdr p) b).
Lemma delivered_reads o h b b' : delivered o h b b' -> kind_of b' = kind_of b ->
  exists f, encodePacket o (mkMsg h b) = Ok f /\ reads o f h b'.
Proof.
  intros (n & D) Hk. destruct (D (mkCivil 0 0 0 0 0 0)) as (f & p & E & Dc & Hh & _ & _). exists f. split; [exact E|].
  exists p, n. split; [exact Dc|]. split; [exact Hh|]. intros now. destruct (D now) as (f' & p' & E' & Dc' & _ & _ & M).
  rewrite E in E'. injection E' as <-. rewrite Dc in Dc'. injection Dc' as <-. rewrite Hk. exact M.
Qed.
Lemma reads_carries e s f h b p n : decodePacket (e_o e) f = Ok p -> pk_hdr p = with_len h n ->
  (forall now, msgDecode (e_o e) now (kind_of b) p = Ok (mkMsg (pk_hdr p) b)) -> a_frag (h_attr h) = 0 ->
  carries e s p (h_id h) b /\ isFragmented (pk_hdr p) = false.
Proof.
  intros Dc Hh M Hf. assert (F : isFragmented (pk_hdr p) = false).
  { rewrite Hh. unfold isFragmented. cbn. rewrite Hf. reflexivity. }
  split; [|exact F]. split; [rewrite Hh; reflexivity|]. split; [left; exact F|apply M].
Qed.
Lemma sim_set_id a b d : hdr_set_id (simHeader a d) b = simHeader b d.
Proof. unfold simHeader. destruct (version_eqb _ _); reflexivity. Qed.
(** the answer to a terminal's message *)
Lemma answer_frame o p a id d n b m : answers p id b m -> pk_hdr p = with_len (simHeader a d) n ->
  encodePacket o m = encodePacket o (mkMsg (simHeader id d) b).
Proof.
  intros -> Hh. rewrite Hh. rewrite <- (sim_set_id a id d). symmetry. rewrite <- (encode_len o _ n b). reflexivity.
Qed.
Lemma sim_same id d d' : d_phone d = d_phone d' -> d_ver d = d_ver d' -> simHeader id d = simHeader id d'.
Proof. intros H1 H2. unfold simHeader. rewrite H1, H2. reflexivity. Qed.

Lemma simPhone_number c sid cn : d_phone (genDevice c sid cn) = number c.
Proof. unfold number, width, genDevice. repeat case_bool_decide; try reflexivity; tauto. Qed.

(** what the frames of an able terminal say *)
Section Able.
Context (o : oracle) (c : simconf) (sid : str) (cn : nat).
Let D := genDevice c sid cn.
Hypothesis A : able o c.
Lemma able_wf id : id < 65536 -> hdr_wf (simHeader id D).
Proof using A.
  intros Hi. destruct A as (Hd & g & _ & [(Hw & Hl & _)|(Hw & Hl & _)]); exact (sim_wf c sid cn _ id Hw Hd Hl Hi).
Qed.
Lemma able_reg : exists f r, encodePacket o (genMsg0100 c D) = Ok f /\ reads o f (simHeader 0x0100 D) (B0100 r)
  /\ r_devid r = sm_id c /\ r_plate r = sm_plate c.
Proof using A.
  pose proof (able_wf 0x0100 eq_refl) as W. destruct (genDevice_rest c sid cn) as (Ei & Ep & _). fold D in Ei, Ep.
  destruct (simHeader_ver 0x0100 D) as (V & _).
  destruct A as (Hd & g & Hg & [(Hw & Hl & Hi & Him & Hgl)|(Hw & Hl & Hi & Hgn & Hgl)]);
    destruct (sim_phone c sid cn _ Hw) as (_ & Ev & _); fold D in Ev; destruct (version_eqb (d_ver D) V2019); try discriminate Ev.
  - destruct (reg2019_delivered o (simHeader 0x0100 D) (toWord (atoi (sm_prov c))) (toWord (atoi (sm_city c)))
      fakeyanss fakeyanss (sm_id c) (toByte (atoi (sm_color c))) (sm_plate c) [] g W V (toWord_lt _) (toWord_lt _)
      (text_fakeyanss 11 ltac:(lia)) (text_fakeyanss 30 ltac:(lia)) Hi Hg Hgl) as (loc' & _ & R).
    destruct (delivered_reads _ _ _ _ R eq_refl) as (f & E & Rd). exists f. eexists. unfold genMsg0100. rewrite Ei, Ep.
    split; [exact E|]. split; [exact Rd|]. split; reflexivity.
  - destruct (reg2013_delivered o (simHeader 0x0100 D) (toWord (atoi (sm_prov c))) (toWord (atoi (sm_city c)))
      (firstn 5 fakeyanss) fakeyanss (sm_id c) (toByte (atoi (sm_color c))) (sm_plate c) [] g W V (toWord_lt _) (toWord_lt _))
      as (loc' & _ & R); [|apply text_fakeyanss; lia|exact Hi|exact Hg|exact Hgn|exact Hgl|].
    { split; [cbn; lia|]. right. exists [102; 97; 107; 101], 121. split; [reflexivity|discriminate]. }
    destruct (delivered_reads _ _ _ _ R eq_refl) as (f & E & Rd). exists f. eexists. unfold genMsg0100. rewrite Ei, Ep.
    rewrite reg_cut; [|exact V|cbn; lia]. split; [exact E|]. split; [exact Rd|]. split; reflexivity.
Qed.
Lemma able_auth al code : (length code <= 20)%nat -> exists f al' imei sw,
  encodePacket o (mkMsg (simHeader 0x0102 D) (B0102 al code (d_imei D) (d_sw D))) = Ok f
  /\ reads o f (simHeader 0x0102 D) (B0102 al' code imei sw).
Proof using A.
  intros Hc. pose proof (able_wf 0x0102 eq_refl) as W. destruct (genDevice_rest c sid cn) as (_ & _ & Ei & Es). fold D in Ei, Es.
  destruct (simHeader_ver 0x0102 D) as (V & _).
  destruct A as (Hd & g & Hg & [(Hw & Hl & Hi & Him & Hgl)|(Hw & Hl & Hi & Hgn & Hgl)]);
    destruct (sim_phone c sid cn _ Hw) as (_ & Ev & _); fold D in Ev; destruct (version_eqb (d_ver D) V2019); try discriminate Ev.
  - rewrite Ei, Es. unshelve epose proof (auth2019_delivered o (simHeader 0x0102 D) al code (sm_imei c) fakeyanssIO W V _ Him _) as R.
    { lia. } { split; [cbn; lia|]. right. exists (removelast fakeyanssIO), 111. split; [reflexivity|discriminate]. }
    destruct (delivered_reads _ _ _ _ R eq_refl) as (f & E & Rd). exists f. do 3 eexists. split; [exact E|exact Rd].
  - unshelve epose proof (auth2013_delivered o (simHeader 0x0102 D) al code (d_imei D) (d_sw D) W V _) as R; [lia|].
    destruct (delivered_reads _ _ _ _ R eq_refl) as (f & E & Rd). exists f. do 3 eexists. split; [exact E|exact Rd].
Qed.
Lemma able_confirm id : id < 65536 -> exists f, encodePacket o (mkMsg (simHeader 0x8001 D) (B8001 1 id 0)) = Ok f
  /\ reads o f (simHeader 0x8001 D) (B8001 1 id 0).
Proof using A.
  intros Hi. destruct (reply_delivered o _ 1 id 0 (able_wf 0x8001 eq_refl) ltac:(lia) Hi) as (_ & R).
  exact (delivered_reads _ _ _ _ R eq_refl).
Qed.
Lemma able_regreply code : (length code <= 20)%nat -> exists f,
  encodePacket o (mkMsg (simHeader 0x8100 D) (B8100 1 0 code)) = Ok f /\ reads o f (simHeader 0x8100 D) (B8100 1 0 code).
Proof using A.
  intros Hc. pose proof (regreply_delivered o _ 1 0 code (able_wf 0x8100 eq_refl) ltac:(lia) ltac:(lia)) as R.
  exact (delivered_reads _ _ _ _ R eq_refl).
Qed.
Lemma able_beat : exists f, encodePacket o (genMsg0002 D) = Ok f /\ reads o f (simHeader 0x0002 D) B0002.
Proof using A. exact (delivered_reads _ _ _ _ (beat_delivered o _ (able_wf 0x0002 eq_refl)) eq_refl). Qed.
Lemma able_report other g r now : civil_valid now ->
  exists f l, genMsg0200 other D g r now = mkMsg (simHeader 0x0200 D) (B0200 l) /\ l_time l = FormatTime now
    /\ encodePacket o (genMsg0200 other D g r now) = Ok f /\ reads o f (simHeader 0x0200 D) (B0200 l).
Proof using A.
  intros Hv. destruct (sim_report other D g r now) as (l & El & _ & _ & _ & _ & _ & Et & Dl).
  destruct (delivered_reads _ _ _ _ (Dl o Hv (able_wf 0x0200 eq_refl)) eq_refl) as (f & E & R).
  exists f, l. rewrite El. auto.
Qed.
End Able.

(** * One step of a terminal *)
(** what a step on the server for one terminal leaves alone *)
Record srv_kept (ph plate : str) (cn : nat) (s s' : st) : Prop := {
  sk_cons : consistent s';
  sk_sess : st_sess s' = st_sess s;
  sk_conns : forall c, c <> cn -> st_conns s' !! c = st_conns s !! c;
  sk_dev : forall q, q <> ph -> devAt s' q = devAt s q;
  sk_plate : forall q, q <> plate -> devWithPlate s' q = devWithPlate s q;
  sk_ring : forall q, q <> ph -> ringOf s' q = ringOf s q }.
Record cli_kept (ph : str) (cn : nat) (s s' : st) : Prop := {
  ck_sess : st_sess s' = st_sess s;
  ck_conns : forall c, c <> cn -> st_conns s' !! c = st_conns s !! c;
  ck_dev : forall q d, q <> ph -> devAt s q = Some d -> d_phone d = q -> devAt s' q = Some d;
  ck_out : forall k, st_conns s !! cn = Some k -> exists k', st_conns s' !! cn = Some k' /\ prefix (cn_out k) (cn_out k') }.

Lemma served_loop e sl f s s' : run (serveOne e sl (Ok f) None) s = (Ok true, s') ->
  run (serveLoop e sl [(Ok f, None)]) s = (Ok false, s').
Proof. intros H. cbn [serveLoop]. rewrite run_bindR, H. reflexivity. Qed.

Section Server.
Context (e : env) (c : simconf) (sid : str) (cn : nat) (sl : nat) (s : st) (x : session) (out : list bytes).
Let D := genDevice c sid cn.
Let ph := number c.
Hypothesis A : able (e_o e) c.
Hypothesis C : consistent s.
Hypothesis Hx : st_sess s !! sl = Some x.
Hypothesis Hk : st_conns s !! ss_conn x = Some (mkConn true out).

Lemma srv_register f r : reads (e_o e) f (simHeader 0x0100 D) (B0100 r) -> r_devid r = sm_id c -> r_plate r = sm_plate c ->
  devAt s ph = None -> devWithPlate s (sm_plate c) = None ->
  exists s' f2 code d, run (serveLoop e sl [(Ok f, None)]) s = (Ok false, s')
    /\ st_conns s' !! ss_conn x = Some (mkConn true (out ++ [f2])) /\ srv_kept ph (sm_plate c) (ss_conn x) s s'
    /\ reads (e_o e) f2 (simHeader 0x8100 D) (B8100 1 0 code) /\ is_code (sm_id c) (sm_plate c) ph code
    /\ devAt s' ph = Some d /\ devWithPlate s' (sm_plate c) = Some d
    /\ d_id d = sm_id c /\ d_plate d = sm_plate c /\ d_phone d = ph /\ d_sid d = ss_id x /\ d_conn d = ss_conn x
    /\ d_keep d = 60000%Z /\ ringOf s' ph = ringOf s ph.
Proof using A C Hx Hk.
  intros (p & n & Dc & Hh & M) Hi Hp Hd Hq.
  destruct (simHeader_rest 0x0100 D) as (Hid & Hfr & Hsn).
  destruct (reads_carries e s f _ _ p n Dc Hh M Hfr) as (K & Hnf). rewrite Hid in K.
  assert (Hph : h_phone (pk_hdr p) = ph) by (rewrite Hh; cbn; rewrite simHeader_phone; apply simPhone_number).
  assert (Hs1 : h_sn (pk_hdr p) = 1) by (rewrite Hh; exact Hsn).
  destruct (registration e sl s p r x C K Hx) as (res & s1 & R1 & R2).
  rewrite Hph, Hp, Hi, Hd, Hq, Hs1 in R2. destruct R2 as ((code & Hc & Ha) & R3 & R4 & (R5a & R5b) & R6 & R7 & C1).
  destruct (able_regreply (e_o e) c sid cn A code (code_short _ _ _ _ Hc)) as (f2 & E2 & Rd2). fold D in E2, Rd2.
  rewrite <- (answer_frame (e_o e) p 0x0100 0x8100 D n _ res Ha Hh) in E2.
  pose proof (serve_reply e sl s x _ f p res s1 f2 Hx Hk eq_refl Dc Hnf R1 ltac:(apply R7) E2) as S1. cbn [cn_out] in S1.
  destruct R7 as (G1 & G2 & G3 & G4 & G5 & G6 & G7 & G8).
  eexists _, f2, code, _. split; [apply served_loop; exact S1|]. split; [cbn; apply lookup_insert|]. split.
  { split; [apply consistent_conns_insert; exact C1|exact G5| |exact R5a|exact R5b|].
    - intros c0 Hn. cbn. rewrite lookup_insert_ne by congruence. rewrite G7. reflexivity.
    - intros q _. unfold ringOf. cbn. rewrite G1, G2. reflexivity. }
  split; [exact Rd2|]. split; [exact Hc|]. split; [exact R3|]. split; [rewrite <- R3; exact R4|].
  do 6 (split; [reflexivity|]). unfold ringOf. cbn. rewrite G1, G2. reflexivity.
Qed.

Lemma srv_auth f al code imei sw d : reads (e_o e) f (simHeader 0x0102 D) (B0102 al code imei sw) ->
  is_code (sm_id c) (sm_plate c) ph code -> devAt s ph = Some d ->
  d_id d = sm_id c -> d_plate d = sm_plate c -> d_phone d = ph ->
  exists s' f4 d', run (serveLoop e sl [(Ok f, None)]) s = (Ok false, s')
    /\ st_conns s' !! ss_conn x = Some (mkConn true (out ++ [f4])) /\ srv_kept ph (sm_plate c) (ss_conn x) s s'
    /\ reads (e_o e) f4 (simHeader 0x8001 D) (B8001 1 0x0102 0)
    /\ devAt s' ph = Some d' /\ devWithPlate s' (sm_plate c) = Some d'
    /\ d_id d' = sm_id c /\ d_plate d' = sm_plate c /\ d_phone d' = ph /\ d_sid d' = d_sid d /\ d_conn d' = d_conn d
    /\ d_status d' = Online /\ d_auth d' = code /\ ringOf s' ph = ringOf s ph.
Proof using A C Hx Hk.
  intros (p & n & Dc & Hh & M) Hc Hd Hi Hpl Hp.
  destruct (simHeader_rest 0x0102 D) as (Hid & Hfr & Hsn).
  destruct (reads_carries e s f _ _ p n Dc Hh M Hfr) as (K & Hnf). rewrite Hid in K.
  assert (Hph : h_phone (pk_hdr p) = ph) by (rewrite Hh; cbn; rewrite simHeader_phone; apply simPhone_number).
  assert (Hs1 : h_sn (pk_hdr p) = 1) by (rewrite Hh; exact Hsn).
  destruct (authentication e sl s p al code imei sw d C K ltac:(rewrite Hph; exact Hd)) as (res & s1 & R1 & C1 & (R5a & R5b) & R7 & Rok & _).
  destruct (Rok ltac:(rewrite Hi, Hpl, Hp; exact Hc)) as (Ha & R3 & R4 & R6). rewrite Hph in *. rewrite Hs1 in Ha. rewrite Hpl in R4, R5b.
  destruct (able_confirm (e_o e) c sid cn A 0x0102 eq_refl) as (f4 & E4 & Rd4). fold D in E4, Rd4.
  rewrite <- (answer_frame (e_o e) p 0x0102 0x8001 D n _ res Ha Hh) in E4.
  pose proof (serve_reply e sl s x _ f p res s1 f4 Hx Hk eq_refl Dc Hnf R1 ltac:(apply R7) E4) as S1. cbn [cn_out] in S1.
  destruct R7 as (G1 & G2 & G3 & G4 & G5 & G6 & G7 & G8).
  eexists _, f4, _. split; [apply served_loop; exact S1|]. split; [cbn; apply lookup_insert|]. split.
  { split; [apply consistent_conns_insert; exact C1|exact G5| |exact R5a|exact R5b|].
    - intros c0 Hn. cbn. rewrite lookup_insert_ne by congruence. rewrite G7. reflexivity.
    - intros q _. unfold ringOf. cbn. rewrite G1, G2. reflexivity. }
  split; [exact Rd4|]. split; [exact R3|]. split; [rewrite <- R3; exact R4|].
  cbn. do 7 (split; [first [assumption|reflexivity]|]). unfold ringOf. cbn. rewrite G1, G2. reflexivity.
Qed.

Lemma srv_beat f d : reads (e_o e) f (simHeader 0x0002 D) B0002 -> devAt s ph = Some d -> d_plate d = sm_plate c ->
  exists s' f' d', run (serveLoop e sl [(Ok f, None)]) s = (Ok false, s')
    /\ st_conns s' !! ss_conn x = Some (mkConn true (out ++ [f'])) /\ srv_kept ph (sm_plate c) (ss_conn x) s s'
    /\ (exists i, reads (e_o e) f' (simHeader 0x8001 D) (B8001 1 i 0))
    /\ devAt s' ph = Some d' /\ devWithPlate s' (sm_plate c) = Some d'
    /\ d_id d' = d_id d /\ d_plate d' = d_plate d /\ d_phone d' = d_phone d /\ d_sid d' = d_sid d /\ d_conn d' = d_conn d
    /\ (d_status d <> Offline -> d_status d' <> Offline) /\ d_auth d' = d_auth d /\ ringOf s' ph = ringOf s ph.
Proof using A C Hx Hk.
  intros (p & n & Dc & Hh & M) Hd Hpl.
  destruct (simHeader_rest 0x0002 D) as (Hid & Hfr & Hsn).
  destruct (reads_carries e s f _ _ p n Dc Hh M Hfr) as (K & Hnf). rewrite Hid in K.
  assert (Hph : h_phone (pk_hdr p) = ph) by (rewrite Hh; cbn; rewrite simHeader_phone; apply simPhone_number).
  assert (Hs1 : h_sn (pk_hdr p) = 1) by (rewrite Hh; exact Hsn).
  destruct (heartbeat e sl s p d C K ltac:(rewrite Hph; exact Hd)) as (res & s1 & R1 & C1 & Ha & R3 & R4 & (R5a & R5b) & R6 & R7).
  rewrite Hph in *. rewrite Hs1 in Ha. rewrite Hpl in R4, R5b.
  destruct (able_confirm (e_o e) c sid cn A 0x0002 eq_refl) as (f4 & E4 & Rd4). fold D in E4, Rd4.
  rewrite <- (answer_frame (e_o e) p 0x0002 0x8001 D n _ res Ha Hh) in E4.
  pose proof (serve_reply e sl s x _ f p res s1 f4 Hx Hk eq_refl Dc Hnf R1 ltac:(apply R7) E4) as S1. cbn [cn_out] in S1.
  destruct R7 as (G1 & G2 & G3 & G4 & G5 & G6 & G7 & G8).
  eexists _, f4, _. split; [apply served_loop; exact S1|]. split; [cbn; apply lookup_insert|]. split.
  { split; [apply consistent_conns_insert; exact C1|exact G5| |exact R5a|exact R5b|].
    - intros c0 Hn. cbn. rewrite lookup_insert_ne by congruence. rewrite G7. reflexivity.
    - intros q _. unfold ringOf. cbn. rewrite G1, G2. reflexivity. }
  split; [eexists; exact Rd4|]. split; [exact R3|]. split; [rewrite <- R3; exact R4|].
  cbn. do 5 (split; [reflexivity|]). split; [auto|]. split; [reflexivity|]. unfold ringOf. cbn. rewrite G1, G2. reflexivity.
Qed.

Lemma srv_report f l now ws d : reads (e_o e) f (simHeader 0x0200 D) (B0200 l) -> l_time l = FormatTime now ->
  civil_valid now -> year_window now -> devAt s ph = Some d -> d_plate d = sm_plate c -> track s ph ws ->
  exists s' f' d', run (serveLoop e sl [(Ok f, None)]) s = (Ok false, s')
    /\ st_conns s' !! ss_conn x = Some (mkConn true (out ++ [f'])) /\ srv_kept ph (sm_plate c) (ss_conn x) s s'
    /\ (exists i, reads (e_o e) f' (simHeader 0x8001 D) (B8001 1 i 0))
    /\ devAt s' ph = Some d' /\ devWithPlate s' (sm_plate c) = Some d'
    /\ d_id d' = d_id d /\ d_plate d' = d_plate d /\ d_phone d' = d_phone d /\ d_sid d' = d_sid d /\ d_conn d' = d_conn d
    /\ (d_status d <> Offline -> d_status d' <> Offline) /\ d_auth d' = d_auth d
    /\ track s' ph (ws ++ [mkDevGeo ph (geoDecode (l_status l)) (l_lat l) (l_lon l) (l_altitude l) (l_speed l) (l_dir l) now]).
Proof using A C Hx Hk.
  intros (p & n & Dc & Hh & M) Ht Hv Hy Hd Hpl Hw.
  destruct (simHeader_rest 0x0200 D) as (Hid & Hfr & Hsn).
  destruct (reads_carries e s f _ _ p n Dc Hh M Hfr) as (K & Hnf). rewrite Hid in K.
  assert (Hph : h_phone (pk_hdr p) = ph) by (rewrite Hh; cbn; rewrite simHeader_phone; apply simPhone_number).
  assert (Hs1 : h_sn (pk_hdr p) = 1) by (rewrite Hh; exact Hsn).
  destruct (location e sl s p l d ws C K ltac:(rewrite Hph; exact Hd) ltac:(rewrite Hph; exact Hw))
    as (res & s1 & g & R1 & C1 & Ha & T & G & R3 & R4 & (R5a & R5b) & R8 & R6 & _ & _ & G5 & _ & G7).
  rewrite Hph in *. rewrite Hs1 in Ha. rewrite Hpl in R4, R5b.
  destruct (able_confirm (e_o e) c sid cn A 0x0200 eq_refl) as (f4 & E4 & Rd4). fold D in E4, Rd4.
  rewrite <- (answer_frame (e_o e) p 0x0200 0x8001 D n _ res Ha Hh) in E4.
  pose proof (serve_reply e sl s x _ f p res s1 f4 Hx Hk eq_refl Dc Hnf R1 G7 E4) as S1. cbn [cn_out] in S1.
  eexists _, f4, _. split; [apply served_loop; exact S1|]. split; [cbn; apply lookup_insert|]. split.
  { split; [apply consistent_conns_insert; exact C1|exact G5| |exact R5a|exact R5b|exact R8].
    intros c0 Hn. cbn. rewrite lookup_insert_ne by congruence. rewrite G7. reflexivity. }
  split; [eexists; exact Rd4|]. split; [exact R3|]. split; [rewrite <- R3; exact R4|].
  rewrite G in T. unfold ParseTime in T. rewrite Ht, (timeParse_FormatTime now Hv Hy) in T.
  destruct (N.testbit (l_status l) 0); cbn; (do 5 (split; [reflexivity|])); (split; [first [tauto|discriminate]|]); (split; [reflexivity|exact T]).
Qed.
End Server.

(** a success reply for a device that is not offline *)
Lemma client_awake e sl s p a b d : carries e s p 0x8001 (B8001 a b 0) ->
  devAt s (h_phone (pk_hdr p)) = Some d -> d_status d <> Offline -> run (process e sl p) s = (Ok None, s).
Proof.
  intros (Hid & Hf & Hd) Hdv Hs. destruct (devAt_look _ _ _ Hdv) as (l & H & H1).
  rewrite run_process, Hid. cbn [lookupN optionTable N.eqb Pos.eqb].
  replace (isFragmented (pk_hdr p) && negb (pk_segdone p)) with false.
  2:{ unfold fragment in Hf; fold (isFragmented (pk_hdr p)) in Hf; destruct Hf as [-> | ->]; [reflexivity|]. rewrite andb_false_r. reflexivity. }
  cbn [kind_of] in Hd. rewrite Hd. cbn [m_body].
  assert (E : run (process8001 (mkMsg (pk_hdr p) (B8001 a b 0)) 0) s = (Ok tt, s)).
  { unfold process8001. cbn [N.eqb m_hdr]. rewrite run_bind. unfold getDeviceByPhone, rd1. cbn [run ret]. rewrite H.
    rewrite run_bind. unfold readDev. cbn [run]. rewrite H1. cbn [run ret]. apply N.eqb_neq in Hs. rewrite Hs. reflexivity. }
  rewrite E. reflexivity.
Qed.
(** [client_wakes] and what it does to the other devices *)
Lemma client_wakes' e sl s p a b d : carries e s p 0x8001 (B8001 a b 0) ->
  devAt s (h_phone (pk_hdr p)) = Some d -> d_phone d = h_phone (pk_hdr p) -> d_status d = Offline ->
  exists s' d', run (process e sl p) s = (Ok None, s')
    /\ devAt s' (h_phone (pk_hdr p)) = Some d' /\ d_phone d' = d_phone d /\ d_ver d' = d_ver d /\ d_status d' = Online
    /\ st_conns s' = st_conns s /\ st_sess s' = st_sess s
    /\ forall q u, q <> h_phone (pk_hdr p) -> devAt s q = Some u -> d_phone u = q -> devAt s' q = Some u.
Proof.
  intros (Hid & Hf & Hd) Hdv Hp Hs. destruct (devAt_look _ _ _ Hdv) as (l & H & H1).
  rewrite run_process, Hid. cbn [lookupN optionTable N.eqb Pos.eqb].
  replace (isFragmented (pk_hdr p) && negb (pk_segdone p)) with false.
  2:{ unfold fragment in Hf; fold (isFragmented (pk_hdr p)) in Hf; destruct Hf as [-> | ->]; [reflexivity|]. rewrite andb_false_r. reflexivity. }
  cbn [kind_of] in Hd. rewrite Hd. cbn [m_body].
  set (f := fun d => dset_last (dset_status d Online) (st_clock s)).
  assert (E : exists s', run (process8001 (mkMsg (pk_hdr p) (B8001 a b 0)) 0) s = (Ok tt, s')
    /\ (forall l', st_devs s' !! l' = if decide (l' = l) then Some (f d) else st_devs s !! l')
    /\ st_byPhone s' = <[h_phone (pk_hdr p) := l]> (st_byPhone s)
    /\ st_conns s' = st_conns s /\ st_sess s' = st_sess s).
  { unfold process8001. cbn [N.eqb m_hdr]. rewrite run_bind. unfold getDeviceByPhone, rd1. cbn [run ret]. rewrite H.
    rewrite run_bind. unfold readDev. cbn [run]. rewrite H1. cbn [run ret]. rewrite Hs. cbn [N.eqb Offline].
    unfold writeDev, getNow, cacheDevice, wr1, rd1, ret, pbind. cbn -[alter insert lookup].
    rewrite !lookup_alter, H1. cbn -[alter insert lookup]. eexists. split; [reflexivity|].
    cbn -[alter insert lookup]. rewrite Hp. split; [|repeat split; reflexivity].
    intros l'. destruct (decide (l' = l)) as [->|Hn]; [rewrite !lookup_alter, H1; reflexivity|].
    rewrite !lookup_alter_ne by congruence. reflexivity. }
  destruct E as (s' & E & E1 & E2 & E3 & E4). rewrite E. exists s', (f d). split; [reflexivity|].
  unfold devAt. rewrite E2, lookup_insert, E1, decide_True by reflexivity. do 4 (split; [reflexivity|]).
  split; [exact E3|]. split; [exact E4|]. intros q u Hn Hu Hq. rewrite lookup_insert_ne by congruence.
  destruct (st_byPhone s !! q) as [lq|]; [|discriminate]. rewrite E1, decide_False; [exact Hu|].
  intros ->. rewrite H1 in Hu. injection Hu as ->. congruence.
Qed.
Lemma with_out_kept ph cn k f s : st_conns s !! cn = Some k -> cli_kept ph cn s (with_out cn k f s).
Proof.
  intros Hk. split; [reflexivity| |auto|].
  - intros c Hn. cbn. rewrite lookup_insert_ne by congruence. reflexivity.
  - intros k0 H0. rewrite Hk in H0. injection H0 as <-. cbn. rewrite lookup_insert. eexists. split; [reflexivity|]. cbn. eexists. reflexivity.
Qed.
Lemma cli_kept_refl ph cn s : cli_kept ph cn s s.
Proof. split; auto. eauto. Qed.

Section Client.
Context (o : oracle) (ec : env) (c : simconf) (sl : nat) (s : st) (x : session) (out : list bytes).
Let D := genDevice c (ss_id x) (ss_conn x).
Let ph := number c.
Hypothesis Ho : e_o ec = o.
Hypothesis A : able o c.
Hypothesis Hx : st_sess s !! sl = Some x.
Hypothesis Hk : st_conns s !! ss_conn x = Some (mkConn true out).

Lemma cli_build : exists l s', run (buildDevice c sl) s = (Ok l, s') /\ devAt s' ph = Some D
  /\ st_conns s' = st_conns s /\ cli_kept ph (ss_conn x) s s'.
Proof using Hx.
  destruct (run_build c sl s x Hx) as (B1 & B2). rewrite simPhone_number in B2. fold D in B2. eexists _, _. split; [exact B1|].
  split; [exact B2|]. split; [reflexivity|]. split; [reflexivity|reflexivity| |cbn; eauto].
  intros q d Hn Hd Hq. unfold devAt, built in *. cbn -[insert lookup fresh dom genDevice]. rewrite simPhone_number.
  fold ph. rewrite lookup_insert_ne by congruence. destruct (st_byPhone s !! q) as [lq|]; [|discriminate].
  rewrite lookup_insert_ne; [exact Hd|]. intros E. pose proof (is_fresh (dom (st_devs s))) as F. apply F. rewrite E.
  apply elem_of_dom. eauto.
Qed.
Lemma cli_register : devAt s ph = Some D -> exists s' f r, run (register ec c ph sl None) s = (Ok tt, s')
  /\ st_conns s' !! ss_conn x = Some (mkConn true (out ++ [f])) /\ devAt s' ph = Some D /\ cli_kept ph (ss_conn x) s s'
  /\ reads o f (simHeader 0x0100 D) (B0100 r) /\ r_devid r = sm_id c /\ r_plate r = sm_plate c.
Proof using A Hx Hk Ho.
  intros Hd. destruct (able_reg o c (ss_id x) (ss_conn x) A) as (f & r & E & R & R1 & R2). fold D in E, R.
  rewrite <- Ho in E. assert (Hd' : devAt s (d_phone D) = Some D) by (unfold D at 1; rewrite simPhone_number; exact Hd).
  pose proof (run_register ec c sl s x _ D f Hx Hk eq_refl Hd' E) as Rg. unfold D in Rg at 1. rewrite simPhone_number in Rg.
  eexists _, f, r. split; [exact Rg|]. split; [cbn; apply lookup_insert|]. split; [exact Hd|]. split; [apply with_out_kept; exact Hk|]. auto.
Qed.
Lemma cli_auth f code : reads o f (simHeader 0x8100 D) (B8100 1 0 code) -> (length code <= 20)%nat -> devAt s ph = Some D ->
  exists s' f3 al imei sw, run (clientLoop ec sl [(Ok f, None)]) s = (Ok false, s')
    /\ st_conns s' !! ss_conn x = Some (mkConn true (out ++ [f3])) /\ devAt s' ph = Some D /\ cli_kept ph (ss_conn x) s s'
    /\ reads o f3 (simHeader 0x0102 D) (B0102 al code imei sw).
Proof using A Hx Hk Ho.
  intros (p & n & Dc & Hh & M) Hl Hd. destruct (simHeader_rest 0x8100 D) as (Hid & Hfr & Hsn). rewrite <- Ho in Dc, M.
  destruct (reads_carries ec s f _ _ p n Dc Hh M Hfr) as (K & Hnf). rewrite Hid in K.
  assert (Hph : h_phone (pk_hdr p) = ph) by (rewrite Hh; cbn; rewrite simHeader_phone; apply simPhone_number).
  destruct (devAt_look _ _ _ Hd) as (lc & L1 & L2).
  set (al3 := N.of_nat (length code) mod 256).
  set (m3 := mkMsg (hdr_set_len (simHeader 0x0102 D) n) (B0102 al3 code (d_imei D) (d_sw D))).
  assert (P3 : run (process ec sl p) s = (Ok (Some m3), s)).
  { erewrite process_carries; [|exact K|reflexivity|reflexivity]. unfold handler. cbn [m_body].
    unfold process8100. rewrite run_bind. cbn [getDeviceByPhone rd1 run ret m_hdr]. unfold ret. rewrite Hph.
    rewrite L1. rewrite run_bind. cbn [readDev run]. rewrite L2. cbn [run ret]. unfold ret, m3. rewrite Hh, <- (sim_set_id 0x8100 0x0102). reflexivity. }
  destruct (able_auth o c (ss_id x) (ss_conn x) A al3 code Hl) as (f3 & al & imei & sw & E3 & R3). fold D in E3, R3.
  assert (E3' : encodePacket (e_o ec) m3 = Ok f3) by (unfold m3; rewrite encode_len, Ho; exact E3).
  pose proof (client_reply ec sl s x _ f p m3 s f3 Hx Dc Hnf P3 Hk eq_refl E3') as L3.
  eexists _, f3, al, imei, sw. split; [exact L3|]. split; [cbn; apply lookup_insert|]. split; [exact Hd|].
  split; [apply with_out_kept; exact Hk|exact R3].
Qed.
Lemma cli_wake f i : reads o f (simHeader 0x8001 D) (B8001 1 i 0) -> devAt s ph = Some D ->
  exists s' d, run (clientLoop ec sl [(Ok f, None)]) s = (Ok false, s') /\ st_conns s' = st_conns s
    /\ devAt s' ph = Some d /\ d_phone d = d_phone D /\ d_ver d = d_ver D /\ d_status d = Online /\ cli_kept ph (ss_conn x) s s'.
Proof using A Hx Hk Ho.
  intros (p & n & Dc & Hh & M) Hd. destruct (simHeader_rest 0x8001 D) as (Hid & Hfr & Hsn). rewrite <- Ho in Dc, M.
  destruct (reads_carries ec s f _ _ p n Dc Hh M Hfr) as (K & Hnf). rewrite Hid in K.
  assert (Hph : h_phone (pk_hdr p) = ph) by (rewrite Hh; cbn; rewrite simHeader_phone; apply simPhone_number).
  destruct (client_wakes' ec sl s p 1 i D K) as (s' & d & P & H1 & H2 & H3 & H4 & H5 & H6 & H7).
  { rewrite Hph. exact Hd. } { rewrite Hph. apply simPhone_number. } { unfold D, genDevice. repeat case_bool_decide; reflexivity. }
  rewrite Hph in *. exists s', d. split; [apply (client_silent ec sl s x f p s' Hx Dc Hnf P)|]. split; [exact H5|].
  do 4 (split; [assumption|]). split; [exact H6|intros; rewrite H5; reflexivity|exact H7|rewrite H5; eauto].
Qed.
Lemma cli_still f i d : reads o f (simHeader 0x8001 D) (B8001 1 i 0) -> devAt s ph = Some d -> d_status d = Online ->
  run (clientLoop ec sl [(Ok f, None)]) s = (Ok false, s).
Proof using Hx Ho.
  intros (p & n & Dc & Hh & M) Hd Hs. destruct (simHeader_rest 0x8001 D) as (Hid & Hfr & Hsn). rewrite <- Ho in Dc, M.
  destruct (reads_carries ec s f _ _ p n Dc Hh M Hfr) as (K & Hnf). rewrite Hid in K.
  assert (Hph : h_phone (pk_hdr p) = ph) by (rewrite Hh; cbn; rewrite simHeader_phone; apply simPhone_number).
  apply (client_silent ec sl s x f p s Hx Dc Hnf). apply (client_awake ec sl s p 1 i d K); [rewrite Hph; exact Hd|].
  rewrite Hs. discriminate.
Qed.
Lemma cli_beat d : devAt s ph = Some d -> d_phone d = d_phone D -> d_ver d = d_ver D ->
  exists s' f, run (keepalive ec ph sl [None]) s = (Ok tt, s') /\ reads o f (simHeader 0x0002 D) B0002
    /\ st_conns s' !! ss_conn x = Some (mkConn true (out ++ [f])) /\ devAt s' ph = devAt s ph /\ cli_kept ph (ss_conn x) s s'.
Proof using A Hx Hk Ho.
  intros Hd H1 H2. destruct (able_beat o c (ss_id x) (ss_conn x) A) as (f & E & R). fold D in E, R. rewrite <- Ho in E.
  destruct (run_getSim _ _ _ Hd) as (l & G & Hl). eexists _, f. split.
  { unfold keepalive. rewrite run_bind, G, run_bind. unfold readConst. cbn [run]. rewrite Hl. cbn [run ret beats0002].
    rewrite run_bind, (run_clientSend ec sl s x _ _ f Hx Hk eq_refl); [reflexivity|].
    unfold genMsg0002. rewrite (sim_same _ d D H1 H2). exact E. }
  split; [exact R|]. split; [cbn; apply lookup_insert|]. split; [reflexivity|apply with_out_kept; exact Hk].
Qed.
Lemma cli_report other g r d : devAt s ph = Some d -> d_phone d = d_phone D -> d_ver d = d_ver D ->
  civil_valid (e_civil ec (st_clock s)) ->
  exists s' f l, run (reportLocation ec other ph g sl [(r, None)]) s = (Ok tt, s')
    /\ m_body (genMsg0200 other (genDevice c [] 0) g r (e_civil ec (st_clock s))) = B0200 l
    /\ l_time l = FormatTime (e_civil ec (st_clock s)) /\ reads o f (simHeader 0x0200 D) (B0200 l)
    /\ st_conns s' !! ss_conn x = Some (mkConn true (out ++ [f])) /\ devAt s' ph = devAt s ph /\ cli_kept ph (ss_conn x) s s'.
Proof using A Hx Hk Ho.
  intros Hd H1 H2 Hv. destruct (able_report o c (ss_id x) (ss_conn x) A other g r _ Hv) as (f & l & El & Et & E & R). fold D in El, E, R.
  rewrite <- Ho in E.
  assert (Hp : d_phone d = ph) by (rewrite H1; apply simPhone_number).
  assert (E' : encodePacket (e_o ec) (genMsg0200 other d g r (e_civil ec (st_clock s))) = Ok f).
  { rewrite <- E. unfold genMsg0200. rewrite (sim_same _ d D H1 H2). reflexivity. }
  rewrite <- Hp in Hd. pose proof (run_report ec other sl s x _ d g r f Hx Hk eq_refl Hd E') as Rr. rewrite Hp in Rr.
  eexists _, f, l. split; [exact Rr|]. split.
  { assert (X : m_body (genMsg0200 other D g r (e_civil ec (st_clock s))) = B0200 l) by (rewrite El; reflexivity). exact X. }
  split; [exact Et|]. split; [exact R|]. split; [cbn; apply lookup_insert|]. split; [reflexivity|apply with_out_kept; exact Hk].
Qed.
End Client.
