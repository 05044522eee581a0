(** Connections, keepalive checks, fragments, sessions and commands: the lemmas behind the
    server properties *)
From Coq Require Import Sorted.
From stdpp Require Import gmap.
From Verif Require Import Base HexM TimeM HashM HeaderM ParamsM GeoM MsgM PacketM FrameM ProgM ProgP RingM SpecRing RingP
  StateM ProcM ServerM SpecState SpecCodec StateP ProcP ServerP ParamsP DecP EffectP ReplyP HandshakeP.
Local Open Scope N_scope.

(** * One served frame *)
(** what the connection gets for the frame: the answer, cut by the error of a Write call *)
Definition sent (e : env) (k : conn) (out : res (option msg)) (w : wres) : list bytes :=
  match out with
  | Ok (Some m) =>
      match encodePacket (e_o e) m with
      | Ok f => if cn_open k then [match w with None => f | Some (n, _) => take n f end] else []
      | _ => []
      end
  | _ => []
  end.
(** how handling the frame ends *)
Definition ends (e : env) (k : conn) (out : res (option msg)) (w : wres) : res unit :=
  match out with
  | Ok None => Ok tt
  | Ok (Some m) =>
      match encodePacket (e_o e) m with
      | Ok f => if cn_open k then match w with None => Ok tt | Some (_, er) => Err er end else Err ErrNetClosed
      | Err er => Err er
      | Panic => Panic
      end
  | Err er => Err er
  | Panic => Panic
  end.
Lemma alter_id_conn (m : gmap nat conn) c k f : m !! c = Some k -> f k = k -> alter f c m = m.
Proof.
  intros H Hf. apply map_eq. intros i. destruct (decide (i = c)) as [->|Hn].
  - rewrite lookup_alter, H. cbn. rewrite Hf. reflexivity.
  - rewrite lookup_alter_ne by congruence. reflexivity.
Qed.
Lemma run_write_exact e c out w s k : st_conns s !! c = Some k ->
  run (processConnWrite e c out w) s =
  (ends e k (Ok out) w, set_conns (<[c := mkConn (cn_open k) (cn_out k ++ sent e k (Ok out) w)]>) s).
Proof.
  intros Hk. assert (Hid : set_conns (<[c := mkConn (cn_open k) (cn_out k ++ [])]>) s = s).
  { rewrite app_nil_r. unfold set_conns. rewrite insert_id; [destruct s; reflexivity|]. destruct k; exact Hk. }
  unfold processConnWrite. destruct out as [m|]; cbn [sent ends].
  2:{ rewrite Hid. reflexivity. }
  rewrite run_bind. cbn [lift run]. destruct (encodePacket (e_o e) m) as [f|er|]; [|rewrite Hid; reflexivity..].
  unfold connSend. cbn [run]. rewrite Hk. destruct (cn_open k) eqn:Ho.
  - assert (Ha : alter (fun x => if cn_open x then mkConn true (cn_out x ++ [match w with
        | None => f | Some (n, _) => take n f end]) else x) c (st_conns s) =
       <[c := mkConn true (cn_out k ++ [match w with None => f | Some (n, _) => take n f end])]> (st_conns s)).
    { rewrite <- (insert_id (st_conns s) c k Hk) at 1. rewrite alter_insert, Ho. reflexivity. }
    unfold set_conns. rewrite Ha. destruct w as [[n er]|]; reflexivity.
  - rewrite Hid. cbn [run fail]. unfold set_conns. rewrite (alter_id_conn _ _ k) by (try rewrite Ho; auto).
    destruct s; reflexivity.
Qed.

(** whether the error makes serve return *)
Definition closing : list gerr := [ErrEOF; ErrClosedPipe; ErrNetClosed; ErrDeviceNotFound].
Lemma serveStops_iff er : serveStops er = true <-> In er closing.
Proof. destruct er; cbn; split; intuition (try discriminate; auto). Qed.
Lemma clientStops_iff er : clientStops er = true <-> In er [ErrEOF; ErrClosedPipe; ErrNetClosed; ErrActiveClose].
Proof. destruct er; cbn; split; intuition (try discriminate; auto). Qed.

Definition goesOn (q : res unit) : bool :=
  match q with Ok _ => true | Err er => negb (serveStops er) | Panic => false end.
(** the session registry and the connection after the end of serve *)
Lemma serve_frame e sl r w s x k : consistent s -> st_sess s !! sl = Some x ->
  st_conns s !! ss_conn x = Some k ->
  let out := fst (frameOut e sl r s) in
  exists s', run (serveLoop e sl [(r, w)]) s = (Ok (negb (goesOn (ends e k out w))), s')
    /\ consistent s'
    /\ (forall q, phone_of e r <> Some q -> devAt s' q = devAt s q /\ ringOf s' q = ringOf s q
                                            /\ st_params s' !! q = st_params s !! q)
    /\ (forall c, c <> ss_conn x -> st_conns s' !! c = st_conns s !! c)
    /\ st_conns s' !! ss_conn x = Some (mkConn (goesOn (ends e k out w) && cn_open k) (cn_out k ++ sent e k out w))
    /\ (forall i, st_byID s' !! i = if goesOn (ends e k out w) then st_byID s !! i
                                    else if decide (i = ss_id x) then None else st_byID s !! i)
    /\ (forall l, ss_id <$> st_sess s' !! l = ss_id <$> st_sess s !! l
                  /\ ss_conn <$> st_sess s' !! l = ss_conn <$> st_sess s !! l).
Proof.
  intros C Hx Hk out.
  destruct (frameOut_kept e sl r s (ss_conn x) C (ex_intro _ x Hx)) as (K & Hc).
  assert (exists s1, run (processConnRead e sl (ss_conn x) r w) s = (ends e k out w, s1)
     /\ frame_kept (phone_of e r) (ss_conn x) s s1
     /\ st_conns s1 !! ss_conn x = Some (mkConn (cn_open k) (cn_out k ++ sent e k out w))) as (s1 & E & K1 & Hk1).
  { rewrite run_read. subst out. destruct (frameOut e sl r s) as [[o|er|] s1]; cbn [fst snd] in *.
    - assert (Hk' : st_conns s1 !! ss_conn x = Some k) by (rewrite Hc; exact Hk).
      pose proof (run_write_exact e (ss_conn x) o w s1 k Hk') as E.
      destruct (run_write e (ss_conn x) o w s1 k Hk') as (q & s2 & E2 & Ho & _).
      rewrite E in E2. injection E2 as Eq1 Eq2. eexists. split; [exact E|]. split.
      + rewrite <- Eq2 in Ho. pose proof (consistent_conn _ _ _ (fk_ok _ _ _ _ K) Ho) as C2.
        destruct K. split; auto. intros c' Hc'. cbn. rewrite lookup_insert_ne by congruence. rewrite Hc. reflexivity.
      + cbn. rewrite lookup_insert. reflexivity.
    - eexists. split; [reflexivity|]. split; [exact K|]. cbn. rewrite app_nil_r, Hc. destruct k; exact Hk.
    - eexists. split; [reflexivity|]. split; [exact K|]. cbn. rewrite app_nil_r, Hc. destruct k; exact Hk. }
  destruct (same_sess _ _ (fk_sess _ _ _ _ K1) sl x Hx) as (x1 & Hx1 & Hi & Hcx).
  assert (Er : run (serveLoop e sl [(r, w)]) s =
     (Ok (negb (goesOn (ends e k out w))), if goesOn (ends e k out w) then s1 else closed sl x1 s1)).
  { cbn [serveLoop]. rewrite run_bindR. unfold serveOne. rewrite run_bind. unfold readSess at 1 2. cbn [run].
    rewrite Hx. cbn [run ret]. rewrite run_bindR, E. cbn [fst snd].
    destruct (ends e k out w) as [u|er|]; cbn [goesOn run ret panic fst snd].
    - reflexivity.
    - destruct (serveStops er); cbn [negb run ret fst snd]; [|reflexivity].
      rewrite run_bind, (run_remove sl x1 s1 Hx1). reflexivity.
    - rewrite run_bind, (run_remove sl x1 s1 Hx1). reflexivity. }
  eexists. split; [exact Er|]. destruct K1 as [C1 Kiso Kc Kb Kt Ks].
  destruct (goesOn (ends e k out w)); cbn [andb].
  - split_and!; auto. intros i. rewrite Kb. reflexivity.
  - split; [apply closed_ok; exact C1|]. unfold closed. cbn.
    split; [exact Kiso|]. split; [|split; [|split; [|exact Ks]]].
    + intros c Hn. rewrite lookup_alter_ne by congruence. apply Kc. exact Hn.
    + rewrite Hcx, lookup_alter, Hk1. reflexivity.
    + intros i. rewrite Kb, Hi. destruct (decide (i = ss_id x)) as [->|Hn]; [apply lookup_delete|].
      rewrite lookup_delete_ne by congruence. reflexivity.
Qed.

(** * Everything a connection sends (C17, C54) *)
Lemma serveLoop_cons e sl r w t s : run (serveLoop e sl ((r, w) :: t)) s =
  match run (serveLoop e sl [(r, w)]) s with
  | (Ok false, s') => run (serveLoop e sl t) s'
  | x => x
  end.
Proof.
  cbn [serveLoop]. rewrite !run_bindR. destruct (run (serveOne e sl r w) s) as [q s1]. cbn [fst snd].
  assert (H : match run (remove sl;;; ret true)%prog s1 with (Ok false, s') => run (serveLoop e sl t) s' | x => x end
     = run (remove sl;;; ret true)%prog s1).
  { rewrite run_bind. destruct (run (remove sl) s1) as [[u|er|] s2]; reflexivity. }
  destruct q as [[]|er|]; [reflexivity|symmetry; exact H..].
Qed.
Lemma contained e sl ins : forall s x, consistent s -> st_sess s !! sl = Some x ->
  exists b s', run (serveLoop e sl ins) s = (Ok b, s') /\ consistent s'
    /\ (forall c, c <> ss_conn x -> st_conns s' !! c = st_conns s !! c)
    /\ (forall i, i <> ss_id x -> st_byID s' !! i = st_byID s !! i)
    /\ (forall l, ss_id <$> st_sess s' !! l = ss_id <$> st_sess s !! l
                  /\ ss_conn <$> st_sess s' !! l = ss_conn <$> st_sess s !! l)
    /\ (forall q, (forall r w, In (r, w) ins -> phone_of e r <> Some q) ->
          devAt s' q = devAt s q /\ ringOf s' q = ringOf s q /\ st_params s' !! q = st_params s !! q).
Proof.
  induction ins as [|[r w] t IH]; intros s x C Hx.
  - exists false, s. split_and!; auto.
  - rewrite serveLoop_cons. destruct (cs_conn s C sl x Hx) as ((k & Hk) & _).
    destruct (serve_frame e sl r w s x k C Hx Hk) as (s1 & E & C1 & Hd & Hc & _ & Hb & Hs). rewrite E.
    assert (Hb' : forall i, i <> ss_id x -> st_byID s1 !! i = st_byID s !! i).
    { intros i Hi. rewrite Hb. destruct (goesOn _); [reflexivity|]. rewrite decide_False by exact Hi. reflexivity. }
    destruct (goesOn _); cbn [negb].
    + destruct (same_sess _ _ Hs sl x Hx) as (x1 & Hx1 & Hi & Hcx).
      destruct (IH s1 x1 C1 Hx1) as (b & s2 & E2 & C2 & Hc2 & Hb2 & Hs2 & Hd2).
      exists b, s2. split; [exact E2|]. split; [exact C2|]. split; [|split; [|split]].
      * intros c Hn. rewrite Hc2 by congruence. auto.
      * intros i Hn. rewrite Hb2 by congruence. auto.
      * intros l. destruct (Hs2 l), (Hs l). split; congruence.
      * intros q Hq. destruct (Hd2 q) as (A1 & A2 & A3); [intros; apply (Hq r0 w0); right; assumption|].
        destruct (Hd q) as (B1 & B2 & B3); [apply (Hq r w); left; reflexivity|]. split_and!; congruence.
    + exists true, s1. split_and!; auto. intros q Hq. apply Hd. apply (Hq r w). left. reflexivity.
Qed.

(** two sessions with one address: when the older one ends, the younger one is unregistered
    although its connection stays open *)
Lemma evicted e sl sl' s x x' k' w : consistent s -> st_sess s !! sl = Some x -> st_sess s !! sl' = Some x' ->
  sl <> sl' -> ss_id x = ss_id x' -> st_byID s !! ss_id x' = Some sl' -> st_conns s !! ss_conn x' = Some k' ->
  exists s', run (serveLoop e sl [(Err ErrEOF, w)]) s = (Ok true, s')
    /\ st_conns s' !! ss_conn x' = Some k' /\ st_byID s' !! ss_id x' = None.
Proof.
  intros C Hx Hx' Hn Hi Hb Hk'. destruct (cs_conn s C sl x Hx) as ((k & Hk) & _).
  destruct (serve_frame e sl (Err ErrEOF) w s x k C Hx Hk) as (s1 & E & C1 & Hd & Hc & _ & Hb1 & Hs).
  cbn in *. exists s1. split; [exact E|]. split.
  - rewrite Hc; [exact Hk'|]. intros E'. apply Hn. apply (cs_conn_inj s C sl sl' x x' Hx Hx'). congruence.
  - rewrite Hb1, decide_True by congruence. reflexivity.
Qed.

(** * Keepalive checks (C55, C56, C59) *)
Lemma tick_unknown ph s : st_byPhone s !! ph = None ->
  run (checkKeepalive ph) s = (Panic, set_jobs (base.filter (fun p => p <> ph)) s).
Proof. intros H. unfold checkKeepalive. rewrite run_bind. unfold getDeviceByPhone, rd1. cbn [run ret]. rewrite H. reflexivity. Qed.
Lemma tick_fresh ph s d : consistent s -> devAt s ph = Some d -> (st_clock s <= d_last d + d_keep d)%Z ->
  run (checkKeepalive ph) s = (Ok tt, s).
Proof.
  intros C H Ht. destruct (devAt_Some s C ph d H) as (l & Hl & Hd & Hp & Hq).
  rewrite (run_keepalive ph s l d C Hl Hd). unfold expired.
  destruct (Z.ltb_spec (d_keep d + d_last d) (st_clock s)); [lia|reflexivity].
Qed.
Lemma tick_others ph s : consistent s ->
  (forall q, q <> ph -> devAt (snd (run (checkKeepalive ph) s)) q = devAt s q
                        /\ ringOf (snd (run (checkKeepalive ph) s)) q = ringOf s q)
  /\ st_params (snd (run (checkKeepalive ph) s)) = st_params s.
Proof.
  intros C. destruct (st_byPhone s !! ph) as [l|] eqn:Hl.
  2:{ rewrite (tick_unknown ph s Hl). cbn. auto. }
  destruct (cs_phone s C _ _ Hl) as (d & Hd & Hp & Hq).
  rewrite (run_keepalive ph s l d C Hl Hd). cbn [snd]. destruct (expired s d); [|auto].
  destruct (d_status d =? Offline).
  - set (s1 := set_conns (alter (fun y => mkConn false (cn_out y)) (d_conn d)) s).
    assert (C1 : consistent s1) by exact (consistent_conn _ _ _ C (alter_conn_only _ _ _)).
    rewrite <- Hp in Hl. destruct (dropped_spec s1 d l Hl Hd) as (_ & _ & (Ho & _) & _ & (R1 & R2 & R3 & _)).
    split; [|exact R3]. intros q Hn. split.
    + rewrite <- Hp in Hn. exact (Ho q Hn).
    + unfold cleared, ringOf. cbn. rewrite lookup_delete_ne by congruence. reflexivity.
  - destruct (touch_spec s C (fun d => dset_status d Offline) ph l d Hl Hd) as (_ & _ & Ho & _).
    split; [|reflexivity]. intros q Hn. split; [apply Ho; exact Hn|reflexivity].
Qed.
(** a check only touches a device whose time is up *)
Lemma tick_due ph s q d : consistent s -> devAt s q = Some d ->
  devAt (snd (run (checkKeepalive ph) s)) q <> Some d ->
  q = ph /\ (d_last d + d_keep d < st_clock s)%Z.
Proof.
  intros C H Hn. destruct (decide (q = ph)) as [->|Hq].
  - split; [reflexivity|]. destruct (Z.lt_ge_cases (d_last d + d_keep d) (st_clock s)) as [|Hle]; [assumption|].
    exfalso. apply Hn. rewrite (tick_fresh ph s d C H Hle). exact H.
  - exfalso. apply Hn. rewrite (proj1 (proj1 (tick_others ph s C) q Hq)). exact H.
Qed.

(** the first check after the interval *)
Lemma tick_offline ph s d : consistent s -> devAt s ph = Some d -> d_status d <> Offline ->
  (d_last d + d_keep d < st_clock s)%Z ->
  exists s', run (checkKeepalive ph) s = (Ok tt, s') /\ consistent s'
    /\ devAt s' ph = Some (with_status d Offline) /\ devWithPlate s' (d_plate d) = devAt s' ph
    /\ others_kept ph (d_plate d) s s' /\ st_jobs s' = st_jobs s /\ rest_kept s s'.
Proof.
  intros C H Hs Ht. destruct (devAt_Some s C ph d H) as (l & Hl & Hd & Hp & Hq).
  rewrite (run_keepalive ph s l d C Hl Hd). unfold expired.
  destruct (Z.ltb_spec (d_keep d + d_last d) (st_clock s)); [|lia].
  destruct (N.eqb_spec (d_status d) Offline); [contradiction|].
  eexists. split; [reflexivity|].
  destruct (touch_spec s C (fun d => dset_status d Offline) ph l d Hl Hd) as (A1 & A2 & A3).
  split; [eapply touch_ok; [exact C|exact Hd|reflexivity..]|]. split; [exact A1|]. split; [exact (eq_trans A2 (eq_sym A1))|].
  split; [exact A3|]. split; [reflexivity|]. apply rest_kept_devs.
Qed.
(** the check of a device that is offline *)
Lemma tick_cleared ph s d : consistent s -> devAt s ph = Some d -> d_status d = Offline ->
  (d_last d + d_keep d < st_clock s)%Z ->
  exists s', run (checkKeepalive ph) s = (Ok tt, s') /\ consistent s'
    /\ devAt s' ph = None /\ devWithPlate s' (d_plate d) = None /\ ringOf s' ph = None
    /\ (forall k, st_conns s !! d_conn d = Some k -> st_conns s' !! d_conn d = Some (mkConn false (cn_out k)))
    /\ (forall c, c <> d_conn d -> st_conns s' !! c = st_conns s !! c)
    /\ others_kept ph (d_plate d) s s' /\ (forall q, q <> ph -> ringOf s' q = ringOf s q)
    /\ (forall q, q ∈ st_jobs s' <-> q ∈ st_jobs s /\ q <> ph)
    /\ st_sess s' = st_sess s /\ st_byID s' = st_byID s /\ st_params s' = st_params s /\ st_clock s' = st_clock s.
Proof.
  intros C H Hs Ht. destruct (devAt_Some s C ph d H) as (l & Hl & Hd & Hp & Hq).
  rewrite (run_keepalive ph s l d C Hl Hd). unfold expired.
  destruct (Z.ltb_spec (d_keep d + d_last d) (st_clock s)); [|lia].
  rewrite Hs, N.eqb_refl. eexists. split; [reflexivity|].
  set (s1 := set_conns (alter (fun y => mkConn false (cn_out y)) (d_conn d)) s).
  assert (C1 : consistent s1) by exact (consistent_conn _ _ _ C (alter_conn_only _ _ _)).
  subst ph. destruct (dropped_spec s1 d l Hl Hd) as (A1 & A2 & A3 & A4 & A5).
  split; [eapply cleared_ok; eassumption|]. split; [exact A1|]. split; [exact A2|].
  split; [unfold cleared, ringOf; cbn; rewrite lookup_delete; reflexivity|].
  split; [intros k Hk; cbn; rewrite lookup_alter, Hk; reflexivity|].
  split; [intros c Hn; cbn; rewrite lookup_alter_ne by congruence; reflexivity|].
  split; [exact A3|].
  split; [intros q Hn; unfold cleared, ringOf; cbn; rewrite lookup_delete_ne by congruence; reflexivity|].
  split; [exact A4|]. split_and!; reflexivity.
Qed.

Lemma devAt_clock t s q : devAt (set_clock t s) q = devAt s q.
Proof. reflexivity. Qed.
(** silence: offline at the first check, gone with the second, and free to register *)
Lemma silent ph s d t1 t2 : consistent s -> devAt s ph = Some d -> d_status d <> Offline ->
  (d_last d + d_keep d < t1)%Z -> (t1 <= t2)%Z ->
  exists s1 s2, run (checkKeepalive ph) (set_clock t1 s) = (Ok tt, s1)
    /\ devAt s1 ph = Some (with_status d Offline) /\ st_conns s1 = st_conns s
    /\ run (checkKeepalive ph) (set_clock t2 s1) = (Ok tt, s2) /\ consistent s2
    /\ devAt s2 ph = None /\ devWithPlate s2 (d_plate d) = None
    /\ (forall k, st_conns s !! d_conn d = Some k -> st_conns s2 !! d_conn d = Some (mkConn false (cn_out k)))
    /\ ~ ph ∈ st_jobs s2
    /\ forall e sl p r, carries e s2 p 0x0100 (B0100 r) -> h_phone (pk_hdr p) = ph -> r_plate r = d_plate d ->
         is_Some (st_sess s !! sl) ->
         exists c s3 m, run (process e sl p) s2 = (Ok (Some m), s3)
           /\ answers p 0x8100 (B8100 (h_sn (pk_hdr p)) 0 c) m /\ is_Some (devAt s3 ph).
Proof.
  intros C H Hs Ht1 Ht2. pose proof (consistent_clock t1 s C) as C1.
  destruct (tick_offline ph (set_clock t1 s) d C1 H Hs Ht1) as (s1 & E1 & K1 & D1 & _ & _ & J1 & (_ & _ & _ & _ & S1 & B1 & N1 & T1)).
  pose proof (consistent_clock t2 s1 K1) as C2.
  destruct (tick_cleared ph (set_clock t2 s1) (with_status d Offline) C2 D1 eq_refl) as
    (s2 & E2 & K2 & D2 & P2 & _ & N2 & _ & _ & _ & J2 & S2 & _).
  { cbn. lia. }
  exists s1, s2. split; [exact E1|]. split; [exact D1|]. split; [exact N1|]. split; [exact E2|]. split; [exact K2|].
  split; [exact D2|]. split; [exact P2|]. split; [|split].
  - intros k Hk. apply N2. cbn. rewrite N1. exact Hk.
  - rewrite J2. tauto.
  - intros e sl p r Hc Hph Hpl (x & Hx).
    assert (Hx2 : st_sess s2 !! sl = Some x) by (rewrite S2; cbn; rewrite S1; exact Hx).
    destruct (registration e sl s2 p r x K2 Hc Hx2) as (m & s3 & E3 & R).
    rewrite Hph, D2, Hpl in R. cbn in P2. rewrite P2 in R.
    destruct R as ((c & _ & Ha) & Hd & _). exists c, s3, m. split; [exact E3|]. split; [exact Ha|]. rewrite Hd. eauto.
Qed.

(** * Terminal parameters (C36) *)
Lemma params_set e sl s p cnt d : consistent s -> carries e s p 0x8103 (B8103 cnt (Some d)) ->
  let ph := h_phone (pk_hdr p) in
  exists m s', run (process e sl p) s = (Ok (Some m), s')
    /\ answers p 0x0001 (B0001 (h_sn (pk_hdr p)) 0x8103 0) m
    /\ s' = set_params (<[ph := match st_params s !! ph with
                                | None => d
                                | Some old => paramsUpdate old d
                                end]>) s.
Proof.
  intros C Hc ph. assert (Hd : dp_phone d = ph).
  { destruct Hc as (_ & _ & Hm). cbn [kind_of] in Hm.
    destruct (msgDecode_8103 _ _ _ _ cnt (Some d) Hm eq_refl) as (d' & [= <-] & Hd). exact Hd. }
  erewrite process_carries; [|exact Hc|reflexivity|reflexivity]. destruct Hc as (Hid & _).
  unfold handler. cbn [m_body]. rewrite run_8103. cbn [m_hdr]. fold ph.
  eexists _, _. split; [reflexivity|]. split; [cbn; unfold answers; rewrite Hid; reflexivity|].
  destruct (st_params s !! ph) as [old|] eqn:E; [|rewrite Hd; reflexivity].
  assert (dp_phone (paramsUpdate old d) = ph) as ->; [|reflexivity]. cbn. exact (cs_params s C ph old E).
Qed.
Lemma params_query e sl s p d : carries e s p 0x8104 B8104 -> st_params s !! h_phone (pk_hdr p) = Some d ->
  exists m, run (process e sl p) s = (Ok (Some m), s)
    /\ answers p 0x0104 (B0104 (h_sn (pk_hdr p)) 0 (Some d)) m.
Proof.
  intros Hc Hd. erewrite process_carries; [|exact Hc|reflexivity|reflexivity]. destruct Hc as (Hid & _).
  unfold handler. cbn [m_body]. unfold process8104. rewrite run_bind. unfold getDeviceParamsByPhone, rd1. cbn.
  rewrite Hd. eexists. split; reflexivity.
Qed.
Lemma find_sorted (l : list param) id : StronglySorted (fun a b => p_id a < p_id b) l ->
  find (fun q => p_id q =? id) (rev l) = find (fun q => p_id q =? id) l.
Proof.
  induction 1 as [|a l Hs IH Hf]; [reflexivity|]. cbn [rev find].
  assert (Hsnoc : forall (u : list param), find (fun q => p_id q =? id) (u ++ [a]) =
     match find (fun q => p_id q =? id) u with Some q => Some q | None => if p_id a =? id then Some a else None end).
  { induction u as [|b u IHu]; cbn; [reflexivity|]. destruct (p_id b =? id); [reflexivity|exact IHu]. }
  rewrite Hsnoc, IH. destruct (N.eqb_spec (p_id a) id) as [<-|Hn]; [|destruct (find _ l); reflexivity].
  destruct (find (fun q => p_id q =? p_id a) l) as [q|] eqn:E; [|reflexivity].
  apply find_some in E. destruct E as (Hin & He). apply N.eqb_eq in He.
  rewrite Forall_forall in Hf. specialize (Hf q Hin). lia.
Qed.
Lemma update_value old d id : value_of (paramsUpdate old d) id =
  match value_of old id with
  | None => None
  | Some q => match value_of d id with Some q' => Some q' | None => Some q end
  end.
Proof.
  destruct (paramsUpdate_spec old d) as (_ & _ & Hs & Hf). unfold value_of, last_with at 1.
  rewrite find_sorted by exact Hs. apply Hf.
Qed.

(** * Authentication codes (C46) *)
Definition str_T : str := [84].
Definition plate_a : str := [65; 55; 51; 52; 57; 57].          (* "A73499" *)
Definition plate_b : str := [65; 49; 48; 51; 56; 57].          (* "A10389" *)
Definition phone_a : str := [48; 49; 51; 48; 53; 56; 50; 55; 49; 49; 56; 57].  (* "013058271189" *)
Definition phone_b : str := [48; 49; 51; 49; 49; 57; 57; 50; 50; 55; 48; 51].  (* "013119922703" *)
Lemma collision c : is_code str_T plate_a phone_a c <-> is_code str_T plate_b phone_b c.
Proof.
  unfold is_code.
  assert (fnv1a 0x811c9dc5 (str_T ++ [95] ++ plate_a ++ [95] ++ phone_a)
        = fnv1a 0x811c9dc5 (str_T ++ [95] ++ plate_b ++ [95] ++ phone_b)) as ->; [vm_compute|]; reflexivity.
Qed.
Lemma separator x y z ph c : is_code (x ++ [95] ++ y) z ph c <-> is_code x (y ++ [95] ++ z) ph c.
Proof. unfold is_code. rewrite <- !app_assoc. reflexivity. Qed.
Lemma is_code_ex id pl ph : exists c, is_code id pl ph c.
Proof.
  eexists. unfold is_code. apply itoa_decimal.
  eapply N.lt_trans; [apply fnv1a_bound|]; reflexivity.
Qed.
Lemma is_code_fun id pl ph c c' : is_code id pl ph c -> is_code id pl ph c' -> c = c'.
Proof.
  pose (d := mkDevice id pl ph [] O 0 0 0 V2013 0 [] [] []).
  intros H H'. apply (code_iff d) in H. apply (code_iff d) in H'. congruence.
Qed.
Lemma codes_equal id pl ph c id' pl' ph' c' : is_code id pl ph c -> is_code id' pl' ph' c' ->
  (c = c' <-> fnv1a 0x811c9dc5 (id ++ [95] ++ pl ++ [95] ++ ph) = fnv1a 0x811c9dc5 (id' ++ [95] ++ pl' ++ [95] ++ ph')).
Proof.
  intros H H'. split; intros E.
  - subst c'. destruct H as (_ & _ & _ & H), H' as (_ & _ & _ & H'). congruence.
  - unfold is_code in H'. rewrite <- E in H'. exact (is_code_fun id pl ph c c' H H').
Qed.
(** registering two devices one after the other *)
Lemma two_registered e sl s x p r p' r' : consistent s -> st_sess s !! sl = Some x ->
  carries e s p 0x0100 (B0100 r) -> carries e s p' 0x0100 (B0100 r') ->
  h_phone (pk_hdr p) <> h_phone (pk_hdr p') -> r_plate r <> r_plate r' ->
  devAt s (h_phone (pk_hdr p)) = None -> devAt s (h_phone (pk_hdr p')) = None ->
  devWithPlate s (r_plate r) = None -> devWithPlate s (r_plate r') = None ->
  exists c c' m m' s1 s2 d d',
    run (process e sl p) s = (Ok (Some m), s1) /\ answers p 0x8100 (B8100 (h_sn (pk_hdr p)) 0 c) m
    /\ run (process e sl p') s1 = (Ok (Some m'), s2) /\ answers p' 0x8100 (B8100 (h_sn (pk_hdr p')) 0 c') m'
    /\ consistent s2
    /\ is_code (r_devid r) (r_plate r) (h_phone (pk_hdr p)) c
    /\ is_code (r_devid r') (r_plate r') (h_phone (pk_hdr p')) c'
    /\ devAt s2 (h_phone (pk_hdr p)) = Some d /\ devAt s2 (h_phone (pk_hdr p')) = Some d'
    /\ d_id d = r_devid r /\ d_plate d = r_plate r /\ d_id d' = r_devid r' /\ d_plate d' = r_plate r'.
Proof.
  intros C Hx Hc Hc' Hp Hq D1 D2 P1 P2.
  destruct (registration e sl s p r x C Hc Hx) as (m & s1 & E & R). rewrite D1, P1 in R.
  destruct R as ((c & Hcode & Ha) & Hd & _ & (O1 & O2) & _ & RK & C1).
  assert (Hx1 : st_sess s1 !! sl = Some x) by (destruct RK as (_ & _ & _ & _ & -> & _); exact Hx).
  assert (Hc1 : carries e s1 p' 0x0100 (B0100 r')).
  { unfold carries in *. destruct RK as (_ & _ & _ & _ & _ & _ & _ & ->). exact Hc'. }
  destruct (registration e sl s1 p' r' x C1 Hc1 Hx1) as (m' & s2 & E' & R).
  rewrite O1, O2, D2, P2 in R by congruence.
  destruct R as ((c' & Hcode' & Ha') & Hd' & _ & (O1' & O2') & _ & _ & C2).
  do 8 eexists. split; [exact E|]. split; [exact Ha|]. split; [exact E'|]. split; [exact Ha'|].
  split; [exact C2|]. split; [exact Hcode|]. split; [exact Hcode'|].
  split; [rewrite O1' by congruence; exact Hd|]. split; [exact Hd'|]. auto.
Qed.

(** * Fragments (C60) *)
Lemma run_decodeP_frag e frm s p f : decodePacket (e_o e) frm = Ok p -> isFragmented (pk_hdr p) = true ->
  h_frag (pk_hdr p) = Some f ->
  let key := segKey (h_phone (pk_hdr p)) (h_id (pk_hdr p)) in
  let x := mkSeg (h_phone (pk_hdr p)) (h_id (pk_hdr p)) (f_total f) (f_index f) (sl_data (pk_body p)) in
  run (decodeP e frm) s =
  match st_segs s !! key with
  | None => (Panic, set_segs (<[key := x]>) s)
  | Some y => (Ok (mkPacket (pk_hdr p) (pk_body p) (pk_code p) (segComplete (segMerge y x))),
               set_segs (<[key := segMerge y x]>) s)
  end.
Proof.
  intros Hd Hf Hg key x. unfold decodeP. rewrite run_bind. cbn [lift run]. rewrite Hd, Hf, Hg. rewrite run_bind.
  unfold cacheSegment. cbn [run sg_phone sg_id]. fold key. fold x.
  destruct (st_segs s !! key) as [y|]; reflexivity.
Qed.
(** the first fragment of a message ends the connection *)
Lemma first_fragment e sl s x k frm p f w : consistent s -> st_sess s !! sl = Some x ->
  st_conns s !! ss_conn x = Some k -> decodePacket (e_o e) frm = Ok p -> isFragmented (pk_hdr p) = true ->
  h_frag (pk_hdr p) = Some f -> st_segs s !! segKey (h_phone (pk_hdr p)) (h_id (pk_hdr p)) = None ->
  exists s', run (serveLoop e sl [(Ok frm, w)]) s = (Ok true, s')
    /\ st_conns s' !! ss_conn x = Some (mkConn false (cn_out k)) /\ st_byID s' !! ss_id x = None.
Proof.
  intros C Hx Hk Hd Hf Hg Hs.
  assert (Ho : fst (frameOut e sl (Ok frm) s) = Panic).
  { unfold frameOut. rewrite run_bind. cbn [lift run]. rewrite run_bind, (run_decodeP_frag e frm s p f Hd Hf Hg), Hs. reflexivity. }
  destruct (serve_frame e sl (Ok frm) w s x k C Hx Hk) as (s1 & E & _ & _ & _ & Hc & Hb & _).
  rewrite Ho in *. cbn in *. rewrite app_nil_r in Hc. exists s1. split; [exact E|]. split; [exact Hc|].
  rewrite Hb, decide_True by reflexivity. reflexivity.
Qed.
(** the last fragment is processed with its own body only *)
Lemma last_fragment e sl s frm p f y : decodePacket (e_o e) frm = Ok p -> isFragmented (pk_hdr p) = true ->
  h_frag (pk_hdr p) = Some f -> st_segs s !! segKey (h_phone (pk_hdr p)) (h_id (pk_hdr p)) = Some y ->
  sg_total y = f_index f ->
  frameOut e sl (Ok frm) s =
  run (process e sl (mkPacket (pk_hdr p) (pk_body p) (pk_code p) true))
      (set_segs (<[segKey (h_phone (pk_hdr p)) (h_id (pk_hdr p)) :=
                   mkSeg (sg_phone y) (sg_id y) (sg_total y) (f_index f) (sg_data y ++ sl_data (pk_body p))]>) s).
Proof.
  intros Hd Hf Hg Hs Ht. unfold frameOut. rewrite run_bind. cbn [lift run].
  rewrite run_bind, (run_decodeP_frag e frm s p f Hd Hf Hg), Hs.
  unfold segComplete, segMerge. cbn. rewrite <- Ht, N.eqb_refl. reflexivity.
Qed.
(** the cache itself concatenates *)
Fixpoint cacheAll (xs : list segment) (s : st) : st :=
  match xs with [] => s | x :: t => cacheAll t (snd (run (cacheSegment x) s)) end.
Lemma split47 (a b a' b' : bytes) : ~ In 47 a -> ~ In 47 a' -> a ++ 47 :: b = a' ++ 47 :: b' -> a = a' /\ b = b'.
Proof.
  revert a'. induction a as [|x a IH]; intros [|y a'] Ha Ha' E; cbn in E.
  - injection E as ->. auto.
  - injection E as <- _. destruct Ha'. left. reflexivity.
  - injection E as -> _. destruct Ha. left. reflexivity.
  - injection E as -> E. destruct (IH a') as (-> & ->); [|intros ?; apply Ha'; right; assumption|exact E|auto].
    intros ?. apply Ha. right. assumption.
Qed.
Lemma utf8_inj r r' : r < 65536 -> r' < 65536 -> ~ surrogate r -> ~ surrogate r' -> utf8 r = utf8 r' -> r = r'.
Proof.
  unfold surrogate, utf8. intros H H' Hs Hs' E.
  assert (Hf : forall x, ~ (0xd800 <= x <= 0xdfff) -> (0xd800 <=? x) && (x <=? 0xdfff) = false).
  { intros x Hx. apply andb_false_iff. destruct (N.leb_spec 0xd800 x), (N.leb_spec x 0xdfff); auto. lia. }
  rewrite (Hf r Hs), (Hf r' Hs') in E.
  destruct (N.ltb_spec r 0x80), (N.ltb_spec r' 0x80); try (destruct (N.ltb_spec r 0x800)); try (destruct (N.ltb_spec r' 0x800));
    try discriminate E; try (injection E; auto; fail).
  - pose proof (f_equal (fun l => List.nth 0 l 0) E) as E1. pose proof (f_equal (fun l => List.nth 1 l 0) E) as E2.
    cbn [List.nth] in E1, E2. apply N.add_cancel_l in E1, E2.
    rewrite (N.div_mod r 64), (N.div_mod r' 64) by lia. congruence.
  - pose proof (f_equal (fun l => List.nth 0 l 0) E) as E1. pose proof (f_equal (fun l => List.nth 1 l 0) E) as E2.
    pose proof (f_equal (fun l => List.nth 2 l 0) E) as E3. cbn [List.nth] in E1, E2, E3.
    apply N.add_cancel_l in E1, E2, E3.
    rewrite (N.div_mod r 64), (N.div_mod r' 64), (N.div_mod (r / 64) 64), (N.div_mod (r' / 64) 64) by lia.
    rewrite !N.div_div by lia. change (64 * 64) with 4096. congruence.
Qed.
Lemma segKey_inj ph id ph' id' : plain_key ph id -> plain_key ph' id' -> segKey ph id = segKey ph' id' ->
  ph = ph' /\ id = id'.
Proof.
  intros (H1 & H2 & H3) (H1' & H2' & H3') E.
  assert (Hn : forall l : str, Forall (fun b => 48 <= b <= 57) l -> ~ In 47 l).
  { intros l Hl Hi. rewrite List.Forall_forall in Hl. apply Hl in Hi. lia. }
  apply split47 in E as (-> & E); [|apply Hn; assumption|apply Hn; assumption].
  split; [reflexivity|]. apply utf8_inj; assumption.
Qed.
Lemma cacheAll_gen ph id xs : forall s, plain_key ph id -> Forall (fun x => plain_key (sg_phone x) (sg_id x)) xs ->
  option_map sg_data (st_segs (cacheAll xs s) !! segKey ph id)
  = match st_segs s !! segKey ph id, List.filter (of_message ph id) xs with
    | None, [] => None
    | None, own => Some (concat (List.map sg_data own))
    | Some y, own => Some (sg_data y ++ concat (List.map sg_data own))
    end.
Proof.
  induction xs as [|x xs IH]; intros s Hk Hf; cbn [cacheAll List.filter].
  - destruct (st_segs s !! _); [|reflexivity]. cbn. rewrite app_nil_r. reflexivity.
  - apply Forall_cons_iff in Hf as (Hx & Hf). rewrite IH by assumption. unfold cacheSegment. cbn [run].
    destruct (of_message ph id x) eqn:Hm; unfold of_message in Hm.
    + apply bool_decide_eq_true in Hm. destruct Hm as (-> & ->). destruct (st_segs s !! segKey ph id) as [y|]; cbn [run ret panic snd set_segs st_segs].
      * rewrite lookup_insert. cbn [List.map concat segMerge sg_data]. rewrite app_assoc. reflexivity.
      * rewrite lookup_insert. reflexivity.
    + apply bool_decide_eq_false in Hm. assert (Hne : segKey (sg_phone x) (sg_id x) <> segKey ph id).
      { intros E. apply segKey_inj in E; [|assumption|assumption]. apply Hm. exact E. }
      destruct (st_segs s !! segKey (sg_phone x) (sg_id x)); cbn [run ret panic snd set_segs st_segs];
        rewrite lookup_insert_ne by exact Hne; reflexivity.
Qed.
Lemma cacheAll_concat ph id xs s : st_segs s !! segKey ph id = None -> plain_key ph id ->
  Forall (fun x => plain_key (sg_phone x) (sg_id x)) xs ->
  option_map sg_data (st_segs (cacheAll xs s) !! segKey ph id)
  = match List.filter (of_message ph id) xs with [] => None | own => Some (concat (List.map sg_data own)) end.
Proof. intros Hs Hk Hf. rewrite cacheAll_gen by assumption. rewrite Hs. reflexivity. Qed.
(** two ids among the surrogates share a key *)
Lemma surrogates_collide ph id id' : surrogate id -> surrogate id' -> segKey ph id = segKey ph id'.
Proof.
  intros H H'. assert (Hs : forall x, surrogate x -> utf8 x = [0xef; 0xbf; 0xbd]).
  { unfold surrogate, utf8. intros x Hx. destruct (N.ltb_spec x 0x80); [lia|]. destruct (N.ltb_spec x 0x800); [lia|].
    destruct (N.leb_spec 0xd800 x); [|lia]. destruct (N.leb_spec x 0xdfff); [reflexivity|lia]. }
  unfold segKey. rewrite (Hs id H), (Hs id' H'). reflexivity.
Qed.
Lemma mixed_fragments s x x' : sg_phone x = sg_phone x' -> surrogate (sg_id x) -> surrogate (sg_id x') ->
  st_segs s !! segKey (sg_phone x) (sg_id x) = None ->
  option_map sg_data (st_segs (cacheAll [x; x'] s) !! segKey (sg_phone x) (sg_id x)) = Some (sg_data x ++ sg_data x').
Proof.
  intros Hp H H' Hs. cbn [cacheAll]. unfold cacheSegment. cbn [run]. rewrite Hs. cbn [run panic snd set_segs st_segs].
  rewrite <- Hp, <- (surrogates_collide (sg_phone x) (sg_id x) (sg_id x') H H'). rewrite lookup_insert.
  cbn [run ret snd set_segs st_segs]. rewrite lookup_insert. reflexivity.
Qed.
