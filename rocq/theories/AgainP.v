(** What does hold of claims that fail: checks, clearing, authentication, locations (C79, C80, C84, C102) *)
From stdpp Require Import gmap.
From Verif Require Import Base HexM TimeM HashM HeaderM ParamsM GeoM MsgM PacketM FrameM ProgM RingM SpecRing StateM ProcM ServerM ConcM
  SpecCodec SpecState SpecConc SpecReg SpecTimely ProgP StateP ProcP ServerP EffectP CmdP RegP LifeP ConcP TimelyP.
Local Open Scope N_scope.

(** a check closes a connection exactly when it removes the device, and then the device's *)
Theorem closes_cleared ph s d : consistent s -> devAt s ph = Some d ->
  exists s', run (checkKeepalive ph) s = (Ok tt, s')
    /\ (is_Some (devAt s' ph) -> st_conns s' = st_conns s)
    /\ (devAt s' ph = None -> forall k, st_conns s !! d_conn d = Some k -> st_conns s' !! d_conn d = Some (mkConn false (cn_out k)))
    /\ (forall c, c <> d_conn d -> st_conns s' !! c = st_conns s !! c).
Proof.
  intros C Hd. destruct (Z.lt_ge_cases (d_last d + d_keep d) (st_clock s)) as [Ht|Ht].
  - destruct (decide (d_status d = Offline)) as [Ho|Ho].
    + destruct (tick_cleared ph s d C Hd Ho Ht) as (s' & E & _ & E1 & _ & _ & E2 & E3 & _). exists s'. split_and!; auto.
      intros (d' & H). congruence.
    + destruct (tick_offline ph s d C Hd Ho Ht) as (s' & E & _ & E1 & _ & _ & _ & E2). destruct E2 as (_ & _ & _ & _ & _ & _ & E2 & _).
      exists s'. split_and!; [exact E|auto|congruence|]. intros. rewrite E2. reflexivity.
  - exists s. split_and!; [apply (tick_fresh _ _ d); assumption|auto|congruence|auto].
Qed.
(** a check leaves a device registered, with its locations, unless it finds it offline and silent
    for longer than the keepalive interval *)
Theorem kept_once ph s d : consistent s -> devAt s ph = Some d -> ~ (d_status d = Offline /\ (d_last d + d_keep d < st_clock s)%Z) ->
  exists s' d', run (checkKeepalive ph) s = (Ok tt, s') /\ devAt s' ph = Some d' /\ same_identity d d' /\ d_last d' = d_last d
    /\ ringOf s' ph = ringOf s ph /\ st_jobs s' = st_jobs s.
Proof.
  intros C Hd Hn. destruct (Z.lt_ge_cases (d_last d + d_keep d) (st_clock s)) as [Ht|Ht].
  - destruct (decide (d_status d = Offline)) as [Ho|Ho]; [tauto|].
    destruct (tick_offline ph s d C Hd Ho Ht) as (s' & E & _ & E1 & _ & _ & E3 & E2). destruct E2 as (E4 & E5 & _).
    exists s', (with_status d Offline). split_and!; auto; try (repeat split; reflexivity). unfold ringOf. rewrite E4, E5. reflexivity.
  - exists s, d. split_and!; auto; [apply (tick_fresh _ _ d); assumption|repeat split; reflexivity].
Qed.

(** locations are stored for registered devices only *)
Lemma handle_reported dflt addr c t now h b pl ph : pf_dev pl !! ph = None ->
  reported (fst (handle dflt addr c t now h b pl)) ph = reported pl ph.
Proof.
  intros Hn. unfold handle. destruct b; try reflexivity.
  all: repeat match goal with
    | |- context [bool_decide ?x] => destruct (bool_decide x)
    | |- context [match ?x with _ => _ end] => let H := fresh in destruct x eqn:H
    end; try reflexivity.
  all: cbn [fst]; unfold append, reported; cbn [pf_loc enter]; rewrite lookup_insert_ne; [reflexivity|intros E; congruence].
Qed.
Theorem only_registered e now evs ev ph : let w := history e now evs in let pl := follow e (world0 now) evs no_data in
  devAt (w_st w) ph = None -> track (w_st w) ph (reported pl ph) /\ track (w_st (step e w ev)) ph (reported pl ph).
Proof.
  intros w pl Hd. pose proof (history_ok e now evs) as W. fold w in W. pose proof (refinement e now evs) as R. fold w pl in R.
  pose proof (step_shows e w ev _ W R) as R'. destruct (R ph) as (R1 & T & _). destruct (R' ph) as (_ & T' & _). split; [exact T|].
  rewrite Hd in R1. assert (E : reported (advance e w ev pl) ph = reported pl ph); [|rewrite <- E; exact T'].
  destruct ev as [c addr|sl [frm|er|] x|p| |p|p x|p bad ps x|t]; cbn [advance]; try reflexivity.
  - case_bool_decide as Hl; [|reflexivity]. destruct (st_sess (w_st w) !! sl) as [y|]; [|reflexivity].
    destruct (received e (w_st w) frm) as [[h b]|]; [|reflexivity]. apply handle_reported. symmetry. exact R1.
  - unfold check. destruct (pf_dev pl !! p) as [d|] eqn:Ed; [|reflexivity]. destruct (_ <=? _)%Z; [reflexivity|].
    destruct (_ =? _); [|reflexivity]. unfold reported, forget, strike. cbn. rewrite lookup_delete_ne by congruence. reflexivity.
Qed.

(** a device that has authenticated is not removed by what begins after that, within the keepalive interval *)
Theorem authentication_protects e sl s p al code imei sw d : consistent s -> sane s -> is_Some (st_sess s !! sl) ->
  carries e s p 0x0102 (B0102 al code imei sw) -> let ph := h_phone (pk_hdr p) in
  devAt s ph = Some d -> is_code (d_id d) (d_plate d) ph code -> (0 <= d_keep d)%Z ->
  exists res s1 d1, run (process e sl p) s = (Ok (Some res), s1)
    /\ devAt s1 ph = Some d1 /\ same_identity d d1 /\ d_status d1 = Online /\ d_last d1 = st_clock s1
    /\ forall gs sch, (forall g, In g gs -> placed s1 g /\ harmless e ph d1 g) ->
         exists d2, devAt (snd (running e gs s1 sch)) ph = Some d2 /\ same_identity d d2 /\ d_status d2 <> Offline.
Proof.
  intros C Hs Hx Hc ph Hd Hk Hp.
  destruct (authentication e sl s p al code imei sw d C Hc Hd) as (res & s1 & E & C1 & _ & Hr & Hyes & _).
  assert (Eph : d_phone d = ph) by (destruct (devAt_Some s C ph d Hd) as (l & _ & _ & H & _); exact H).
  rewrite Eph in Hyes. destruct (Hyes Hk) as (_ & D1 & _). clear Hyes. fold ph in D1.
  assert (S1 : sane s1).
  { pose proof (run_sane (process e sl p) s Hs) as H. rewrite E in H. apply H. apply sf_process; [exact Hs|exact Hx|discriminate]. }
  assert (Ec : st_clock s1 = st_clock s) by (unfold rest_kept in Hr; tauto).
  eexists res, s1, _. split; [exact E|]. split; [exact D1|]. split; [|split; [reflexivity|split; [symmetry; exact Ec|]]].
  { repeat split; cbn; auto. }
  intros gs sch Hg. destruct (timely_survives e gs s1 ph _ sch S1 D1) as ((d2 & H2 & I2 & O2 & _) & _); [discriminate| |exact Hg|].
  - unfold within. cbn. rewrite Ec. lia.
  - exists d2. split; [exact H2|]. split; [|exact O2]. unfold same_identity in *. cbn in I2. rewrite Eph. exact I2.
Qed.
