(** Devices and keepalive jobs when goroutines interleave *)
From stdpp Require Import gmap.
From Verif Require Import Base HexM TimeM HeaderM ParamsM GeoM MsgM PacketM FrameM ProgM ProgP RingM RingP
  StateM ProcM ServerM ConcM SpecState SpecConc SpecCodec StateP ProcP ServerP EffectP ReplyP CmdP RaceP InterP LinkP
  OriginP ConcP IsoP SoloP Solo2P SpecJobs.
Local Open Scope N_scope.

Lemma watched_consistent q s : consistent s -> watched q s.
Proof.
  intros C. destruct (jobs_match s C) as (N & J). specialize (J q). unfold watched, jobs_of.
  assert (F : forall l : list str, base.NoDup l -> base.filter (fun p => p = q) l = if decide (q ∈ l) then [q] else []).
  { clear. intros l. induction 1 as [|x l Hx _ IH]; [reflexivity|]. rewrite filter_cons.
    destruct (decide (x = q)) as [-> |Hn].
    - rewrite IH. rewrite decide_False by exact Hx. rewrite decide_True by left. reflexivity.
    - rewrite IH. destruct (decide (q ∈ l)) as [H|H].
      + rewrite decide_True by (right; exact H). reflexivity.
      + rewrite decide_False by (rewrite elem_of_cons; intros [E|E]; congruence). reflexivity. }
  rewrite F by exact N. destruct (decide (q ∈ st_jobs s)) as [H|H].
  - apply J in H as (d & ->). reflexivity.
  - destruct (devAt s q); [|reflexivity]. exfalso. apply H, J. eauto.
Qed.
Lemma watched_untouched q s s' : untouched q s s' -> watched q s -> watched q s'.
Proof. intros (H1 & _ & _ & H4). unfold watched, jobs_of. rewrite H1, H4. tauto. Qed.

Section Alone.
Context (e : env) (q : str) (gs : list goroutine) (s : st) (C : consistent s) (Hs : sane s).
Context (Hpl : Forall (placed s) gs) (Hav : Forall (avoids e q) gs) (Ht : Forall timeless gs).
Lemma rings_own : own_rings s.
Proof. intros p p' l. apply (cs_geo_inj s C). Qed.
End Alone.

Lemma watched_message e sl p gs s sch r : let q := h_phone (pk_hdr p) in
  h_id (pk_hdr p) <> 0x0100 -> (fragment (pk_hdr p) = true -> pk_segdone p = true) ->
  consistent s -> sane s -> is_Some (st_sess s !! sl) ->
  Forall (placed s) gs -> Forall (avoids e q) gs -> Forall timeless gs ->
  nth_error (fst (beside e (process e sl p) gs s sch)) 0 = Some (Ret r) ->
  watched q (snd (beside e (process e sl p) gs s sch)).
Proof.
  intros q Hid Hf C Hs (x & Hx) Hpl Hav Ht Hr.
  destruct (handler_alone e sl p Hid Hf gs s sch r Hs (rings_own s C) Hpl Hav Ht Hr) as (_ & U).
  eapply watched_untouched; [exact U|]. apply watched_consistent.
  eapply kp_ok. eapply kept_process; eauto.
Qed.
Lemma watched_registration e sl p w gs s sch r : let q := h_phone (pk_hdr p) in
  h_id (pk_hdr p) = 0x0100 -> (fragment (pk_hdr p) = true -> pk_segdone p = true) ->
  (forall now m r, msgDecode (e_o e) now K0100 p = Ok m -> m_body m = B0100 r -> r_plate r = w) ->
  consistent s -> sane s -> is_Some (st_sess s !! sl) -> plate_spare q w s ->
  Forall (placed s) gs -> Forall (avoids e q) gs -> Forall (avoids_plate e w) gs -> Forall timeless gs ->
  nth_error (fst (beside e (process e sl p) gs s sch)) 0 = Some (Ret r) ->
  watched q (snd (beside e (process e sl p) gs s sch)).
Proof.
  intros q Hid Hf Hw C Hs Hsl Hsp Hpl Hav Hap Ht Hr.
  destruct (registration_alone e sl p w Hid Hf Hw gs s sch r Hs (rings_own s C) Hsp Hsl Hpl Hav Hap Ht Hr) as (_ & U & _).
  destruct Hsl as (x & Hx).
  eapply watched_untouched; [exact U|]. apply watched_consistent.
  eapply kp_ok. eapply kept_process; eauto.
Qed.
Lemma watched_check e q gs s sch r : q ∈ st_jobs s -> consistent s -> sane s ->
  Forall (placed s) gs -> Forall (avoids e q) gs -> Forall timeless gs ->
  nth_error (fst (beside e (checkKeepalive q) gs s sch)) 0 = Some (Ret r) ->
  r = Ok (Some tt) /\ watched q (snd (beside e (checkKeepalive q) gs s sch)).
Proof.
  intros Hq C Hs Hpl Hav Ht Hr.
  destruct (tick_alone e q gs s sch r Hs (rings_own s C) Hpl Hav Ht Hr) as (E & U).
  destruct (keepalive_ok q s C Hq) as (K & K' & _). rewrite K in E. split; [exact E|].
  eapply watched_untouched; [exact U|]. apply watched_consistent. exact K'.
Qed.

(** * A logout between the look-up of the device and the adding of its job *)
(** the device is stored, its job not yet added *)
Definition stored (s : st) (d : device) : st :=
  let l := fresh (dom (st_devs s)) in set_index (<[d_plate d := l]>) (<[d_phone d := l]>) (set_devs (<[l := d]>) s).
Lemma run_0003_any inc out s l d : st_byPhone s !! h_phone (m_hdr inc) = Some l -> st_devs s !! l = Some d ->
  d_phone d = h_phone (m_hdr inc) -> run (process0003 inc out) s = (Ok out, dropped s d).
Proof. intros H H1 Hp. cbn. rewrite H. cbn. rewrite H1. cbn. rewrite Hp, H, H1. unfold dropped. rewrite Hp. reflexivity. Qed.
Lemma orphan e sl sl' s x p r p' : consistent s -> st_sess s !! sl = Some x ->
  carries e s p 0x0100 (B0100 r) -> carries e s p' 0x0003 B0003 -> h_phone (pk_hdr p') = h_phone (pk_hdr p) ->
  devWithPlate s (r_plate r) = None -> devAt s (h_phone (pk_hdr p)) = None ->
  exists sch m m' s' c, psteps [process e sl p; process e sl' p'] s sch = ([Ret (Ok (Some m)); Ret (Ok (Some m'))], s')
    /\ answers p 0x8100 (B8100 (h_sn (pk_hdr p)) 0 c) m
    /\ answers p' 0x8001 (B8001 (h_sn (pk_hdr p')) 0x0003 0) m'
    /\ devAt s' (h_phone (pk_hdr p)) = None /\ jobs_of (h_phone (pk_hdr p)) s' = [h_phone (pk_hdr p)]
    /\ fst (run (checkKeepalive (h_phone (pk_hdr p))) s') = Panic.
Proof.
  intros C Hx Hc Hc' Hph Hq Hd. set (ph := h_phone (pk_hdr p)) in *.
  assert (W := watched_consistent ph s C). unfold watched in W. rewrite Hd in W.
  destruct (moves_0100 e sl s p r C Hc Hq Hd) as (h & sn & c & k & M & A).
  set (d := newDevice (pk_hdr p) r x (st_clock s)).
  set (l := fresh (dom (st_devs s))).
  set (out := mkMsg h (B8100 sn 0 (genAuthCode d))).
  assert (M1 : moves (pbind (regTail sl (mkMsg (pk_hdr p) (B0100 r)) r (mkMsg h (B8100 sn c k))) (fun o => ret (Some o))) s
    (pbind (timerAdd ph ;;; ret out)%prog (fun o => ret (Some o))) (stored s d)).
  { apply moves_bind. unfold regTail.
    eapply moves_trans; [apply (moves_seq (readSess sl) _ s x s); cbn; rewrite Hx; reflexivity|].
    eapply moves_trans; [apply (moves_seq getNow _ s (st_clock s) s); reflexivity|].
    cbv beta zeta. cbn [m_hdr]. fold d.
    eapply moves_trans; [apply (moves_seq (allocDev d) _ s l (set_devs (<[l := d]>) s)); reflexivity|].
    eapply moves_trans; [apply (moves_seq (cacheDevice l) _ _ tt (stored s d)); cbn; rewrite lookup_insert; reflexivity|].
    cbv beta. apply moves_bind. unfold timerRegister.
    eapply moves_trans; [apply (moves_seq (getDeviceByPhone (d_phone d)) _ _ (Some l) (stored s d)); cbn; rewrite lookup_insert; reflexivity|].
    cbv beta iota. apply mv_refl. }
  set (s2 := dropped (stored s d) d).
  assert (R : exists m', run (process e sl' p') (stored s d) = (Ok (Some m'), s2)
     /\ answers p' 0x8001 (B8001 (h_sn (pk_hdr p')) 0x0003 0) m').
  { assert (Hc1 : carries e (stored s d) p' 0x0003 B0003) by exact Hc'.
    erewrite process_carries; [|exact Hc1|reflexivity|reflexivity]. unfold handler. cbn [m_body].
    destruct Hc' as (Hid & _).
    erewrite (run_0003_any _ _ (stored s d) l d); cbn [m_hdr]; [|rewrite Hph; apply lookup_insert|apply lookup_insert|symmetry; exact Hph].
    eexists. split; [reflexivity|]. unfold answers. rewrite <- Hid. reflexivity. }
  destruct R as (m' & R & A').
  set (s3 := set_jobs (fun js => js ++ [ph]) s2).
  assert (T : run (pbind (timerAdd ph ;;; ret out)%prog (fun o => ret (Some o))) s2 = (Ok (Some out), s3)) by reflexivity.
  assert (S : exists sch, psteps [process e sl p; process e sl' p'] s sch = ([Ret (Ok (Some out)); Ret (Ok (Some m'))], s3)).
  { eapply psteps_then; [apply reach_0; exact (moves_trans _ _ _ _ _ _ M M1)|].
    eapply psteps_then; [apply reach_1; apply moves_done; exact R|]. apply reach_0. apply moves_done. exact T. }
  destruct S as (sch & S). exists sch, out, m', s3, (genAuthCode d).
  assert (N : st_byPhone s3 !! ph = None) by (cbn; apply lookup_delete).
  split; [exact S|]. split; [apply A|]. split; [exact A'|]. split; [unfold devAt; rewrite N; reflexivity|].
  split; [|rewrite (tick_unknown _ _ N); reflexivity].
  unfold jobs_of. change (st_jobs s3) with (base.filter (fun p => p <> ph) (st_jobs s) ++ [ph]).
  rewrite list.filter_app, filter_cons_True by reflexivity.
  replace (base.filter (fun p => p = ph) (base.filter (fun p => p <> ph) (st_jobs s))) with (@nil str); [reflexivity|].
  generalize (st_jobs s). intros js. induction js as [|j js IH]; [reflexivity|].
  rewrite filter_cons. destruct (decide (j <> ph)) as [H|H]; [|exact IH]. rewrite filter_cons_False; assumption.
Qed.

(** * Two registrations of one phone *)
Lemma twice e sl sl' s x x' p r p' r' : consistent s ->
  st_sess s !! sl = Some x -> st_sess s !! sl' = Some x' ->
  carries e s p 0x0100 (B0100 r) -> carries e s p' 0x0100 (B0100 r') -> h_phone (pk_hdr p') = h_phone (pk_hdr p) ->
  devWithPlate s (r_plate r) = None -> devWithPlate s (r_plate r') = None -> devAt s (h_phone (pk_hdr p)) = None ->
  exists sch m m' s' c c', psteps [process e sl p; process e sl' p'] s sch = ([Ret (Ok (Some m)); Ret (Ok (Some m'))], s')
    /\ answers p 0x8100 (B8100 (h_sn (pk_hdr p)) 0 c) m /\ answers p' 0x8100 (B8100 (h_sn (pk_hdr p')) 0 c') m'
    /\ is_Some (devAt s' (h_phone (pk_hdr p)))
    /\ jobs_of (h_phone (pk_hdr p)) s' = [h_phone (pk_hdr p); h_phone (pk_hdr p)].
Proof.
  intros C Hx Hx' Hc Hc' Hph Hq Hq' Hp.
  assert (W := watched_consistent (h_phone (pk_hdr p)) s C). unfold watched in W. rewrite Hp in W.
  destruct (moves_0100 e sl s p r C Hc Hq Hp) as (h & sn & c0 & k0 & M & A).
  assert (Hp' := Hp). rewrite <- Hph in Hp'.
  destruct (moves_0100 e sl' s p' r' C Hc' Hq' Hp') as (h' & sn' & c0' & k0' & M' & A').
  set (d := newDevice (pk_hdr p) r x (st_clock s)).
  set (d' := newDevice (pk_hdr p') r' x' (st_clock s)).
  assert (T : run (pbind (regTail sl (mkMsg (pk_hdr p) (B0100 r)) r (mkMsg h (B8100 sn c0 k0))) (fun o => ret (Some o))) s
              = (Ok (Some (mkMsg h (B8100 sn 0 (genAuthCode d)))), added s d)).
  { rewrite run_bind, (run_regTail _ _ _ _ _ _ _ s x Hx). reflexivity. }
  assert (T' : run (pbind (regTail sl' (mkMsg (pk_hdr p') (B0100 r')) r' (mkMsg h' (B8100 sn' c0' k0'))) (fun o => ret (Some o))) (added s d)
              = (Ok (Some (mkMsg h' (B8100 sn' 0 (genAuthCode d')))), added (added s d) d')).
  { rewrite run_bind, (run_regTail _ _ _ _ _ _ _ (added s d) x' Hx'). reflexivity. }
  assert (S : exists sch, psteps [process e sl p; process e sl' p'] s sch
    = ([Ret (Ok (Some (mkMsg h (B8100 sn 0 (genAuthCode d))))); Ret (Ok (Some (mkMsg h' (B8100 sn' 0 (genAuthCode d')))))],
       added (added s d) d')).
  { eapply psteps_then; [apply reach_0; exact M|]. eapply psteps_then; [apply reach_1; exact M'|].
    eapply psteps_then; [apply reach_0; apply moves_done; exact T|]. apply reach_1. apply moves_done. exact T'. }
  destruct S as (sch & S). exists sch. do 5 eexists. split; [exact S|]. split; [apply A|]. split; [apply A'|]. split.
  - exists d'. unfold devAt, added. cbn. rewrite Hph, !lookup_insert. reflexivity.
  - unfold jobs_of in *. change (st_jobs (added (added s d) d')) with ((st_jobs s ++ [h_phone (pk_hdr p)]) ++ [h_phone (pk_hdr p')]).
    rewrite !list.filter_app, W, Hph, !filter_cons_True by reflexivity. reflexivity.
Qed.
(** once the device is due to be cleared, the second check finds no device *)
Lemma second_check q s l d : st_byPhone s !! q = Some l -> st_devs s !! l = Some d -> d_phone d = q ->
  d_status d = Offline -> (d_last d + d_keep d < st_clock s)%Z ->
  exists s', run (checkKeepalive q) s = (Ok tt, s') /\ devAt s' q = None /\ fst (run (checkKeepalive q) s') = Panic.
Proof.
  intros Hl Hd Hp Ho Ht.
  assert (E : exists s', run (checkKeepalive q) s = (Ok tt, s') /\ st_byPhone s' !! q = None).
  { exists (cleared d s). split; [|cbn; rewrite Hp; apply lookup_delete].
    unfold checkKeepalive. rewrite run_bind. unfold getDeviceByPhone, rd1. cbn [run ret]. rewrite Hl.
    assert (Es : (d_status d =? Offline) = true) by (rewrite Ho; reflexivity).
    assert (Et : expired s d = true) by (unfold expired; apply Z.ltb_lt; lia).
    rewrite run_bind, (run_turnOffline l s d Hd), Es, Et. cbn [negb andb].
    rewrite run_bind, (run_clear l s d Hd), Es, Et. cbn [andb]. rewrite run_bind. unfold readConst. cbn [run]. rewrite Hd. cbn [run ret].
    cbn. rewrite Hl, Hd. cbn. unfold cleared, dropped. rewrite Hp. reflexivity. }
  destruct E as (s' & E & N). exists s'. split; [exact E|]. split; [unfold devAt; rewrite N; reflexivity|].
  rewrite (tick_unknown _ _ N). reflexivity.
Qed.
Lemma offline_check q s d : devAt s q = Some d -> d_phone d = q ->
  d_status d <> Offline -> (d_last d + d_keep d < st_clock s)%Z ->
  exists s', run (checkKeepalive q) s = (Ok tt, s') /\ devAt s' q = Some (dset_status d Offline) /\ st_clock s' = st_clock s.
Proof.
  unfold devAt at 1. destruct (st_byPhone s !! q) as [l|] eqn:Hl; [|discriminate]. intros Hd Hp Ho Ht.
  assert (Es : (d_status d =? Offline) = false) by (apply N.eqb_neq; exact Ho).
  assert (Et : expired s d = true) by (unfold expired; apply Z.ltb_lt; lia).
  eexists. split.
  - unfold checkKeepalive. rewrite run_bind. unfold getDeviceByPhone, rd1. cbn [run ret]. rewrite Hl.
    rewrite run_bind, (run_turnOffline l s d Hd), Es, Et. cbn [negb andb].
    cbn. rewrite lookup_alter, Hd. cbn. reflexivity.
  - cbn. split; [|reflexivity]. unfold devAt. cbn. rewrite Hp, lookup_insert, lookup_alter, Hd. reflexivity.
Qed.
(** the two checks of a device with two jobs, when its keepalive has run out: the first takes
    it offline, the second clears it at once; a third finds no device *)
Lemma checked_twice q s d : devAt s q = Some d -> d_phone d = q ->
  d_status d <> Offline -> (d_last d + d_keep d < st_clock s)%Z ->
  exists s1 s2, run (checkKeepalive q) s = (Ok tt, s1) /\ devAt s1 q = Some (dset_status d Offline)
    /\ run (checkKeepalive q) s1 = (Ok tt, s2) /\ devAt s2 q = None /\ fst (run (checkKeepalive q) s2) = Panic.
Proof.
  intros Hd Hp Ho Ht. destruct (offline_check q s d Hd Hp Ho Ht) as (s1 & E1 & D1 & K1).
  assert (D := D1). unfold devAt in D. destruct (st_byPhone s1 !! q) as [l|] eqn:Hl; [|discriminate].
  destruct (second_check q s1 l _ Hl D) as (s2 & E2 & D2 & P2); [exact Hp|reflexivity|rewrite K1; exact Ht|].
  exists s1, s2. auto.
Qed.

(** * A device that is stored again by a heartbeat during its logout: nothing checks it *)
Lemma no_jobs (q : str) (js : list str) : q ∉ js -> base.filter (fun p => p = q) js = [].
Proof.
  induction js as [|j js IH]; intros N; [reflexivity|]. apply not_elem_of_cons in N as (N1 & N2).
  rewrite filter_cons_False by congruence. exact (IH N2).
Qed.
Lemma forgotten e sl sl' s p p' d : consistent s -> sane s -> is_Some (st_sess s !! sl) -> is_Some (st_sess s !! sl') ->
  carries e s p 0x0002 B0002 -> carries e s p' 0x0003 B0003 -> h_phone (pk_hdr p') = h_phone (pk_hdr p) ->
  devAt s (h_phone (pk_hdr p)) = Some d ->
  exists sch s' d', running e [GMsg sl p; GMsg sl' p'] s sch = ([Ret (Ok tt); Ret (Ok tt)], s')
    /\ devAt s' (h_phone (pk_hdr p)) = Some d'
    /\ forall gs sch2, Forall (placed s') gs -> Forall (avoids e (h_phone (pk_hdr p))) gs ->
         devAt (snd (running e gs s' sch2)) (h_phone (pk_hdr p)) = Some d'
         /\ jobs_of (h_phone (pk_hdr p)) (snd (running e gs s' sch2)) = [].
Proof.
  intros C Hs Hx Hx' Hc Hc' Hph Hd. destruct (devAt_Some s C _ _ Hd) as (l & Hl & H1 & Hp & Hq).
  destruct (moves_0002 e sl s p l Hc Hl) as (out & M & A).
  rewrite <- Hph in Hd. destruct (logout e sl' s p' d C Hc' Hd) as (m' & s1 & R & _ & A' & _ & _ & _ & J & K).
  assert (E : st_devs s1 = st_devs s).
  { assert (R' := R). erewrite process_carries in R'; [|exact Hc'|reflexivity|reflexivity].
    unfold handler in R'. cbn [m_body] in R'. rewrite <- Hph in Hl.
    rewrite (run_0003 s C (mkMsg (pk_hdr p') B0003) _ l d Hl H1) in R'. injection R' as <- <-. reflexivity. }
  set (f := fun d => dset_last d (st_clock s1)). rewrite Hph in J.
  set (s2 := set_index (<[d_plate d := l]>) (<[d_phone d := l]>) (set_devs (alter f l) s1)).
  assert (T : run (pbind (now <- getNow ;; writeDev l (fun d => dset_last d now) ;;; cacheDevice l ;;; ret out)%prog
           (fun o => ret (Some o))) s1 = (Ok (Some out), s2)).
  { cbn. rewrite lookup_alter, E, H1. reflexivity. }
  assert (S : exists sch, running e [GMsg sl p; GMsg sl' p'] s sch = ([Ret (Ok tt); Ret (Ok tt)], s2)).
  { unfold running. cbn [List.map code].
    eapply psteps_then; [apply reach_0; apply moves_bind; exact M|].
    eapply psteps_then; [apply reach_1; apply moves_done; rewrite run_bind, R; reflexivity|].
    apply reach_0. apply moves_done. rewrite run_bind, T. reflexivity. }
  destruct S as (sch & S).
  assert (Hpl : Forall (placed s) [GMsg sl p; GMsg sl' p']) by (repeat constructor; assumption).
  assert (S2 : sane s2 /\ own_rings s2).
  { split.
    - destruct (all_schedules e [GMsg sl p; GMsg sl' p'] s sch Hs (proj1 (List.Forall_forall _ _) Hpl)) as (H & _). rewrite S in H. exact H.
    - pose proof (buffers_apart e [GMsg sl p; GMsg sl' p'] s sch Hs (rings_own s C) Hpl) as H. rewrite S in H. exact H. }
  assert (D2 : devAt s2 (h_phone (pk_hdr p)) = Some (f d)).
  { unfold devAt, s2. cbn. rewrite Hp, lookup_insert, lookup_alter, E, H1. reflexivity. }
  assert (J2 : jobs_of (h_phone (pk_hdr p)) s2 = []).
  { unfold jobs_of. change (st_jobs s2) with (st_jobs s1). 
    assert (N : h_phone (pk_hdr p) ∉ st_jobs s1) by (intros Hin; apply J in Hin; tauto).
    exact (no_jobs _ _ N). }
  exists sch, s2, (f d). split; [exact S|]. split; [exact D2|]. intros gs sch2 Hpl2 Hav.
  destruct (others_keep e _ gs s2 sch2 (proj1 S2) (proj2 S2) Hpl2 Hav) as (U1 & _ & _ & U4).
  rewrite U1. split; [exact D2|]. unfold jobs_of. rewrite U4. exact J2.
Qed.
