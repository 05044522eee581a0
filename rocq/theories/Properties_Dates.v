(** The time of a device's last message (C148) *)
From stdpp Require Import gmap.
From Verif Require Import Base HexM TimeM HeaderM ParamsM GeoM MsgM PacketM FrameM ProgM ProgP RingM StateM ProcM ServerM ConcM
  SpecState SpecReg SpecDates SpecConc SpecOwn StateP ServerP InterP DatesP DatesOwnP SinceP IsoP ExampleData ExampleState Properties_Conc.
Local Open Scope N_scope.

Lemma moves_0_of {S A} (p p' : prog S A) (ps : list (prog S A)) s s' : moves p s p' s' ->
  exists sch, psteps (p :: ps) s sch = (p' :: ps, s').
Proof.
  induction 1 as [p s|a f k s p' s' _ (n & IH)]; [exists []; reflexivity|]. exists (0%nat :: n). exact IH.
Qed.
Lemma moves_1_of {S A} (q p p' : prog S A) (ps : list (prog S A)) s s' : moves p s p' s' ->
  exists sch, psteps (q :: p :: ps) s sch = (q :: p' :: ps, s').
Proof.
  induction 1 as [p s|a f k s p' s' _ (n & IH)]; [exists []; reflexivity|]. exists (1%nat :: n). exact IH.
Qed.

(** a heartbeat's handler up to the writing of the time that it has read *)
Lemma beat_writes e sl s p l : carries e s p 0x0002 B0002 -> st_byPhone s !! h_phone (pk_hdr p) = Some l ->
  exists a k, moves (code e (GMsg sl p)) s (Act a (set_devs (alter (fun d => dset_last d (st_clock s)) l)) k) s.
Proof.
  intros Hc Hl. destruct (moves_0002 e sl s p l Hc Hl) as (o & M & _). do 2 eexists.
  exact (moves_bind _ _ (fun _ => ret tt) _ _ (moves_trans _ _ _ _ _ _ M (mv_act _ _ _ _ _ _ (mv_refl _ _)))).
Qed.

(** C148: as long as the clock is not put back, no device has been heard of later than now, and the time of a phone's device
    never goes back, whatever happens in between, be it a new registration; the first also under every schedule of any
    goroutines. *)
Theorem C148_never_later : forall e now evs, forward now evs -> no_later (w_st (history e now evs)).
Proof. exact never_later. Qed.
Print Assumptions C148_never_later.
Theorem C148_never_back : forall e now evs evs' ph d d', forward now (evs ++ evs') ->
  devAt (w_st (history e now evs)) ph = Some d -> devAt (w_st (history e now (evs ++ evs'))) ph = Some d' ->
  (d_last d <= d_last d')%Z.
Proof. exact never_goes_back. Qed.
Print Assumptions C148_never_back.
Theorem C148_together_partial : forall e gs s sch, never_back e gs s sch -> no_later s -> no_later (snd (running e gs s sch)).
Proof. exact running_no_later. Qed.
Print Assumptions C148_together_partial.
(** and when one goroutine at most handles the messages of a phone, the time of its device does not go back under any schedule
    either, whatever checks, requests and messages of other phones are handled at the same time *)
Theorem C148_one_partial : forall e gs s ph i l d0, sane s -> own_rings s -> (forall g, In g gs -> placed s g) -> no_later s ->
  st_devs s !! l = Some d0 -> d_phone d0 = ph -> (forall j g, nth_error gs j = Some g -> serves_phone e g ph -> j = i) ->
  forall sch sch' d d', never_back e gs s (sch ++ sch') -> st_devs (snd (running e gs s sch)) !! l = Some d ->
    st_devs (snd (running e gs s (sch ++ sch'))) !! l = Some d' -> (d_last d <= d_last d')%Z.
Proof. intros e gs s ph i l d0 H1 H2 H3 H4 H5 H6 H7 sch sch' d d'. exact (one_never_back e gs s ph i l d0 H1 H2 H3 H4 H5 H6 H7 sch sch' d d'). Qed.
Print Assumptions C148_one_partial.
(** however many do, under every schedule: a goroutine writes no time before the one at which all of them began, so that no
    record has a time before the one it had then, and no record made since has a time before then *)
Theorem C148_since_partial : forall e gs s sch l d', never_back e gs s sch -> no_later s ->
  st_devs (snd (running e gs s sch)) !! l = Some d' ->
  match st_devs s !! l with Some d => (d_last d <= d_last d')%Z | None => (st_clock s <= d_last d')%Z end.
Proof. exact since_start. Qed.
Print Assumptions C148_since_partial.
(** nor does a phone lead to a device with such a time, although it may lead to another record than before: the records of the
    phone that were given up before stay given up *)
Theorem C148_phone_partial : forall e gs s sch ph d', sane s -> never_back e gs s sch -> no_later s ->
  devAt (snd (running e gs s sch)) ph = Some d' ->
  match devAt s ph with Some d => (d_last d <= d_last d')%Z | None => (st_clock s <= d_last d')%Z end.
Proof. exact since_start_phone. Qed.
Print Assumptions C148_phone_partial.
(** but it goes back under some schedules: a heartbeat whose handler has read the clock and then waits, while a later one is
    handled, overwrites the later time with the earlier one *)
Theorem C148_refuted : forall e sl sl' s p p' l d t, carries e s p 0x0002 B0002 -> carries e (set_clock t s) p' 0x0002 B0002 ->
  h_phone (pk_hdr p') = h_phone (pk_hdr p) -> st_byPhone s !! h_phone (pk_hdr p) = Some l -> st_devs s !! l = Some d ->
  no_later s -> (st_clock s < t)%Z ->
  let gs := [GMsg sl p; GMsg sl' p'; GClock t] in
  exists sch sch' d1 d2, never_back e gs s (sch ++ sch')
    /\ devAt (snd (running e gs s sch)) (h_phone (pk_hdr p)) = Some d1 /\ d_last d1 = t
    /\ devAt (snd (running e gs s (sch ++ sch'))) (h_phone (pk_hdr p)) = Some d2 /\ d_last d2 = st_clock s.
Proof.
  intros e sl sl' s p p' l d t Hc Hc' Hph Hl Hdv Hn Ht gs.
  assert (B : forall sch, never_back e gs s sch).
  { intros sch k. apply (clock_to t); [|exact Hn|lia]. intros j q Hj. destruct j as [|[|[|j]]]; cbn in Hj.
    - injection Hj as <-. left. apply (dated_bind (process e sl p)); [apply dated_process|intros; exact Logic.I].
    - injection Hj as <-. left. apply (dated_bind (process e sl' p')); [apply dated_process|intros; exact Logic.I].
    - injection Hj as <-. right. reflexivity.
    - destruct j; discriminate. }
  assert (Hl' : st_byPhone (set_clock t s) !! h_phone (pk_hdr p') = Some l) by (rewrite Hph; exact Hl).
  destruct (beat_writes e sl s p l Hc Hl) as (x & k & M). destruct (beat_writes e sl' _ p' l Hc' Hl') as (x' & k' & M').
  (* the first handler reads the clock, the clock advances, the second handler writes the time, then the first *)
  destruct (moves_0_of _ _ [code e (GMsg sl' p'); code e (GClock t)] _ _ M) as (a & S1).
  match type of M with moves _ _ ?q _ => destruct (moves_1_of q _ _ [ret tt] _ _ (moves_trans _ _ _ _ _ _ M' (mv_act _ _ _ _ _ _ (mv_refl _ _)))) as (b & S2) end.
  change (st_clock (set_clock t s)) with t in S2.
  set (f := fun d => dset_last d (st_clock s)) in *. set (f' := fun d => dset_last d t) in *.
  exists (a ++ [2%nat] ++ b), [0%nat]. unfold running.
  assert (E : psteps (List.map (code e) gs) s (a ++ [2%nat] ++ b)
    = ([Act x (set_devs (alter f l)) k; k' (set_clock t s); ret tt], set_devs (alter f' l) (set_clock t s))).
  { rewrite psteps_app. unfold gs. cbn [List.map]. rewrite S1. cbn [fst snd]. rewrite psteps_app. exact S2. }
  exists (f' d), (f (f' d)). split; [apply B|]. rewrite (psteps_app (a ++ [2%nat] ++ b)), E. cbn [fst snd]. unfold devAt.
  split; [|split; [reflexivity|split; [|reflexivity]]].
  - change (match st_byPhone s !! h_phone (pk_hdr p) with Some l0 => alter f' l (st_devs s) !! l0 | None => None end = Some (f' d)).
    rewrite Hl, lookup_alter, Hdv. reflexivity.
  - change (match st_byPhone s !! h_phone (pk_hdr p) with Some l0 => alter f l (alter f' l (st_devs s)) !! l0 | None => None end = Some (f (f' d))).
    rewrite Hl, !lookup_alter, Hdv. reflexivity.
Qed.
Print Assumptions C148_refuted.
Definition evs148 : list event := [EAccept 0 addr1; EAccept 1 addr2; EFrame 0 (Ok f_reg1) None; EFrame 1 (Ok f_reg2) None].
Definition evs148' : list event := [EClock 2000; EFrame 0 (Ok f_auth1) None; EFrame 0 (Ok f_loc1) None; EClock 3000; EFrame 0 (Ok f_heart1) None].
Example C148_ex : forward 1000 (evs148 ++ evs148')
  /\ exists d d', devAt (w_st (history e0 1000 evs148)) phone12 = Some d /\ d_last d = 1000%Z
    /\ devAt (w_st (history e0 1000 (evs148 ++ evs148'))) phone12 = Some d' /\ d_last d' = 3000%Z.
Proof.
  split; [cbn; lia|]. eexists _, _. split; [vm_compute; reflexivity|]. split; [reflexivity|]. split; [vm_compute; reflexivity|]. reflexivity.
Qed.
Lemma s2_no_later : no_later s2.
Proof. apply (never_later e0 1000). cbn. lia. Qed.
Definition gs148 : list goroutine := [GMsg 0 (unframe f_heart1); GTick phone12; GClock 3000].
Example C148_one_ex : sane s2 /\ own_rings s2 /\ (forall g, In g gs148 -> placed s2 g) /\ no_later s2 /\ st_devs s2 !! 0%nat = Some d1
  /\ d_phone d1 = phone12 /\ serves_phone e0 (GMsg 0 (unframe f_heart1)) phone12
  /\ (forall j g, nth_error gs148 j = Some g -> serves_phone e0 g phone12 -> j = 0%nat).
Proof.
  split; [exact s2_sane|]. split; [exact (history_apart e0 1000 _)|]. split.
  { intros g [<-|[<-|[<-|[]]]]; cbn [placed]; [rewrite s2_x1; eauto|exact Logic.I..]. }
  split; [exact s2_no_later|]. split; [vmr|]. split; [vmr|]. split; [vmr|].
  intros j g Hj Hg. destruct j as [|[|[|j]]]; [reflexivity| | |destruct j; discriminate]; injection Hj as <-; contradiction.
Qed.
Lemma three_forward e sl p ph t s : no_later s -> (st_clock s <= t)%Z -> forall sch, never_back e [GMsg sl p; GTick ph; GClock t] s sch.
Proof.
  intros Hn Ht sch k. apply (clock_to t); [|exact Hn|exact Ht]. intros j q Hj. destruct j as [|[|[|j]]].
  - injection Hj as <-. left. apply (dated_bind (process e sl p)); [apply dated_process|intros; exact Logic.I].
  - injection Hj as <-. left. apply dated_check.
  - injection Hj as <-. right. reflexivity.
  - destruct j; discriminate.
Qed.
Example C148_refuted_ex : carries e0 s2 (unframe f_heart1) 0x0002 B0002 /\ carries e0 (set_clock 3000 s2) (unframe f_heart1) 0x0002 B0002
  /\ st_byPhone s2 !! h_phone (pk_hdr (unframe f_heart1)) = Some 0%nat /\ st_devs s2 !! 0%nat = Some d1 /\ no_later s2 /\ (st_clock s2 < 3000)%Z
  /\ forall sch, never_back e0 [GMsg 0 (unframe f_heart1); GTick phone12; GClock 3000] s2 sch.
Proof.
  split; [carried|]. split; [carried|]. split; [vmr|]. split; [vmr|]. split; [exact s2_no_later|]. split; [vmr|].
  apply three_forward; [exact s2_no_later|vm_compute; discriminate].
Qed.
Example C148_since_ex : let gs := [GMsg 0 (unframe f_heart1); GTick phone12; GClock 3000] in
  let sch := 2%nat :: repeat 0%nat 40 in never_back e0 gs s2 sch /\ no_later s2
  /\ exists d', st_devs (snd (running e0 gs s2 sch)) !! 0%nat = Some d' /\ st_devs s2 !! 0%nat = Some d1
     /\ d_last d1 = 2000%Z /\ d_last d' = 3000%Z.
Proof.
  split; [apply three_forward; [exact s2_no_later|vm_compute; discriminate]|]. split; [exact s2_no_later|].
  eexists. split; [vm_compute; reflexivity|]. split; [vmr|]. split; [vmr|reflexivity].
Qed.
Example C148_phone_ex : let gs := [GMsg 0 (unframe f_heart1); GTick phone12; GClock 3000] in
  let sch := 2%nat :: repeat 0%nat 40 in sane s2 /\ never_back e0 gs s2 sch /\ no_later s2
  /\ exists d', devAt (snd (running e0 gs s2 sch)) phone12 = Some d' /\ devAt s2 phone12 = Some d1 /\ d_last d' = 3000%Z.
Proof.
  split; [exact s2_sane|]. split; [apply three_forward; [exact s2_no_later|vm_compute; discriminate]|]. split; [exact s2_no_later|].
  eexists. split; [vm_compute; reflexivity|]. split; [vmr|reflexivity].
Qed.
