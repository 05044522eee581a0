(** Data races between goroutines acting for different phones (C71), and those of the simulator (C142) *)
From stdpp Require Import gmap.
From Verif Require Import Base HexM TimeM HeaderM ParamsM GeoM MsgM PacketM FrameM ProgM RingM StateM ProcM ServerM ConcM
  ClientM DatagenM SimConcM SpecCodec SpecState SpecConc SpecHonest SpecOwn RaceP HonestP ConcP IsoP OwnP SimRaceP ExampleData ExampleState
  Properties_Sim Properties_Conc.
Local Open Scope N_scope.

(** C71: the device records and location buffers have no mutex, but in every schedule two goroutines that
    act for different phones have no race on them. *)
Theorem C71_records_partial : forall e gs s sch, sane s -> own_rings s -> (forall g, In g gs -> placed s g) ->
  forall i j g h p q, nth_error gs i = Some g -> nth_error gs j = Some h -> (forall ph, acts e g ph -> acts e h ph -> False) ->
    nth_error (fst (running e gs s sch)) i = Some p -> nth_error (fst (running e gs s sch)) j = Some q -> ~ clash personal p q.
Proof. exact server_no_clash. Qed.
Print Assumptions C71_records_partial.
(** By C139, about the memory itself *)
Theorem C139_records : forall e gs s sch, sane s -> own_rings s -> (forall g, In g gs -> placed s g) ->
  forall i j g h p q c, nth_error gs i = Some g -> nth_error gs j = Some h -> (forall ph, acts e g ph -> acts e h ph -> False) ->
    nth_error (fst (running e gs s sch)) i = Some p -> nth_error (fst (running e gs s sch)) j = Some q ->
    memory c -> personal c -> apart with_cell here c p q.
Proof.
  intros e gs s sch Hs Ho Hp i j g h p q c Hg Hh Hd Hi Hj Hm Hc. apply (no_clash_apart personal); auto.
  - exact (running_honest e gs s sch i p Hi).
  - exact (running_honest e gs s sch j q Hj).
  - exact (server_no_clash e gs s sch Hs Ho Hp i j g h p q Hg Hh Hd Hi Hj).
Qed.
Print Assumptions C139_records.
Theorem C139_simulator : forall e gs s sch i p, nth_error (fst (simulating e gs s sch)) i = Some p ->
  honest_next with_cell here memory p.
Proof. exact simulating_honest. Qed.
Print Assumptions C139_simulator.
(** a location of the first device being stored and a keepalive check of the second: one is about to write
    to a buffer, the other to read a record, both without synchronisation *)
Definition gs71 : list goroutine := [GServe 0 [(Ok f_loc1, None)]; GTick phone12b].
Example C71_records_ex : sane s2 /\ own_rings s2 /\ (forall g, In g gs71 -> placed s2 g)
  /\ (forall ph, acts e0 (GServe 0 [(Ok f_loc1, None)]) ph -> acts e0 (GTick phone12b) ph -> False)
  /\ exists sch, option_map accesses (nth_error (fst (running e0 gs71 s2 sch)) 0) = Some [mkAcc (CRingSlots 0) true Plain]
     /\ option_map accesses (nth_error (fst (running e0 gs71 s2 sch)) 1) = Some [mkAcc (CDev 1) false Plain].
Proof.
  split; [exact s2_sane|]. split; [exact (history_apart e0 1000 _)|]. split.
  { unfold gs71. intros g [<-|[<-|[]]]; cbn [placed]; [rewrite s2_x1; eauto|exact Logic.I]. }
  split.
  { intros ph (frm & w & p & Hin & E & Hph) Hph'. destruct Hin as [Hin|[]]. injection Hin as <- <-.
    assert (E' : h_phone (pk_hdr (unframe f_loc1)) = phone12) by vmr.
    unfold unframe in E'. cbn [e_o e0] in E. rewrite E in E'. cbn in Hph'. rewrite Hph, <- Hph' in E'. discriminate E'. }
  exists ([0; 0; 0; 0; 0; 0; 0; 0; 1; 1]%nat). split; vmr.
Qed.

(** C142: the status checker reads the device's status without synchronisation while the receiving goroutine,
    handling the platform's first general reply, sets it. *)
Theorem C142_refuted : forall e sl s frm w t n p a b l d x,
  st_sess s !! sl = Some x -> decodePacket (e_o e) frm = Ok p -> isFragmented (pk_hdr p) = false ->
  carries e s p 0x8001 (B8001 a b 0) ->
  st_byPhone s !! h_phone (pk_hdr p) = Some l -> st_devs s !! l = Some d -> d_status d = Offline ->
  exists sch, races_on (fun c => c = CDev l)
    (fst (simulating e [TStatus (h_phone (pk_hdr p)) (S n); TReceive sl ((Ok frm, w) :: t)] s sch)).
Proof. exact sim_device_races. Qed.
Print Assumptions C142_refuted.
(** no schedule of any of the simulator's goroutines has a race on the caches' maps, the connections or the
    timer *)
Theorem C142_guarded_partial : forall e gs s sch, ~ races_on guarded (fst (simulating e gs s sch)).
Proof. exact sim_race_free. Qed.
Print Assumptions C142_guarded_partial.
(** the goroutines of different terminals do not race on device records *)
Theorem C142_terminals_partial : forall e gs s sch, sane s -> own_rings s -> (forall g, In g gs -> tplaced s g) ->
  forall i j g h p q, nth_error gs i = Some g -> nth_error gs j = Some h -> (forall ph, tacts e g ph -> tacts e h ph -> False) ->
    nth_error (fst (simulating e gs s sch)) i = Some p -> nth_error (fst (simulating e gs s sch)) j = Some q -> ~ clash personal p q.
Proof. exact sim_no_clash. Qed.
Print Assumptions C142_terminals_partial.
(** a race on a record is between a receiving goroutine and the status checker, or another receiving one: the
    goroutines that register, send heartbeats and report locations take part in none *)
Theorem C142_pairs_partial : forall e gs s sch i j g h p q, nth_error gs i = Some g -> nth_error gs j = Some h ->
  nth_error (fst (simulating e gs s sch)) i = Some p -> nth_error (fst (simulating e gs s sch)) j = Some q ->
  clash personal p q ->
  (exists sl ins, g = TReceive sl ins) /\ (exists sl ins, h = TReceive sl ins)
  \/ (exists sl ins ph n, g = TReceive sl ins /\ h = TStatus ph n)
  \/ (exists sl ins ph n, h = TReceive sl ins /\ g = TStatus ph n).
Proof. exact sim_pairs. Qed.
Print Assumptions C142_pairs_partial.
(** and in every schedule the caches stay consistent enough: each entry leads to an object with that key *)
Theorem C142_sane_partial : forall e gs s sch, sane s -> own_rings s -> (forall g, In g gs -> tplaced s g) ->
  sane (snd (simulating e gs s sch)) /\ grows s (snd (simulating e gs s sch)).
Proof. exact sim_sane. Qed.
Print Assumptions C142_sane_partial.

(** the platform's reply to the registration's first message; the terminal built, still offline *)
Definition f_ok1 : bytes := frame (mkMsg (hid 0x8001) (B8001 1 0x0100 0)).
Definition ts142 : list simroutine := [TReceive 0 [(Ok f_ok1, None)]; TStatus phone12b 3; TKeep phone12b 0 [None]].
Example C142_ex : st_sess sc1 !! 0%nat = Some x1 /\ decodePacket (e_o e0) f_ok1 = Ok (unframe f_ok1)
  /\ isFragmented (pk_hdr (unframe f_ok1)) = false /\ carries e0 sc1 (unframe f_ok1) 0x8001 (B8001 1 0x0100 0)
  /\ st_byPhone sc1 !! h_phone (pk_hdr (unframe f_ok1)) = Some 0%nat /\ st_devs sc1 !! 0%nat = Some dev13
  /\ d_status dev13 = Offline.
Proof. repeat (split; [vmr|]). split; [carried|]. repeat (split; [vmr|]). vmr. Qed.
Lemma sc1_sane : sane sc1 /\ own_rings sc1.
Proof.
  assert (S0 : sane sc0 /\ own_rings sc0) by (split; [exact (history_sane e0 1000 _)|exact (history_apart e0 1000 _)]).
  destruct S0 as (S0 & O0).
  assert (E : exists sch, snd (simulating e0 [TBegin (conf v13) 0 None] sc0 sch) = sc1).
  { exists [0; 0; 0]%nat. vmr. }
  destruct E as (sch & E). split.
  - rewrite <- E. apply sim_sane; [exact S0|exact O0|]. intros g [<-|[]]. cbn [tplaced]. eexists. vmr.
  - intros p p' l H. exfalso. revert H. replace (st_geo sc1) with (∅ : gmap str nat) by vmr. rewrite lookup_empty. discriminate.
Qed.
Example C142_terminals_ex : sane sc1 /\ own_rings sc1 /\ (forall g, In g ts142 -> tplaced sc1 g)
  /\ (forall ph, tacts e0 (TReceive 0 [(Ok f_ok1, None)]) ph -> tacts e0 (TStatus phone12b 3) ph -> False)
  /\ exists sch p, nth_error (fst (simulating e0 ts142 sc1 sch)) 0 = Some p /\ accesses p = [mkAcc (CDev 0) true Plain].
Proof.
  destruct sc1_sane as (S1 & O1). split; [exact S1|]. split; [exact O1|]. split.
  { intros g [<-|[<-|[<-|[]]]]; cbn [tplaced]; try exact Logic.I; eexists; vmr. }
  split.
  { intros ph (frm & w & p & Hin & E & Hph) Hph'. destruct Hin as [Hin|[]]. injection Hin as <- <-.
    assert (E' : h_phone (pk_hdr (unframe f_ok1)) = phone12) by vmr.
    unfold unframe in E'. cbn [e_o e0] in E. rewrite E in E'. cbn in Hph'. rewrite Hph, <- Hph' in E'. discriminate E'. }
  exists [0; 0; 0; 0]%nat.
  destruct (nth_error (fst (simulating e0 ts142 sc1 [0; 0; 0; 0]%nat)) 0) as [p|] eqn:Ep.
  2:{ exfalso. revert Ep. vm_compute. discriminate. }
  exists p. split; [reflexivity|].
  assert (Ap : option_map accesses (Some p) = Some [mkAcc (CDev 0) true Plain]) by (rewrite <- Ep; vmr).
  cbn in Ap. injection Ap as ->. reflexivity.
Qed.
(** and the race is there to be found: the status checker at the read, the receiving goroutine at the write *)
Example C142_pairs_ex : exists sch p q, nth_error (fst (simulating e0 [TStatus phone12 3; TReceive 0 [(Ok f_ok1, None)]] sc1 sch)) 0 = Some p
  /\ nth_error (fst (simulating e0 [TStatus phone12 3; TReceive 0 [(Ok f_ok1, None)]] sc1 sch)) 1 = Some q
  /\ clash personal p q.
Proof.
  exists [0; 1; 1; 1; 1]%nat.
  destruct (nth_error (fst (simulating e0 [TStatus phone12 3; TReceive 0 [(Ok f_ok1, None)]] sc1 [0; 1; 1; 1; 1]%nat)) 0) as [p|] eqn:Ep.
  2:{ exfalso. revert Ep. vm_compute. discriminate. }
  destruct (nth_error (fst (simulating e0 [TStatus phone12 3; TReceive 0 [(Ok f_ok1, None)]] sc1 [0; 1; 1; 1; 1]%nat)) 1) as [q|] eqn:Eq.
  2:{ exfalso. revert Eq. vm_compute. discriminate. }
  exists p, q. split; [reflexivity|]. split; [reflexivity|].
  assert (Ap : option_map accesses (Some p) = Some [mkAcc (CDev 0) false Plain]) by (rewrite <- Ep; vmr).
  assert (Aq : option_map accesses (Some q) = Some [mkAcc (CDev 0) true Plain]) by (rewrite <- Eq; vmr).
  clear Ep Eq. cbn in Ap, Aq. injection Ap as Ap. injection Aq as Aq.
  unfold clash. rewrite Ap, Aq. do 2 eexists. split; [left; reflexivity|]. split; [left; reflexivity|]. split; [exact Logic.I|reflexivity].
Qed.
