(** Property theorems C43, C58, C59, C71, C72, C94, C95: goroutines under every schedule.  A schedule
    is a list of goroutine numbers; each step runs one goroutine up to its next access to the
    shared state. *)
From stdpp Require Import gmap.
From Verif Require Import Base HexM TimeM HashM HeaderM ParamsM GeoM MsgM PacketM FrameM ProgM RingM SpecRing
  StateM ProcM ServerM ConcM SpecState SpecConc SpecCodec StateP ProcP ServerP EffectP RaceP InterP OriginP ConcP IsoP SoloP Solo2P
  ExampleData ExampleState.
Local Open Scope N_scope.
Ltac vmr := vm_compute; reflexivity.
Ltac carried := split; [vmr|split; [left; vmr|vmr]].

(** C43: two registrations of a plate, from any consistent state with neither phone known,
    have a schedule in which both are accepted; handled one after the other, the second one is
    refused *)
Theorem C43_refuted : forall e sl sl' s x x' p r p' r', consistent s ->
  st_sess s !! sl = Some x -> st_sess s !! sl' = Some x' ->
  carries e s p 0x0100 (B0100 r) -> carries e s p' 0x0100 (B0100 r') ->
  r_plate r = r_plate r' -> h_phone (pk_hdr p) <> h_phone (pk_hdr p') ->
  devWithPlate s (r_plate r) = None ->
  devAt s (h_phone (pk_hdr p)) = None -> devAt s (h_phone (pk_hdr p')) = None ->
  exists sch m m' s' c c' d d', psteps [process e sl p; process e sl' p'] s sch = ([Ret (Ok (Some m)); Ret (Ok (Some m'))], s')
    /\ answers p 0x8100 (B8100 (h_sn (pk_hdr p)) 0 c) m
    /\ answers p' 0x8100 (B8100 (h_sn (pk_hdr p')) 0 c') m'
    /\ devAt s' (h_phone (pk_hdr p)) = Some d /\ devAt s' (h_phone (pk_hdr p')) = Some d'
    /\ d_plate d = r_plate r /\ d_plate d' = r_plate r
    /\ devWithPlate s' (r_plate r) = Some d' /\ ~ consistent s'.
Proof. exact double_registration. Qed.
Print Assumptions C43_refuted.
Theorem C43_one_at_a_time_partial : forall e sl sl' s x x' p r p' r' m s1 c, consistent s ->
  st_sess s !! sl = Some x -> st_sess s !! sl' = Some x' ->
  carries e s p 0x0100 (B0100 r) -> carries e s p' 0x0100 (B0100 r') -> r_plate r = r_plate r' ->
  run (process e sl p) s = (Ok (Some m), s1) -> answers p 0x8100 (B8100 (h_sn (pk_hdr p)) 0 c) m ->
  exists m' c', run (process e sl' p') s1 = (Ok (Some m'), s1)
    /\ answers p' 0x8100 (B8100 (h_sn (pk_hdr p')) 1 c') m'.
Proof. exact second_registration. Qed.
Print Assumptions C43_one_at_a_time_partial.
(** two accepted connections; both send plate "A1" *)
Definition s_two : st := w_st (history e0 1000 [EAccept 0 addr1; EAccept 1 addr2]).
Definition p_two : packet := pk (mkMsg (hidb 0x0100) (B0100 reg1)).
(** as decoded: the location lookup answers "NotFound" *)
Definition reg_in : reg := mkReg 1 2 abc abc [68; 49] 1 [65; 49] [78; 111; 116; 70; 111; 117; 110; 100].
Example C43_ex : consistent s_two /\ st_sess s_two !! 0%nat = Some x1 /\ st_sess s_two !! 1%nat = Some x2
  /\ carries e0 s_two (unframe f_reg1) 0x0100 (B0100 reg_in) /\ carries e0 s_two p_two 0x0100 (B0100 reg_in)
  /\ h_phone (pk_hdr (unframe f_reg1)) <> h_phone (pk_hdr p_two)
  /\ devWithPlate s_two (r_plate reg_in) = None
  /\ devAt s_two (h_phone (pk_hdr (unframe f_reg1))) = None /\ devAt s_two (h_phone (pk_hdr p_two)) = None
  /\ exists m s1 c, run (process e0 0 (unframe f_reg1)) s_two = (Ok (Some m), s1)
     /\ answers (unframe f_reg1) 0x8100 (B8100 (h_sn (pk_hdr (unframe f_reg1))) 0 c) m.
Proof.
  assert (C : consistent s_two) by exact (wo_ok _ (history_ok e0 1000 _)).
  assert (H0 : st_sess s_two !! 0%nat = Some x1) by vmr.
  assert (Hr : carries e0 s_two (unframe f_reg1) 0x0100 (B0100 reg_in)) by carried.
  split; [exact C|]. split; [exact H0|]. split; [vmr|]. split; [exact Hr|]. split; [carried|].
  split; [vm_compute; discriminate|]. repeat (split; [vmr|]).
  destruct (registration e0 0 s_two (unframe f_reg1) reg_in x1 C Hr H0) as (m & s1 & E & H).
  replace (devWithPlate s_two (r_plate reg_in)) with (@None device) in H by vmr.
  replace (devAt s_two (h_phone (pk_hdr (unframe f_reg1)))) with (@None device) in H by vmr.
  destruct H as ((c & _ & H) & _). exists m, s1, c. split; [exact E|exact H].
Qed.

(** C58: handled one at a time, only a registration of a phone makes it known; a heartbeat
    that has read the device when the logout runs stores it again, without a keepalive job *)
Theorem C58_refuted : forall e sl sl' s p p' d, consistent s ->
  carries e s p 0x0002 B0002 -> carries e s p' 0x0003 B0003 -> h_phone (pk_hdr p') = h_phone (pk_hdr p) ->
  devAt s (h_phone (pk_hdr p)) = Some d ->
  exists sch m m' s' d', psteps [process e sl p; process e sl' p'] s sch = ([Ret (Ok (Some m)); Ret (Ok (Some m'))], s')
    /\ answers p' 0x8001 (B8001 (h_sn (pk_hdr p')) 0x0003 0) m'
    /\ devAt s' (h_phone (pk_hdr p)) = Some d' /\ devWithPlate s' (d_plate d) = Some d'
    /\ h_phone (pk_hdr p) ∉ st_jobs s'.
Proof. exact ghost. Qed.
Print Assumptions C58_refuted.
Theorem C58_history_partial : forall e now evs evs' q, devAt (w_st (history e now evs)) q = None ->
  (forall sl r x, In (EFrame sl r x) evs' -> ~ registers e r q) ->
  devAt (w_st (history e now (evs ++ evs'))) q = None.
Proof.
  intros e now evs evs' q Hd Hr. unfold history. rewrite fold_left_app.
  apply stays_unknown; [exact (history_ok e now evs)|exact Hd|exact Hr].
Qed.
Print Assumptions C58_history_partial.
Definition p_logout : packet := pk (mkMsg (hid 0x0003) B0003).
Example C58_ex : consistent s2 /\ carries e0 s2 (unframe f_heart1) 0x0002 B0002 /\ carries e0 s2 p_logout 0x0003 B0003
  /\ h_phone (pk_hdr p_logout) = h_phone (pk_hdr (unframe f_heart1))
  /\ devAt s2 (h_phone (pk_hdr (unframe f_heart1))) = Some d1
  /\ devAt (w_st (history e0 1000 [EAccept 0 addr1; EFrame 0 (Ok f_heart1) None])) phone12 = None.
Proof.
  split; [exact s2_ok|]. split; [carried|]. split; [carried|]. repeat (split; [vmr|]). vmr.
Qed.

(** C59: a keepalive check that was fired before the logout of its device ends the process *)
Theorem C59_refuted_schedule : forall e sl s p d, consistent s -> carries e s p 0x0003 B0003 ->
  devAt s (h_phone (pk_hdr p)) = Some d ->
  exists sch s', running e [GMsg sl p; GTick (h_phone (pk_hdr p))] s sch = ([Ret (Ok tt); Ret Panic], s').
Proof. exact late_check. Qed.
Print Assumptions C59_refuted_schedule.
Example C59_schedule_ex : consistent s2 /\ carries e0 s2 p_logout 0x0003 B0003
  /\ devAt s2 (h_phone (pk_hdr p_logout)) = Some d1.
Proof. split; [exact s2_ok|]. split; [carried|]. vmr. Qed.

(** C71: listing the devices reads the maps without the mutex, against a heartbeat, and so does
    counting the sessions, against a new connection; without these two no schedule has a race on anything a mutex protects.  The device records are
    not protected. *)
Theorem C71_refuted : forall e sl s p l, carries e s p 0x0002 B0002 -> st_byPhone s !! h_phone (pk_hdr p) = Some l ->
  exists sch, races_on (fun c => c = CDevMaps) (fst (running e [GList; GMsg sl p] s sch)).
Proof. exact list_races. Qed.
Print Assumptions C71_refuted.
Theorem C71_refuted_count : forall e c addr ins s,
  exists sch, races_on (fun x => x = CSessMap) (fst (running e [GCount; GConn c addr ins] s sch)).
Proof. exact count_races. Qed.
Print Assumptions C71_refuted_count.
Theorem C71_guarded_partial : forall e gs s sch, ~ In GList gs -> ~ In GCount gs -> ~ races_on guarded (fst (running e gs s sch)).
Proof. exact race_free. Qed.
Print Assumptions C71_guarded_partial.
Theorem C71_refuted_records : forall e sl s p l d, carries e s p 0x0002 B0002 -> st_byPhone s !! h_phone (pk_hdr p) = Some l ->
  st_devs s !! l = Some d ->
  exists sch, races_on (fun c => c = CDev l) (fst (running e [GTick (h_phone (pk_hdr p)); GMsg sl p] s sch)).
Proof. exact device_races. Qed.
Print Assumptions C71_refuted_records.
Example C71_ex : carries e0 s2 (unframe f_heart1) 0x0002 B0002
  /\ st_byPhone s2 !! h_phone (pk_hdr (unframe f_heart1)) = Some 0%nat
  /\ st_devs s2 !! 0%nat = Some d1
  /\ ~ In GList [GMsg 0 (unframe f_heart1); GTick phone12; GGeo phone12]
  /\ ~ In GCount [GMsg 0 (unframe f_heart1); GTick phone12; GGeo phone12].
Proof. split; [carried|]. split; [vmr|]. split; [vmr|]. split; intros [H|[H|[H|[]]]]; discriminate H. Qed.

(** C72: in every schedule of any goroutines each index entry leads to an object with that
    key, objects stay and keep who they are, and the goroutines named [robust] (connections,
    listing, unfragmented messages that decode without panic) never panic *)
Theorem C72_all_schedules : forall e gs s sch, sane s -> (forall g, In g gs -> placed s g) ->
  sane (snd (running e gs s sch)) /\ grows s (snd (running e gs s sch))
  /\ forall i g, nth_error gs i = Some g -> robust e g -> nth_error (fst (running e gs s sch)) i <> Some (Ret Panic).
Proof. exact all_schedules. Qed.
Print Assumptions C72_all_schedules.
Theorem C72_histories : forall e now evs, sane (w_st (history e now evs)).
Proof. exact history_sane. Qed.
Print Assumptions C72_histories.
Example C72_ex : sane s2
  /\ (forall g, In g [GServe 0 [(Ok f_loc1, None)]; GMsg 1 (unframe f_heart1); GTick phone12; GList] -> placed s2 g).
Proof.
  split; [exact s2_sane|]. intros g [<-|[<-|[<-|[<-|[]]]]]; cbn [placed]; [rewrite s2_x1|rewrite s2_x2| |]; eauto.
Qed.

(** C94: goroutines that do not act for a phone leave what is stored under it alone, in every
    schedule *)
Theorem C94_isolation : forall e q gs s sch, sane s -> own_rings s -> Forall (placed s) gs -> Forall (avoids e q) gs ->
  untouched q s (snd (running e gs s sch)).
Proof. exact others_keep. Qed.
Print Assumptions C94_isolation.
Theorem C94_buffers : forall e gs s sch, sane s -> own_rings s -> Forall (placed s) gs -> own_rings (snd (running e gs s sch)).
Proof. exact buffers_apart. Qed.
Print Assumptions C94_buffers.
Theorem C94_histories : forall e now evs, sane (w_st (history e now evs)) /\ own_rings (w_st (history e now evs)).
Proof. intros e now evs. split; [exact (history_sane e now evs)|exact (history_apart e now evs)]. Qed.
Print Assumptions C94_histories.
(** locations, a logout, a keepalive check and time for the first device; the second is left
    alone, and the first is gone *)
Definition gs94 : list goroutine := [GServe 0 [(Ok f_loc1, None)]; GMsg 0 p_logout; GTick phone12; GClock 90000; GList].
Example C94_ex : sane s2 /\ own_rings s2 /\ Forall (placed s2) gs94 /\ Forall (avoids e0 phone12b) gs94
  /\ devAt s2 phone12b = Some d2 /\ devAt s2 phone12 = Some d1
  /\ devAt (snd (running e0 gs94 s2 (repeat 0 20 ++ repeat 1 20 ++ [3])%nat)) phone12 = None.
Proof.
  split; [exact s2_sane|]. split; [exact (history_apart e0 1000 _)|]. split.
  { unfold gs94. repeat constructor; cbn [placed]; rewrite s2_x1; eauto. }
  split; [|split; [exact s2_d2|split; [exact s2_d1|vmr]]].
  unfold gs94. constructor.
  { intros frm w p [[= <- <-]|[]] E. assert (E' : h_phone (pk_hdr (unframe f_loc1)) = phone12) by vmr.
    unfold unframe in E'. cbn [e_o e0] in E. rewrite E in E'. rewrite E'. intros H; discriminate H. }
  constructor; [intros H; vm_compute in H; discriminate H|]. constructor; [intros H; discriminate H|].
  repeat constructor.
Qed.

(** C95: a message of a device (no incomplete transfer; registrations are below), a keepalive check or
    a request for the latest location ends, among goroutines that do not act for that device
    and while no time passes, with the result and the stored data it has when it runs alone *)
Theorem C95_messages : forall e sl p, h_id (pk_hdr p) <> 0x0100 -> (fragment (pk_hdr p) = true -> pk_segdone p = true) ->
  undisturbed e (h_phone (pk_hdr p)) (process e sl p).
Proof. exact handler_alone. Qed.
Print Assumptions C95_messages.
Theorem C95_checks : forall e q, undisturbed e q (checkKeepalive q).
Proof. exact tick_alone. Qed.
Print Assumptions C95_checks.
Theorem C95_locations : forall e q, undisturbed e q (apiGeo q).
Proof. exact geo_alone. Qed.
Print Assumptions C95_locations.
(** the first report of the second device, step by step among messages of the first: no
    location buffer is at the same place as alone, the contents are *)
Definition p_loc2 : packet := pk (mkMsg (hidb 0x0200) (B0200 loc_on)).
Definition gs95 : list goroutine := [GMsg 0 p_logout; GTick phone12].
Example C95_ex : h_id (pk_hdr p_loc2) <> 0x0100 /\ fragment (pk_hdr p_loc2) = false
  /\ h_phone (pk_hdr p_loc2) = phone12b
  /\ Forall (placed s2) gs95 /\ Forall (avoids e0 phone12b) gs95 /\ Forall timeless gs95
  /\ nth_error (fst (beside e0 (process e0 1 p_loc2) gs95 s2 (List.concat (repeat [0; 1; 2] 20))%nat)) 0
     = Some (Ret (rmap Some (fst (run (process e0 1 p_loc2) s2))))
  /\ match fst (run (process e0 1 p_loc2) s2) with Ok (Some _) => True | _ => False end
  /\ ringOf s2 phone12b = None
  /\ match ringOf (snd (run (process e0 1 p_loc2) s2)) phone12b with Some r => rg_writer r = 1%Z | None => False end.
Proof.
  split; [intros H; vm_compute in H; discriminate H|]. split; [vmr|]. split; [vmr|]. split.
  { unfold gs95. repeat constructor; cbn [placed]; rewrite s2_x1; eauto. }
  split. { unfold gs95. constructor; [intros H; vm_compute in H; discriminate H|]. constructor; [intros H; discriminate H|]. constructor. }
  split; [repeat constructor|]. split; [vmr|]. split; [vm_compute; exact Logic.I|]. split; vmr.
Qed.
(** a registration too, when the others register no device with its plate; without this the
    answer may differ (C43) *)
Theorem C95_registrations : forall e sl p w, h_id (pk_hdr p) = 0x0100 -> (fragment (pk_hdr p) = true -> pk_segdone p = true) ->
  (forall now m r, msgDecode (e_o e) now K0100 p = Ok m -> m_body m = B0100 r -> r_plate r = w) ->
  registers_alone e (h_phone (pk_hdr p)) w sl (process e sl p).
Proof. exact registration_alone. Qed.
Print Assumptions C95_registrations.
(** in a consistent state the plate is free or taken by the phone itself *)
Theorem C95_spare : forall q w s, consistent s ->
  (devWithPlate s w = None \/ exists d, devAt s q = Some d /\ d_plate d = w) -> plate_spare q w s.
Proof. exact spare_consistent. Qed.
Print Assumptions C95_spare.
(** both devices register at the same time *)
Definition gs95r : list goroutine := [GServe 1 [(Ok f_reg2, None)]; GGeo phone12b].
Definition p_reg95 : packet := unframe f_reg1.
Example C95_ex_registrations : h_id (pk_hdr p_reg95) = 0x0100 /\ fragment (pk_hdr p_reg95) = false
  /\ (forall now m r, msgDecode (e_o e0) now K0100 p_reg95 = Ok m -> m_body m = B0100 r -> r_plate r = [65; 49])
  /\ h_phone (pk_hdr p_reg95) = phone12 /\ consistent s_two /\ devWithPlate s_two [65; 49] = None
  /\ Forall (placed s_two) gs95r /\ Forall (avoids e0 phone12) gs95r /\ Forall (avoids_plate e0 [65; 49]) gs95r /\ Forall timeless gs95r
  /\ nth_error (fst (beside e0 (process e0 0 p_reg95) gs95r s_two (List.concat (repeat [1; 0; 2] 30))%nat)) 0
     = Some (Ret (rmap Some (fst (run (process e0 0 p_reg95) s_two))))
  /\ match devWithPlate (snd (run (process e0 0 p_reg95) s_two)) [65; 49] with Some d => d_phone d = phone12 | None => False end
  /\ match devWithPlate (snd (beside e0 (process e0 0 p_reg95) gs95r s_two (List.concat (repeat [1; 0; 2] 30))%nat)) [65; 50] with
     | Some d => d_phone d = phone12b | None => False end.
Proof.
  assert (C : consistent s_two) by exact (wo_ok _ (history_ok e0 1000 _)).
  split; [vmr|]. split; [vmr|]. split.
  { intros now m r H Eb. vm_compute in H. injection H as <-. injection Eb as <-. reflexivity. }
  split; [vmr|]. split; [exact C|]. split; [vmr|]. split.
  { unfold gs95r. repeat constructor; cbn [placed]. exists x2. vmr. }
  assert (D : forall frm p, frm = f_reg2 -> decodePacket (e_o e0) frm = Ok p -> p = unframe f_reg2).
  { intros frm p -> E. unfold unframe. cbn [e_o e0] in E. rewrite E. reflexivity. }
  split.
  { unfold gs95r. constructor; [|constructor; [intros H; discriminate H|constructor]].
    intros frm w p [[= <- <-]|[]] E. rewrite (D _ _ eq_refl E). intros H; vm_compute in H; discriminate H. }
  split.
  { unfold gs95r. constructor; [|constructor; [exact Logic.I|constructor]].
    intros frm w p [[= <- <-]|[]] E. rewrite (D _ _ eq_refl E). intros _ now m r H Eb. vm_compute in H. injection H as <-.
    injection Eb as <-. cbn. intros H; discriminate H. }
  split; [repeat constructor|]. split; [vmr|]. split; vmr.
Qed.
