(** What does hold where a claim fails: C79, C80, C82, C84, C102 *)
From stdpp Require Import gmap.
From Verif Require Import Base HexM TimeM HeaderM ParamsM GeoM MsgM PacketM FrameM ProgM RingM StateM ProcM ServerM ConcM
  SpecCodec SpecState SpecConc SpecReg SpecTimely SpecOpen HandshakeP OpenP AgainP RegP StateP EffectP ExampleData ExampleState.
Local Open Scope N_scope.
Ltac vmr := vm_compute; reflexivity.

(** C79: a check closes a connection exactly when it removes the device *)
Theorem C79_partial : forall ph s d, consistent s -> devAt s ph = Some d ->
  exists s', run (checkKeepalive ph) s = (Ok tt, s')
    /\ (is_Some (devAt s' ph) -> st_conns s' = st_conns s)
    /\ (devAt s' ph = None -> forall k, st_conns s !! d_conn d = Some k -> st_conns s' !! d_conn d = Some (mkConn false (cn_out k)))
    /\ (forall c, c <> d_conn d -> st_conns s' !! c = st_conns s !! c).
Proof. exact closes_cleared. Qed.
Print Assumptions C79_partial.
(** the second device, registered and never authenticated, is removed; the first is turned offline *)
Definition s_late : st := set_clock 62001 s2.
Definition open_now (s : st) : list (option bool) := [cn_open <$> st_conns s !! 0%nat; cn_open <$> st_conns s !! 1%nat].
Example C79_partial_ex : consistent s_late /\ devAt s_late phone12b = Some d2 /\ devAt s_late phone12 = Some d1
  /\ devAt (snd (run (checkKeepalive phone12b) s_late)) phone12b = None
  /\ open_now (snd (run (checkKeepalive phone12b) s_late)) = [Some true; Some false]
  /\ open_now (snd (run (checkKeepalive phone12) s_late)) = [Some true; Some true].
Proof. split; [apply consistent_clock, s2_ok|]. repeat (split; [vmr|]). vmr. Qed.

(** C80: a check removes only a device it finds offline and silent for longer than one interval *)
Theorem C80_partial : forall ph s d, consistent s -> devAt s ph = Some d ->
  ~ (d_status d = Offline /\ (d_last d + d_keep d < st_clock s)%Z) ->
  exists s' d', run (checkKeepalive ph) s = (Ok tt, s') /\ devAt s' ph = Some d' /\ same_identity d d' /\ d_last d' = d_last d
    /\ ringOf s' ph = ringOf s ph /\ st_jobs s' = st_jobs s.
Proof. exact kept_once. Qed.
Print Assumptions C80_partial.
Example C80_partial_ex : consistent s_late /\ devAt s_late phone12 = Some d1
  /\ ~ (d_status d1 = Offline /\ (d_last d1 + d_keep d1 < st_clock s_late)%Z)
  /\ consistent s2 /\ devAt s2 phone12b = Some d2 /\ d_status d2 = Offline /\ ~ (d_last d2 + d_keep d2 < st_clock s2)%Z.
Proof.
  split; [apply consistent_clock, s2_ok|]. split; [vmr|]. split; [intros (H & _); vm_compute in H; discriminate H|].
  split; [exact s2_ok|]. split; [exact s2_d2|]. split; [reflexivity|]. vm_compute. discriminate.
Qed.

(** C82: a connection stays open, under every schedule, if no goroutine serves it, no check is of a device
    registered over it, and no Send reports it closed; whatever happens to the other connections *)
Theorem C82_partial : forall e gs s c phs sch, sane s -> still_open c s -> on_conn c phs s ->
  (forall g, In g gs -> placed s g /\ elsewhere c phs s g) ->
  let s' := snd (running e gs s sch) in still_open c s' /\ on_conn c phs s'.
Proof. exact stays_open. Qed.
Print Assumptions C82_partial.
(** the second device is cleared and its connection closed, and requests go to the first *)
Definition gs82 : list goroutine := [GTick phone12b; GGetParams phone12 (Some (3%nat, ErrIO)); GConn 5 addr2 [(Ok f_auth1, None)]; GServe 1 [(Err ErrEOF, None)]].
Example C82_partial_ex : sane s_late /\ still_open 0 s_late /\ on_conn 0 [phone12] s_late
  /\ (forall g, In g gs82 -> placed s_late g /\ elsewhere 0 [phone12] s_late g)
  /\ open_now (snd (running e0 gs82 s_late (repeat 0 50 ++ repeat 1 50)%nat)) = [Some true; Some false].
Proof.
  split; [destruct s2_sane; constructor; assumption|]. split; [eexists; split; vmr|]. split.
  { intros l d H Hc. assert (E : forallb (fun x => bool_decide (d_conn (snd x) = 0%nat -> In (d_phone (snd x)) [phone12]))
      (map_to_list (st_devs s_late)) = true) by vmr.
    rewrite forallb_forall in E. apply elem_of_map_to_list, elem_of_list_In in H. specialize (E _ H). apply bool_decide_eq_true in E. auto. }
  split; [|vmr].
  intros g [<-|[<-|[<-|[<-|[]]]]]; (split; [first [exact Logic.I|vm_compute; eexists; reflexivity]|]); cbn [elsewhere].
  - intros [H|[]]. vm_compute in H. discriminate H.
  - intros n er [= <- <-]. split; discriminate.
  - discriminate.
  - exists x2. split; [vmr|discriminate].
Qed.

(** C84: in every history, what is stored of a phone's locations does not change while the phone is not registered *)
Theorem C84_partial : forall e now evs ev ph, let w := history e now evs in let pl := follow e (world0 now) evs no_data in
  devAt (w_st w) ph = None -> track (w_st w) ph (reported pl ph) /\ track (w_st (step e w ev)) ph (reported pl ph).
Proof. exact only_registered. Qed.
Print Assumptions C84_partial.
(** the first device has logged out and its location comes after that *)
Definition evs_two : list event :=
  [EAccept 0 addr1; EAccept 1 addr2;
   EFrame 0 (Ok f_reg1) None; EFrame 1 (Ok f_reg2) None;
   EClock 2000; EFrame 0 (Ok f_auth1) None; EFrame 0 (Ok f_loc1) None].
Definition evs_gone : list event := evs_two ++ [EFrame 0 (Ok (frame (mkMsg (hid 0x0003) B0003))) None].
Example C84_partial_ex : devAt (w_st (history e0 1000 evs_gone)) phone12 = None
  /\ length (reported (follow e0 (world0 1000) evs_gone no_data) phone12) = 1%nat
  /\ bool_decide (0%nat ∈ w_live (history e0 1000 evs_gone)) = true
  /\ is_Some (received e0 (w_st (history e0 1000 evs_gone)) f_loc1).
Proof. repeat (split; [vmr|]). eexists. vmr. Qed.

(** C102: a device that has authenticated is not removed by what begins after that and within its
    keepalive interval, under every schedule *)
Theorem C102_partial : forall e sl s p al code imei sw d, consistent s -> sane s -> is_Some (st_sess s !! sl) ->
  carries e s p 0x0102 (B0102 al code imei sw) -> let ph := h_phone (pk_hdr p) in
  devAt s ph = Some d -> is_code (d_id d) (d_plate d) ph code -> (0 <= d_keep d)%Z ->
  exists res s1 d1, run (process e sl p) s = (Ok (Some res), s1)
    /\ devAt s1 ph = Some d1 /\ same_identity d d1 /\ d_status d1 = Online /\ d_last d1 = st_clock s1
    /\ forall gs sch, (forall g, In g gs -> placed s1 g /\ harmless e ph d1 g) ->
         exists d2, devAt (snd (running e gs s1 sch)) ph = Some d2 /\ same_identity d d2 /\ d_status d2 <> Offline.
Proof. exact authentication_protects. Qed.
Print Assumptions C102_partial.
(** the second device authenticates when it is due to be cleared, and checks come after that *)
Definition code_b : str := genAuthCode d2.
Definition p_authb : packet := pk (mkMsg (hidb 0x0102) (B0102 0 code_b [] [])).
Definition gs102 : list goroutine := [GTick phone12b; GClock 122001; GTick phone12b; GList].
Example C102_partial_ex : consistent s_late /\ sane s_late /\ is_Some (st_sess s_late !! 1%nat)
  /\ carries e0 s_late p_authb 0x0102 (B0102 0 code_b [] []) /\ h_phone (pk_hdr p_authb) = phone12b
  /\ devAt s_late phone12b = Some d2 /\ d_status d2 = Offline /\ (d_last d2 + d_keep d2 < st_clock s_late)%Z
  /\ is_code (d_id d2) (d_plate d2) phone12b code_b /\ (0 <= d_keep d2)%Z
  /\ (let s1 := snd (run (process e0 1 p_authb) s_late) in
      forall d g, same_identity d2 d -> d_last d = st_clock s1 -> In g gs102 -> placed s1 g /\ harmless e0 phone12b d g)
  /\ devAt (snd (run (checkKeepalive phone12b) s_late)) phone12b = None.
Proof.
  split; [apply consistent_clock, s2_ok|]. split; [destruct s2_sane; constructor; assumption|]. split; [vm_compute; eexists; reflexivity|].
  split; [split; [vmr|split; [left; vmr|vmr]]|]. split; [vmr|]. split; [vmr|]. split; [vmr|]. split; [vmr|].
  split; [apply (proj2 (code_iff d2 code_b)); reflexivity|]. split; [vm_compute; discriminate|]. split; [|vmr].
  intros s1 d g (_ & _ & _ & _ & _ & Hk & _) Hl [<-|[<-|[<-|[<-|[]]]]]; cbn [placed harmless]; auto. split; [exact Logic.I|].
  unfold within. rewrite Hl, Hk. vm_compute. split; discriminate.
Qed.
