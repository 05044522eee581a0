(** Property theorems C74-C84: the server refines the abstract platform; the life of a
    registration. *)
From stdpp Require Import gmap.
From Verif Require Import Base HexM TimeM HashM HeaderM ParamsM GeoM MsgM PacketM FrameM ProgM RingM SpecRing
  StateM ProcM ServerM SpecState SpecCodec SpecReg StateP ProcP ServerP EffectP CmdP RegP LifeP ExampleData ExampleState.
Local Open Scope N_scope.
Ltac vmr := vm_compute; reflexivity.

(** C74: after any history the registered devices, their records, the locations and the
    parameters are those of the abstract platform, and the answer to the next message is the
    one it gives. *)
Theorem C74_data : forall e now evs,
  shows (w_st (history e now evs)) (follow e (world0 now) evs no_data).
Proof. exact refinement. Qed.
Print Assumptions C74_data.
Theorem C74_answer : forall e now evs sl frm x k h b,
  let w := history e now evs in
  let pl := follow e (world0 now) evs no_data in
  let s := w_st w in
  let w' := step e w (EFrame sl (Ok frm) None) in
  sl ∈ w_live w -> st_sess s !! sl = Some x -> st_conns s !! ss_conn x = Some k -> received e s frm = Some (h, b) ->
  let o := outcome e k h (snd (handle (builtin e) (ss_id x) (ss_conn x) (st_clock s) (e_civil e (st_clock s)) h b pl)) in
  st_conns (w_st w') !! ss_conn x = Some (mkConn (snd o && cn_open k) (cn_out k ++ fst o))
  /\ (forall c, c <> ss_conn x -> st_conns (w_st w') !! c = st_conns s !! c)
  /\ w_live w' = (if snd o then w_live w else w_live w ∖ {[sl]}).
Proof. exact answered. Qed.
Print Assumptions C74_answer.
Definition evs2 : list event :=
  [EAccept 0 addr1; EAccept 1 addr2;
   EFrame 0 (Ok f_reg1) None; EFrame 1 (Ok f_reg2) None;
   EClock 2000; EFrame 0 (Ok f_auth1) None; EFrame 0 (Ok f_loc1) None].
Definition pl2 : platform := follow e0 (world0 1000) evs2 no_data.
Example C74_ex : w2 = history e0 1000 evs2 /\ pf_dev pl2 !! phone12 = Some d1 /\ pf_dev pl2 !! phone12b = Some d2
  /\ length (reported pl2 phone12) = 1%nat
  /\ bool_decide (0%nat ∈ w_live w2) = true
  /\ received e0 s2 f_heart1 = Some (pk_hdr (unframe f_heart1), B0002)
  /\ snd (handle (builtin e0) addr1 0 2000 t_now (pk_hdr (unframe f_heart1)) B0002 pl2)
     = Ok (Some (0x8001, B8001 (h_sn (pk_hdr (unframe f_heart1))) 0x0002 0)).
Proof. split; [reflexivity|]. repeat (split; [vmr|]). vmr. Qed.

(** C75 *)
Theorem C75_list : forall e now evs, let s := w_st (history e now evs) in let pl := follow e (world0 now) evs no_data in
  exists ls ds, run apiList s = (Ok ls, s) /\ Forall2 (fun l d => st_devs s !! l = Some d) ls ds
    /\ base.NoDup ds /\ forall d, d ∈ ds <-> exists ph, pf_dev pl !! ph = Some d.
Proof. exact device_list. Qed.
Print Assumptions C75_list.
Example C75_ex : exists l l', fst (run apiList s2) = Ok [l; l']
  /\ List.map d_plate (omap (fun i => st_devs s2 !! i) [l; l']) = [d_plate d1; d_plate d2].
Proof. eexists _, _. split; vmr. Qed.

(** C76: the request shows the last location unless the number of locations is a multiple of
    100; then a registered device has none *)
Theorem C76_geo_partial : forall e now evs ph, let s := w_st (history e now evs) in let pl := follow e (world0 now) evs no_data in
  fst (run (apiGeo ph) s) =
  match pf_dev pl !! ph with
  | None => Ok ([400], None)
  | Some _ => if (length (reported pl ph) mod 100 =? 0)%nat then Ok ([], None)
              else Ok ([200], last_of (reported pl ph))
  end.
Proof. exact geo_request. Qed.
Print Assumptions C76_geo_partial.
Theorem C76_refuted : forall e now evs ph d, let s := w_st (history e now evs) in let pl := follow e (world0 now) evs no_data in
  pf_dev pl !! ph = Some d -> (length (reported pl ph) mod 100 = 0)%nat ->
  fst (run (apiGeo ph) s) = Ok ([], None).
Proof. exact geo_lost. Qed.
Print Assumptions C76_refuted.
(** 99 more locations *)
Definition evs100 : list event := evs2 ++ List.repeat (EFrame 0 (Ok f_loc1) None) 99.
Example C76_ex : let pl := follow e0 (world0 1000) evs100 no_data in
  pf_dev pl !! phone12 = Some d1 /\ length (reported pl phone12) = 100%nat
  /\ fst (run (apiGeo phone12) s2) = Ok ([200], last_of (reported pl2 phone12)) /\ is_Some (last_of (reported pl2 phone12)).
Proof. split; [vmr|]. split; [vmr|]. split; [vmr|]. eexists. vmr. Qed.

(** C77 *)
Theorem C77_identity : forall e now evs ev ph d d', let w := history e now evs in
  devAt (w_st w) ph = Some d -> devAt (w_st (step e w ev)) ph = Some d' -> same_identity d d'.
Proof. exact identity. Qed.
Print Assumptions C77_identity.
Definition w_auth : world := history e0 1000 [EAccept 0 addr1; EFrame 0 (Ok f_reg1) None; EClock 2000].
Example C77_ex : exists d, devAt (w_st w_auth) phone12 = Some d
  /\ devAt (w_st (step e0 w_auth (EFrame 0 (Ok f_auth1) None))) phone12 = Some d1 /\ d <> d1.
Proof.
  eexists. split; [vmr|]. split; [vmr|]. intros H. apply (f_equal d_status) in H. vm_compute in H. discriminate H.
Qed.

(** C78: only these messages refresh the last communication time; a location report with ACC
    on is not one of them, and the next check due turns the reporting device offline *)
Theorem C78_refreshed_partial : forall e now evs ev ph d d', let w := history e now evs in let s := w_st w in
  devAt s ph = Some d -> devAt (w_st (step e w ev)) ph = Some d' -> d_last d' <> d_last d ->
  d_last d' = st_clock s /\ exists sl frm wr h b, ev = EFrame sl (Ok frm) wr /\ received e s frm = Some (h, b)
    /\ h_phone h = ph /\ refreshing b d.
Proof. exact refreshed. Qed.
Print Assumptions C78_refreshed_partial.
Theorem C78_refuted : forall e now evs sl frm wr h m d, let w := history e now evs in let s := w_st w in
  sl ∈ w_live w -> received e s frm = Some (h, B0200 m) -> devAt s (h_phone h) = Some d -> N.testbit (l_status m) 0 = true ->
  let s' := w_st (step e w (EFrame sl (Ok frm) wr)) in
  devAt s' (h_phone h) = Some d
  /\ forall t, (d_last d + d_keep d < t)%Z -> d_status d <> Offline ->
       devAt (snd (run (checkKeepalive (h_phone h)) (set_clock t s'))) (h_phone h) = Some (with_status d Offline).
Proof. exact unheard. Qed.
Print Assumptions C78_refuted.
(** the location arrives a millisecond before the check *)
Definition evs_late : list event := evs2 ++ [EClock 62000].
Example C78_ex : let w := history e0 1000 evs_late in
  bool_decide (0%nat ∈ w_live w) = true /\ (exists m, received e0 (w_st w) f_loc1 = Some (pk_hdr (unframe f_loc1), B0200 m)
    /\ N.testbit (l_status m) 0 = true)
  /\ devAt (w_st w) (h_phone (pk_hdr (unframe f_loc1))) = Some d1 /\ (d_last d1 + d_keep d1 < 62001)%Z /\ d_status d1 <> Offline
  /\ exists d', devAt (w_st (step e0 w (EFrame 0 (Ok f_heart1) None))) phone12 = Some d' /\ d_last d' <> d_last d1.
Proof.
  split; [vmr|]. split; [eexists; split; vmr|]. split; [vmr|]. split; [vmr|]. split; [discriminate|].
  eexists. split; [vmr|]. intros H. vm_compute in H. discriminate H.
Qed.

(** C79 *)
Theorem C79_refuted : forall ph s d, consistent s -> devAt s ph = Some d -> d_status d <> Offline ->
  (d_last d + d_keep d < st_clock s)%Z ->
  exists s', run (checkKeepalive ph) s = (Ok tt, s') /\ devAt s' ph = Some (with_status d Offline) /\ st_conns s' = st_conns s.
Proof. exact offline_open. Qed.
Print Assumptions C79_refuted.
Example C79_ex : consistent (set_clock 62001 s2) /\ devAt (set_clock 62001 s2) phone12 = Some d1 /\ d_status d1 <> Offline
  /\ (d_last d1 + d_keep d1 < 62001)%Z.
Proof.
  split; [|split; [vmr|split; [discriminate|vmr]]].
  destruct s2_ok. constructor; assumption.
Qed.

(** C80: whenever the next check comes (t), even before three keepalive times have passed *)
Theorem C80_refuted : forall ph s d t, consistent s -> devAt s ph = Some d -> d_status d <> Offline ->
  (d_last d + d_keep d < st_clock s)%Z -> (st_clock s <= t)%Z ->
  exists s1 s2, run (checkKeepalive ph) s = (Ok tt, s1) /\ devAt s1 ph = Some (with_status d Offline)
    /\ run (checkKeepalive ph) (set_clock t s1) = (Ok tt, s2) /\ devAt s2 ph = None /\ ringOf s2 ph = None.
Proof. exact cleared_early. Qed.
Print Assumptions C80_refuted.
Example C80_ex : consistent (set_clock 62001 s2) /\ devAt (set_clock 62001 s2) phone12 = Some d1 /\ d_status d1 <> Offline
  /\ (d_last d1 + d_keep d1 < 62001)%Z /\ (62001 <= 122001)%Z /\ (122001 < d_last d1 + 3 * d_keep d1)%Z.
Proof. destruct C79_ex as (H1 & H2 & H3 & H4). repeat (split; [assumption|]). split; [|vmr]. intros H. discriminate H. Qed.

(** C81: a logout from a connection the device never used is carried out; in general the data
    do not depend on the connection a message comes from, registrations aside *)
Theorem C81_refuted : forall e now evs sl frm wr x h d, let w := history e now evs in let s := w_st w in
  sl ∈ w_live w -> st_sess s !! sl = Some x -> received e s frm = Some (h, B0003) -> devAt s (h_phone h) = Some d ->
  ss_conn x <> d_conn d -> devAt (w_st (step e w (EFrame sl (Ok frm) wr))) (h_phone h) = None.
Proof. exact foreign_logout. Qed.
Print Assumptions C81_refuted.
Theorem C81_refuted_any : forall e now evs sl sl' frm wr wr' h b, let w := history e now evs in let s := w_st w in
  sl ∈ w_live w -> sl' ∈ w_live w -> received e s frm = Some (h, b) -> (forall r, b <> B0100 r) ->
  forall ph, let s1 := w_st (step e w (EFrame sl (Ok frm) wr)) in let s2 := w_st (step e w (EFrame sl' (Ok frm) wr')) in
  devAt s1 ph = devAt s2 ph /\ st_params s1 !! ph = st_params s2 !! ph
  /\ exists ws, track s1 ph ws /\ track s2 ph ws.
Proof. exact any_session. Qed.
Print Assumptions C81_refuted_any.
Definition f_out1 : bytes := frame (mkMsg (hid 0x0003) B0003).
Example C81_ex : bool_decide (0%nat ∈ w_live w2) = true /\ bool_decide (1%nat ∈ w_live w2) = true
  /\ st_sess s2 !! 1%nat = Some x2 /\ received e0 s2 f_out1 = Some (pk_hdr (unframe f_out1), B0003)
  /\ devAt s2 (h_phone (pk_hdr (unframe f_out1))) = Some d1 /\ ss_conn x2 <> d_conn d1.
Proof. repeat (split; [vmr|]). discriminate. Qed.

(** C82: the records of other devices are untouched (C55, C56), their connection need not be *)
Theorem C82_refuted : forall ph ph' s d d' k, consistent s -> devAt s ph = Some d -> d_status d = Offline ->
  (d_last d + d_keep d < st_clock s)%Z -> ph' <> ph -> devAt s ph' = Some d' -> d_conn d' = d_conn d ->
  st_conns s !! d_conn d = Some k ->
  exists s', run (checkKeepalive ph) s = (Ok tt, s') /\ devAt s' ph' = Some d'
    /\ st_conns s' !! d_conn d' = Some (mkConn false (cn_out k)).
Proof. exact shared_closed. Qed.
Print Assumptions C82_refuted.
(** both devices registered over the first connection; the first one has just authenticated *)
Definition evs_one : list event :=
  [EAccept 0 addr1; EFrame 0 (Ok f_reg1) None; EFrame 0 (Ok f_reg2) None; EClock 62001; EFrame 0 (Ok f_auth1) None].
Example C82_ex : let s := w_st (history e0 1000 evs_one) in
  consistent s /\ exists d d' k, devAt s phone12b = Some d /\ d_status d = Offline /\ (d_last d + d_keep d < st_clock s)%Z
    /\ devAt s phone12 = Some d' /\ d_status d' = Online /\ d_conn d' = d_conn d /\ st_conns s !! d_conn d = Some k
    /\ cn_open k = true.
Proof.
  split; [exact (wo_ok _ (history_ok e0 1000 _))|]. eexists _, _, _. repeat (split; [vmr|]). vmr.
Qed.

(** C83 *)
Theorem C83_records : forall e now evs ph d, devAt (w_st (history e now evs)) ph = Some d -> record_ok ph d.
Proof. exact records. Qed.
Print Assumptions C83_records.
Example C83_ex : devAt (w_st (history e0 1000 evs2)) phone12 = Some d1
  /\ d_auth d1 = code_for (d_id d1) (d_plate d1) phone12 /\ d_auth d2 = [].
Proof. repeat (split; [vmr|]). vmr. Qed.

(** C84 *)
Theorem C84_refuted : forall e now evs sl frm wr h m d, let w := history e now evs in let s := w_st w in
  let pl := follow e (world0 now) evs no_data in
  sl ∈ w_live w -> received e s frm = Some (h, B0200 m) -> devAt s (h_phone h) = Some d -> d_auth d = [] ->
  exists g, track (w_st (step e w (EFrame sl (Ok frm) wr))) (h_phone h) (reported pl (h_phone h) ++ [g]).
Proof. exact unauthenticated. Qed.
Print Assumptions C84_refuted.
Definition f_loc2 : bytes := frame (mkMsg (hidb 0x0200) (B0200 loc_on)).
Example C84_ex : bool_decide (1%nat ∈ w_live w2) = true
  /\ (exists m, received e0 s2 f_loc2 = Some (pk_hdr (unframe f_loc2), B0200 m))
  /\ devAt s2 (h_phone (pk_hdr (unframe f_loc2))) = Some d2 /\ d_auth d2 = [].
Proof. split; [vmr|]. split; [eexists; vmr|]. split; vmr. Qed.

(** C85: heartbeats and location reports with ACC on leave the status as it is, so a sleeping or
    offline device that is heard again does not become online; only a correct authentication
    (or, for an offline device, a general platform answer sent by the device) makes it so *)
Theorem C85_refuted : forall e now evs sl frm wr h b d, let w := history e now evs in
  sl ∈ w_live w -> received e (w_st w) frm = Some (h, b) -> devAt (w_st w) (h_phone h) = Some d ->
  b = B0002 \/ (exists m, b = B0200 m /\ N.testbit (l_status m) 0 = true) ->
  exists d', devAt (w_st (step e w (EFrame sl (Ok frm) wr))) (h_phone h) = Some d' /\ d_status d' = d_status d.
Proof. exact not_woken. Qed.
Print Assumptions C85_refuted.
Theorem C85_partial : forall e now evs ev ph d d', let w := history e now evs in
  devAt (w_st w) ph = Some d -> devAt (w_st (step e w ev)) ph = Some d' -> d_status d' <> d_status d -> d_status d' = Online ->
  exists sl frm wr h b, ev = EFrame sl (Ok frm) wr /\ received e (w_st w) frm = Some (h, b) /\ h_phone h = ph
    /\ ((exists al imei sw, b = B0102 al (code_for (d_id d) (d_plate d) ph) imei sw)
        \/ (exists sn id, b = B8001 sn id 0 /\ d_status d = Offline)).
Proof. exact woken. Qed.
Print Assumptions C85_partial.
(** the first device reports ACC off, sleeps, then reports ACC on *)
Definition f_sleep1 : bytes := frame (mkMsg (hid 0x0200) (B0200 loc_off)).
Definition w_sleep : world := history e0 1000 (evs2 ++ [EFrame 0 (Ok f_sleep1) None]).
Example C85_ex : (exists d, devAt (w_st w_sleep) phone12 = Some d /\ d_status d = Sleeping)
  /\ bool_decide (0%nat ∈ w_live w_sleep) = true
  /\ (exists m, received e0 (w_st w_sleep) f_loc1 = Some (pk_hdr (unframe f_loc1), B0200 m) /\ N.testbit (l_status m) 0 = true)
  /\ h_phone (pk_hdr (unframe f_loc1)) = phone12
  /\ exists d', devAt (w_st (step e0 w_sleep (EFrame 0 (Ok f_auth1) None))) phone12 = Some d' /\ d_status d' = Online.
Proof.
  split; [eexists; split; vmr|]. split; [vmr|]. split; [eexists; split; vmr|]. split; [vmr|]. eexists; split; vmr.
Qed.

(** C86: whatever else happens *)
Theorem C86_stays : forall e now evs evs' ph d, let w := history e now evs in
  devAt (w_st w) ph = Some d -> d_status d <> Offline -> (d_last d <= st_clock (w_st w))%Z ->
  attended e ph w (d_last d) evs' ->
  exists d', devAt (w_st (history e now (evs ++ evs'))) ph = Some d' /\ d_status d' <> Offline /\ same_identity d d'.
Proof. exact stays. Qed.
Print Assumptions C86_stays.
(** a device is removed only by its own logout, a wrong code in its name, or a check that finds
    it offline and silent for a minute *)
Theorem C86_removed : forall e now evs ev ph d, let w := history e now evs in
  devAt (w_st w) ph = Some d -> devAt (w_st (step e w ev)) ph = None ->
  leaves e ph w ev \/ (ev = ETick ph /\ (d_last d + d_keep d < st_clock (w_st w))%Z /\ d_status d = Offline).
Proof. exact event_gone. Qed.
Print Assumptions C86_removed.
(** a heartbeat after 50 s, checks after 60 s and 110 s; without it the second check is late *)
Example C86_ex : let w := history e0 1000 evs2 in
  devAt (w_st w) phone12 = Some d1 /\ d_status d1 <> Offline /\ (d_last d1 <= st_clock (w_st w))%Z
  /\ attended e0 phone12 w (d_last d1)
       [EClock 52000; EFrame 0 (Ok f_heart1) None; EClock 62000; ETick phone12; EClock 112000; ETick phone12]
  /\ exists d', devAt (w_st (history e0 1000 (evs2 ++ [EClock 112000; ETick phone12]))) phone12 = Some d' /\ d_status d' = Offline.
Proof.
  split; [vmr|]. split; [discriminate|]. split; [vm_compute; discriminate|]. split; [|eexists; split; vmr].
  assert (Hc : forall t e ph w, ~ leaves e ph w (EClock t)) by (intros t e ph w (sl & frm & wr & h & b & E & _); discriminate E).
  assert (Ht : forall q e ph w, ~ leaves e ph w (ETick q)) by (intros q e ph w (sl & frm & wr & h & b & E & _); discriminate E).
  apply at_other; [apply Hc|intros E; discriminate E|intros t [= <-]; vm_compute; discriminate|].
  apply at_beat.
  { exists 0%nat, f_heart1, None, (pk_hdr (unframe f_heart1)). split; [reflexivity|]. split; [|split; vmr].
    apply (bool_decide_unpack _). vm_compute. exact I. }
  apply at_other; [apply Hc|intros E; discriminate E|intros t [= <-]; vm_compute; discriminate|].
  apply at_other; [apply Ht|intros _; vm_compute; discriminate|intros t E; discriminate E|].
  apply at_other; [apply Hc|intros E; discriminate E|intros t [= <-]; vm_compute; discriminate|].
  apply at_other; [apply Ht|intros _; vm_compute; discriminate|intros t E; discriminate E|].
  apply at_nil.
Qed.
