(** Property theorems C151: devices and their keepalive jobs while goroutines interleave *)
From stdpp Require Import gmap.
From Verif Require Import Base HexM TimeM HeaderM ParamsM GeoM MsgM PacketM FrameM ProgM RingM
  StateM ProcM ServerM ConcM SpecState SpecConc SpecCodec StateP ServerP InterP OriginP ConcP JobsP SpecJobs
  ExampleData ExampleState Properties_Conc.
Local Open Scope N_scope.

(** When each message and each check has ended that acted for a phone, one job checks its
    device if there is one, and there is no job for it if there is none: so it is in any
    consistent state, and so it stays when a message of the phone, its registration or a check
    of it runs step by step among any goroutines acting for other phones. *)
Theorem C151_messages_partial : forall e sl p gs s sch r, let q := h_phone (pk_hdr p) in
  h_id (pk_hdr p) <> 0x0100 -> (fragment (pk_hdr p) = true -> pk_segdone p = true) ->
  consistent s -> sane s -> is_Some (st_sess s !! sl) ->
  Forall (placed s) gs -> Forall (avoids e q) gs -> Forall timeless gs ->
  nth_error (fst (beside e (process e sl p) gs s sch)) 0 = Some (Ret r) ->
  watched q (snd (beside e (process e sl p) gs s sch)).
Proof. exact watched_message. Qed.
Print Assumptions C151_messages_partial.
Theorem C151_registrations_partial : forall e sl p w gs s sch r, let q := h_phone (pk_hdr p) in
  h_id (pk_hdr p) = 0x0100 -> (fragment (pk_hdr p) = true -> pk_segdone p = true) ->
  (forall now m r, msgDecode (e_o e) now K0100 p = Ok m -> m_body m = B0100 r -> r_plate r = w) ->
  consistent s -> sane s -> is_Some (st_sess s !! sl) -> plate_spare q w s ->
  Forall (placed s) gs -> Forall (avoids e q) gs -> Forall (avoids_plate e w) gs -> Forall timeless gs ->
  nth_error (fst (beside e (process e sl p) gs s sch)) 0 = Some (Ret r) ->
  watched q (snd (beside e (process e sl p) gs s sch)).
Proof. exact watched_registration. Qed.
Print Assumptions C151_registrations_partial.
Theorem C151_checks_partial : forall e q gs s sch r, q ∈ st_jobs s -> consistent s -> sane s ->
  Forall (placed s) gs -> Forall (avoids e q) gs -> Forall timeless gs ->
  nth_error (fst (beside e (checkKeepalive q) gs s sch)) 0 = Some (Ret r) ->
  r = Ok (Some tt) /\ watched q (snd (beside e (checkKeepalive q) gs s sch)).
Proof. exact watched_check. Qed.
Print Assumptions C151_checks_partial.
Theorem C151_consistent : forall q s, consistent s -> watched q s.
Proof. exact watched_consistent. Qed.
Print Assumptions C151_consistent.
(** the first device logs out, is checked, and the second logs out, in turns: no job of the
    second is left *)
Definition p_out2 : packet := pk (mkMsg (hidb 0x0003) B0003).
Definition turns : list nat := List.concat (repeat [0; 1; 2] 20)%nat.
Example C151_ex : h_id (pk_hdr p_out2) <> 0x0100 /\ fragment (pk_hdr p_out2) = false /\ h_phone (pk_hdr p_out2) = phone12b
  /\ consistent s2 /\ sane s2 /\ is_Some (st_sess s2 !! 1%nat)
  /\ Forall (placed s2) gs95 /\ Forall (avoids e0 phone12b) gs95 /\ Forall timeless gs95
  /\ (exists r, nth_error (fst (beside e0 (process e0 1 p_out2) gs95 s2 turns)) 0 = Some (Ret (Ok r)))
  /\ jobs_of phone12b s2 = [phone12b] /\ jobs_of phone12b (snd (beside e0 (process e0 1 p_out2) gs95 s2 turns)) = []
  /\ phone12b ∈ st_jobs s2
  /\ (exists r, nth_error (fst (beside e0 (checkKeepalive phone12b) gs95 s2 turns)) 0 = Some (Ret (Ok r)))
  /\ jobs_of phone12b (snd (beside e0 (checkKeepalive phone12b) gs95 s2 turns)) = [phone12b]
  /\ (exists r, nth_error (fst (beside e0 (process e0 0 p_reg95) gs95r s_two turns)) 0 = Some (Ret (Ok r)))
  /\ jobs_of phone12 s_two = []
  /\ jobs_of phone12 (snd (beside e0 (process e0 0 p_reg95) gs95r s_two turns)) = [phone12].
Proof.
  split; [intros H; vm_compute in H; discriminate H|]. split; [vmr|]. split; [vmr|]. split; [exact s2_ok|].
  split; [exact s2_sane|]. split; [rewrite s2_x2; eauto|].
  destruct C95_ex as (_ & _ & _ & H1 & H2 & H3 & _). repeat (split; [assumption|]).
  split; [eexists; vmr|]. split; [vmr|]. split; [vmr|]. split; [replace (st_jobs s2) with [phone12; phone12b] by vmr; right; left|].
  split; [eexists; vmr|]. split; [vmr|]. split; [eexists; vmr|]. split; vmr.
Qed.

(** Among goroutines acting for the same phone none of the three holds.  A logout that comes
    between the look-up of the device and the adding of its job leaves a job without a device:
    its next check panics, outside any recover. *)
Theorem C151_refuted_orphan : forall e sl sl' s x p r p', consistent s -> st_sess s !! sl = Some x ->
  carries e s p 0x0100 (B0100 r) -> carries e s p' 0x0003 B0003 -> h_phone (pk_hdr p') = h_phone (pk_hdr p) ->
  devWithPlate s (r_plate r) = None -> devAt s (h_phone (pk_hdr p)) = None ->
  exists sch m m' s' c, psteps [process e sl p; process e sl' p'] s sch = ([Ret (Ok (Some m)); Ret (Ok (Some m'))], s')
    /\ answers p 0x8100 (B8100 (h_sn (pk_hdr p)) 0 c) m
    /\ answers p' 0x8001 (B8001 (h_sn (pk_hdr p')) 0x0003 0) m'
    /\ devAt s' (h_phone (pk_hdr p)) = None /\ jobs_of (h_phone (pk_hdr p)) s' = [h_phone (pk_hdr p)]
    /\ fst (run (checkKeepalive (h_phone (pk_hdr p))) s') = Panic.
Proof. exact orphan. Qed.
Print Assumptions C151_refuted_orphan.
(** Two registrations of one phone leave two jobs for the one device. *)
Theorem C151_refuted_twice : forall e sl sl' s x x' p r p' r', consistent s ->
  st_sess s !! sl = Some x -> st_sess s !! sl' = Some x' ->
  carries e s p 0x0100 (B0100 r) -> carries e s p' 0x0100 (B0100 r') -> h_phone (pk_hdr p') = h_phone (pk_hdr p) ->
  devWithPlate s (r_plate r) = None -> devWithPlate s (r_plate r') = None -> devAt s (h_phone (pk_hdr p)) = None ->
  exists sch m m' s' c c', psteps [process e sl p; process e sl' p'] s sch = ([Ret (Ok (Some m)); Ret (Ok (Some m'))], s')
    /\ answers p 0x8100 (B8100 (h_sn (pk_hdr p)) 0 c) m /\ answers p' 0x8100 (B8100 (h_sn (pk_hdr p')) 0 c') m'
    /\ is_Some (devAt s' (h_phone (pk_hdr p)))
    /\ jobs_of (h_phone (pk_hdr p)) s' = [h_phone (pk_hdr p); h_phone (pk_hdr p)].
Proof. exact twice. Qed.
Print Assumptions C151_refuted_twice.
(** A heartbeat that has read the device when it logs out stores it again, without a job: whatever
    the others do and however much time passes, it stays registered and no job checks it until it
    sends a message itself. *)
Theorem C151_refuted_forgotten : forall e sl sl' s p p' d, consistent s -> sane s ->
  is_Some (st_sess s !! sl) -> is_Some (st_sess s !! sl') ->
  carries e s p 0x0002 B0002 -> carries e s p' 0x0003 B0003 -> h_phone (pk_hdr p') = h_phone (pk_hdr p) ->
  devAt s (h_phone (pk_hdr p)) = Some d ->
  exists sch s' d', running e [GMsg sl p; GMsg sl' p'] s sch = ([Ret (Ok tt); Ret (Ok tt)], s')
    /\ devAt s' (h_phone (pk_hdr p)) = Some d'
    /\ forall gs sch2, Forall (placed s') gs -> Forall (avoids e (h_phone (pk_hdr p))) gs ->
         devAt (snd (running e gs s' sch2)) (h_phone (pk_hdr p)) = Some d'
         /\ jobs_of (h_phone (pk_hdr p)) (snd (running e gs s' sch2)) = [].
Proof. exact forgotten. Qed.
Print Assumptions C151_refuted_forgotten.
Example C151_forgotten_ex : consistent s2 /\ sane s2 /\ is_Some (st_sess s2 !! 0%nat) /\ is_Some (st_sess s2 !! 1%nat)
  /\ carries e0 s2 (unframe f_heart1) 0x0002 B0002 /\ carries e0 s2 p_logout 0x0003 B0003
  /\ h_phone (pk_hdr p_logout) = h_phone (pk_hdr (unframe f_heart1)) /\ devAt s2 (h_phone (pk_hdr (unframe f_heart1))) = Some d1
  /\ avoids e0 phone12 (GClock 90000) /\ avoids e0 phone12 (GTick phone12b).
Proof.
  destruct C58_ex as (H1 & H2 & H3 & H4 & H5 & _). split; [exact H1|]. split; [exact s2_sane|].
  split; [rewrite s2_x1; eauto|]. split; [rewrite s2_x2; eauto|]. repeat (split; [assumption|]).
  split; [exact Logic.I|]. cbn. discriminate.
Qed.
(** What two jobs do once the keepalive has run out: the first check takes the device offline,
    the second, in the same round, clears it; a further one panics. *)
Theorem C151_round : forall q s d, devAt s q = Some d -> d_phone d = q ->
  d_status d <> Offline -> (d_last d + d_keep d < st_clock s)%Z ->
  exists s1 s2, run (checkKeepalive q) s = (Ok tt, s1) /\ devAt s1 q = Some (dset_status d Offline)
    /\ run (checkKeepalive q) s1 = (Ok tt, s2) /\ devAt s2 q = None /\ fst (run (checkKeepalive q) s2) = Panic.
Proof. exact checked_twice. Qed.
Print Assumptions C151_round.
Definition p_reg_b : packet := pk (mkMsg (hid 0x0100) (B0100 reg2)).
Example C151_refuted_ex : consistent s_two /\ st_sess s_two !! 0%nat = Some x1 /\ st_sess s_two !! 1%nat = Some x2
  /\ carries e0 s_two (unframe f_reg1) 0x0100 (B0100 reg_in) /\ carries e0 s_two p_logout 0x0003 B0003
  /\ (exists r', carries e0 s_two p_reg_b 0x0100 (B0100 r') /\ r_plate r' <> r_plate reg_in /\ devWithPlate s_two (r_plate r') = None)
  /\ h_phone (pk_hdr p_logout) = h_phone (pk_hdr (unframe f_reg1)) /\ h_phone (pk_hdr p_reg_b) = h_phone (pk_hdr (unframe f_reg1))
  /\ devWithPlate s_two (r_plate reg_in) = None /\ devAt s_two (h_phone (pk_hdr (unframe f_reg1))) = None
  /\ devAt s2 phone12 = Some d1 /\ d_phone d1 = phone12 /\ d_status d1 <> Offline.
Proof.
  destruct C43_ex as (C & H0 & H1 & H2 & _).
  split; [exact C|]. split; [exact H0|]. split; [exact H1|]. split; [exact H2|]. split; [carried|].
  split.
  { eexists. split; [split; [vmr|split; [left; vmr|]]|].
    - vmr.
    - split; [vm_compute; discriminate|vmr]. }
  repeat (split; [vmr|]). vm_compute. discriminate.
Qed.
