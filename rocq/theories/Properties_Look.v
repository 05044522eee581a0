(** A location request while reports come in (C149) *)
From stdpp Require Import gmap.
From Verif Require Import Base HexM TimeM HeaderM ParamsM GeoM MsgM PacketM FrameM ProgM RingM StateM ProcM ServerM ConcM
  SpecRing SpecCodec SpecState SpecConc SpecReg SpecLook StateP EffectP ServerP RegP LifeP RaceP ConcP InterP IsoP LookP LookAnswerP ExampleData ExampleState
  Properties_State Properties_Conc Properties_Reg Properties_Dates.
Local Open Scope N_scope.

(** C149: whatever runs beside a location request, and in every schedule, the location in its answer was in
    the phone's buffer before, or is that of a report of this phone handled by one of the goroutines. *)
Theorem C149_reported_partial : forall e gs s ph sch a, sane s -> own_rings s ->
  nth_error (fst (beside e (apiGeo ph) gs s sch)) 0 = Some (Ret (Ok (Some a))) ->
  a = ([400], None) \/ a = ([], None) \/ exists g, a = ([200], Some g) /\ told e gs s ph g.
Proof. exact request_told. Qed.
Print Assumptions C149_reported_partial.
(** But the request does not always have an answer: after 99, 199, ... reports of the phone, the next one
    has a schedule with the request in which the request panics, as the buffer's Latest loads the position twice. *)
Theorem C149_refuted : forall e now evs sl p m d, let s := w_st (history e now evs) in
  let pl := follow e (world0 now) evs no_data in let ph := h_phone (pk_hdr p) in
  carries e s p 0x0200 (B0200 m) -> devAt s ph = Some d -> (length (reported pl ph) mod 100 = 99)%nat ->
  exists sch, nth_error (fst (beside e (apiGeo ph) [GMsg sl p] s sch)) 0 = Some (Ret Panic).
Proof.
  intros e now evs sl p m d s pl ph Hc Hd Hl. destruct (refinement e now evs ph) as (_ & Ht & _).
  exact (request_panics e sl s p m d _ (wo_ok _ (history_ok e now evs)) Hc Hd Ht Hl).
Qed.
Print Assumptions C149_refuted.
(** Without reports of this phone among what runs beside it, a request that ends has an answer, whatever else
    happens to the phone meanwhile: no device, no location, or the location reported last. *)
Theorem C149_answered_partial : forall e gs s ph sch ws r, consistent s -> track s ph ws -> (forall g m, In g gs -> ~ brings e g ph m) ->
  nth_error (fst (beside e (apiGeo ph) gs s sch)) 0 = Some (Ret r) ->
  r = Ok (Some ([400], None)) \/ r = Ok (Some ([], None)) \/ exists g, last_of ws = Some g /\ r = Ok (Some ([200], Some g)).
Proof. exact request_answered. Qed.
Print Assumptions C149_answered_partial.
(** The request comes in when one report is stored; another one is handled before the answer *)
Definition p_loc2 : packet := pk (mkMsg (hid 0x0200) (B0200 loc_off)).
Example C149_ex : sane s2 /\ own_rings s2 /\ exists g, 
  nth_error (fst (beside e0 (apiGeo phone12) [GMsg 0 p_loc2; GTick phone12] s2 (repeat 1%nat 60 ++ repeat 0%nat 20))) 0 = Some (Ret (Ok (Some ([200], Some g))))
  /\ g <> g_on /\ from_report phone12 loc_off g /\ brings e0 (GMsg 0 p_loc2) phone12 loc_off.
Proof.
  split; [exact s2_sane|]. split; [exact (history_apart e0 1000 _)|]. eexists. split; [vmr|].
  split; [intros H; apply (f_equal dg_meta) in H; vm_compute in H; discriminate H|].
  split; [repeat (split; [vmr|]); exists t_now; vmr|]. split; [vmr|]. split; [vmr|]. exists t_now. vmr.
Qed.
Example C149_answered_ex : let gs := [GMsg 0 (unframe f_heart1); GTick phone12; GGeo phone12; GList] in
  consistent s2 /\ track s2 phone12 [g_on] /\ (forall g m, In g gs -> ~ brings e0 g phone12 m)
  /\ nth_error (fst (beside e0 (apiGeo phone12) gs s2 (repeat 1%nat 60 ++ repeat 0%nat 20))) 0 = Some (Ret (Ok (Some ([200], Some g_on)))).
Proof.
  split; [exact s2_ok|]. split; [exact (proj1 (proj2 (proj2 C50_ex)))|]. split; [|vmr].
  intros g m [<-|[<-|[<-|[<-|[]]]]] H; try exact H. destruct H as (_ & H & _). vm_compute in H. discriminate H.
Qed.
(** 98 more reports *)
Definition evs99 : list event := evs2 ++ List.repeat (EFrame 0 (Ok f_loc1) None) 98.
Example C149_refuted_ex : let s := w_st (history e0 1000 evs99) in carries e0 s (unframe f_loc1) 0x0200 (B0200 loc_on)
  /\ h_phone (pk_hdr (unframe f_loc1)) = phone12 /\ devAt s phone12 = Some d1
  /\ length (reported (follow e0 (world0 1000) evs99 no_data) phone12) = 99%nat.
Proof. split; [carried|]. split; [vmr|]. split; vmr. Qed.
