(** More of what does hold where a claim fails: C43, C58, C59, C84, C101 *)
From stdpp Require Import gmap.
From Verif Require Import Base HexM TimeM HeaderM ParamsM GeoM MsgM PacketM FrameM ProgM RingM StateM ProcM ServerM ConcM
  SpecCodec SpecState SpecConc SpecReg SpecTimely SpecAbsent AbsentP PlateP StateP ServerP ConcP IsoP EffectP ExampleData ExampleState
  Properties_State Properties_Conc Properties_Stream Properties_Open.
Local Open Scope N_scope.
Ltac vmr := vm_compute; reflexivity.

(** C43: while a device that was heard less than a keepalive interval ago has the plate, a registration of the
    plate is refused under every schedule, and the plate stays with that device *)
Theorem C43_held_partial : forall e gs s ph d sch sl p r o, consistent s -> sane s -> devAt s ph = Some d -> d_status d <> Offline ->
  within d (st_clock s) -> (forall g, In g gs -> placed s g /\ harmless e ph d g) ->
  is_Some (st_sess s !! sl) -> carries e s p 0x0100 (B0100 r) -> r_plate r = d_plate d ->
  nth_error (fst (beside e (process e sl p) gs s sch)) 0 = Some (Ret o) ->
  (exists m c, o = Ok (Some (Some m)) /\ answers p 0x8100 (B8100 (h_sn (pk_hdr p)) 1 c) m)
  /\ exists d', devWithPlate (snd (beside e (process e sl p) gs s sch)) (d_plate d) = Some d' /\ same_identity d d'.
Proof. exact plate_refused. Qed.
Print Assumptions C43_held_partial.
(** the second phone wants the first one's plate; the others are those of C118 *)
Definition refused_with (sch : list nat) : option N :=
  match nth_error (fst (beside e0 (process e0 1 p_two) gs118 s2 sch)) 0 with
  | Some (Ret (Ok (Some (Some m)))) => match m_body m with B8100 _ r _ => Some r | _ => None end
  | _ => None
  end.
Example C43_held_partial_ex : consistent s2 /\ sane s2 /\ devAt s2 phone12 = Some d1 /\ d_status d1 <> Offline /\ within d1 (st_clock s2)
  /\ (forall g, In g gs118 -> placed s2 g /\ harmless e0 phone12 d1 g)
  /\ is_Some (st_sess s2 !! 1%nat) /\ carries e0 s2 p_two 0x0100 (B0100 reg_in) /\ r_plate reg_in = d_plate d1
  /\ refused_with (repeat 4 100 ++ repeat 0 2 ++ repeat 1 20 ++ repeat 0 50)%nat = Some 1.
Proof.
  destruct C118_ex as (H1 & H2 & H3 & H4 & H5 & _). split; [exact s2_ok|]. split; [exact H1|]. split; [exact H2|].
  split; [rewrite H3; discriminate|]. split; [exact H4|]. split; [exact H5|]. split; [eexists; vmr|]. split; [carried|]. split; vmr.
Qed.

(** C58: a phone that is not registered stays so under every schedule, whatever it sends except registrations;
    no keepalive job is added for it *)
Theorem C58_schedule_partial : forall e gs s ph sch, sane s -> own_rings s -> devAt s ph = None ->
  (forall g, In g gs -> placed s g /\ registers_not e ph g) ->
  let s' := snd (running e gs s sch) in devAt s' ph = None /\ (ph ∉ st_jobs s -> ph ∉ st_jobs s').
Proof. intros e gs s ph sch H1 H2 H3 H4 s'. destruct (stays_absent e gs s ph sch H1 H2 H3 H4) as (R1 & _ & R3). exact (conj R1 R3). Qed.
Print Assumptions C58_schedule_partial.
(** C84: and its locations stay as they are *)
Theorem C84_schedule_partial : forall e gs s ph sch, sane s -> own_rings s -> devAt s ph = None ->
  (forall g, In g gs -> placed s g /\ registers_not e ph g) -> ringOf (snd (running e gs s sch)) ph = ringOf s ph.
Proof. intros e gs s ph sch H1 H2 H3 H4. exact (proj1 (proj2 (stays_absent e gs s ph sch H1 H2 H3 H4))). Qed.
Print Assumptions C84_schedule_partial.
(** the first device has logged out; it sends an authentication and a location, it is checked and asked for,
    while the second one registers again and reports *)
Definition s_gone : st := w_st (history e0 1000 evs_gone).
Definition gs58 : list goroutine :=
  [GServe 0 [(Ok f_auth1, None)]; GServe 0 [(Ok f_loc1, None)]; GTick phone12; GGeo phone12; GServe 1 [(Ok f_reg2, None)]; GMsg 0 (unframe f_heart1)].
Definition registersb (e : env) (ph : str) (frm : bytes) : bool :=
  match decodePacket (e_o e) frm with Ok p => bool_decide (h_phone (pk_hdr p) = ph) && (h_id (pk_hdr p) =? 0x0100) | _ => false end.
Lemma registersb_no e ph frm : registersb e ph frm = false -> forall p, decodePacket (e_o e) frm = Ok p -> h_phone (pk_hdr p) = ph -> h_id (pk_hdr p) <> 0x0100.
Proof.
  unfold registersb. intros H p E Hp. rewrite E in H. rewrite bool_decide_eq_true_2 in H by exact Hp. apply N.eqb_neq. exact H.
Qed.
Example C58_schedule_partial_ex : sane s_gone /\ own_rings s_gone /\ devAt s_gone phone12 = None /\ bool_decide (phone12 ∉ st_jobs s_gone) = true
  /\ (forall g, In g gs58 -> placed s_gone g /\ registers_not e0 phone12 g) /\ is_Some (ringOf s_gone phone12).
Proof.
  destruct (C94_histories e0 1000 evs_gone) as (H1 & H2). split; [exact H1|]. split; [exact H2|]. split; [vmr|]. split; [vmr|].
  split; [|eexists; vmr].
  intros g [<-|[<-|[<-|[<-|[<-|[<-|[]]]]]]]; (split; [first [exact Logic.I|vm_compute; eexists; reflexivity]|]); cbn [registers_not]; try exact Logic.I.
  - intros frm w p [[= <- <-]|[]] E. eapply registersb_no; [|exact E]. vmr.
  - intros frm w p [[= <- <-]|[]] E. eapply registersb_no; [|exact E]. vmr.
  - intros frm w p [[= <- <-]|[]] E. eapply registersb_no; [|exact E]. vmr.
  - vm_compute. discriminate.
Qed.

(** C59: the checks of a device heard less than a keepalive interval ago come to their end, whatever runs at
    the same time *)
Theorem C59_held_partial : forall e gs s ph d sch i r, consistent s -> sane s -> devAt s ph = Some d -> d_status d <> Offline ->
  within d (st_clock s) -> (forall g, In g gs -> placed s g /\ harmless e ph d g) ->
  nth_error gs i = Some (GTick ph) -> nth_error (fst (running e gs s sch)) i = Some (Ret r) -> r = Ok tt.
Proof. exact checks_end. Qed.
Print Assumptions C59_held_partial.
Definition ended (sch : list nat) (i : nat) : bool :=
  match nth_error (fst (running e0 gs118 s2 sch)) i with Some (Ret (Ok tt)) => true | _ => false end.
Example C59_held_partial_ex : (forall g, In g gs118 -> placed s2 g /\ harmless e0 phone12 d1 g) /\ nth_error gs118 0 = Some (GTick phone12)
  /\ nth_error gs118 4 = Some (GTick phone12) /\ ended (repeat 0 2 ++ repeat 3 100 ++ repeat 4 9 ++ repeat 0 50)%nat 0 = true
  /\ ended (repeat 0 2 ++ repeat 3 100 ++ repeat 4 9 ++ repeat 0 50)%nat 4 = true.
Proof. destruct C118_ex as (_ & _ & _ & _ & H5 & _). split; [exact H5|]. repeat (split; [reflexivity|]). split; vmr. Qed.

(** C101: a code given for an earlier registration is accepted exactly if the present registration of the phone
    has the same hash, and is not accepted while the phone is not registered *)
Theorem C101_partial : forall e sl s p al c imei sw id plate, consistent s -> carries e s p 0x0102 (B0102 al c imei sw) ->
  SpecState.is_code id plate (h_phone (pk_hdr p)) c ->
  match devAt s (h_phone (pk_hdr p)) with
  | None => run (process e sl p) s = (Err ErrDeviceNotFound, s)
  | Some d => exists m s', run (process e sl p) s = (Ok (Some m), s')
      /\ (answers p 0x8001 (B8001 (h_sn (pk_hdr p)) 0x0102 0) m
          <-> fnv1a 0x811c9dc5 (id ++ [95] ++ plate ++ [95] ++ h_phone (pk_hdr p))
            = fnv1a 0x811c9dc5 (d_id d ++ [95] ++ d_plate d ++ [95] ++ h_phone (pk_hdr p)))
  end.
Proof. exact old_code. Qed.
Print Assumptions C101_partial.
(** the first device after its logout; it registers again with another id *)
Definition f_reg1' : bytes := frame (mkMsg (hid 0x0100) (B0100 (mkReg 1 2 abc abc [68; 57] 1 [65; 49] []))).
Definition s_other : st := w_st (history e0 1000 (evs_gone ++ [EFrame 0 (Ok f_reg1') None])).
Definition accepted_old (s : st) : option N :=
  match fst (run (process e0 0 (unframe f_auth1)) s) with
  | Ok (Some m) => match m_body m with B8001 _ _ r => Some r | _ => None end
  | _ => None
  end.
Example C101_partial_ex : consistent s2 /\ carries e0 s2 (unframe f_auth1) 0x0102 (B0102 0 code1 [] [])
  /\ SpecState.is_code [68; 49] [65; 49] phone12 code1 /\ consistent s_gone /\ consistent s_other
  /\ devAt s_gone phone12 = None /\ accepted_old s_gone = None
  /\ d_id <$> devAt s_other phone12 = Some [68; 57] /\ accepted_old s_other = Some 1 /\ accepted_old s2 = Some 0.
Proof.
  split; [exact s2_ok|]. split; [carried|]. split; [exact (proj2 (code_iff (mkDevice [68; 49] [65; 49] phone12 [] 0 0 0 0 V2013 0 [] [] []) code1) eq_refl)|]. split; [exact (C41_invariant _ _ _)|]. split; [exact (C41_invariant _ _ _)|].
  repeat (split; [vmr|]). vmr.
Qed.
