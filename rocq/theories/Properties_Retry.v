(** Messages that are received twice (C145) *)
From stdpp Require Import gmap.
From Verif Require Import Base HexM TimeM HashM HeaderM ParamsM GeoM MsgM PacketM FrameM ProgM RingM SpecRing
  StateM ProcM ServerM SpecState SpecCodec SpecReg SpecRetry RetryP ExampleData ExampleState.
Local Open Scope N_scope.
Local Ltac vmr := vm_compute; reflexivity.

(** C145: after any history, a message that comes again, on whatever connection, leaves devices, locations and
    parameters as they are ... *)
Theorem C145_data_partial : forall e now evs sl sl' frm wr wr' h b, let w := history e now evs in
  sl ∈ w_live w -> received e (w_st w) frm = Some (h, b) -> single h -> repeatable (w_st w) (h_phone h) b ->
  same_content (w_st (history e now (evs ++ [EFrame sl (Ok frm) wr])))
               (w_st (history e now (evs ++ [EFrame sl (Ok frm) wr; EFrame sl' (Ok frm) wr']))).
Proof. exact repeat_data. Qed.
Print Assumptions C145_data_partial.
(** ... and gets the same answer, if it has not changed whether the phone is registered. *)
Theorem C145_answer_partial : forall e now evs sl frm x k h b, let w := history e now evs in let f := EFrame sl (Ok frm) None in
  let s1 := w_st (history e now (evs ++ [f])) in let w2 := history e now (evs ++ [f; f]) in
  sl ∈ w_live w -> st_sess (w_st w) !! sl = Some x -> st_conns (w_st w) !! ss_conn x = Some k -> single h ->
  received e (w_st w) frm = Some (h, b) ->
  (is_Some (devAt (w_st w) (h_phone h)) <-> is_Some (devAt s1 (h_phone h))) -> sl ∈ w_live (history e now (evs ++ [f])) ->
  exists out, st_conns s1 !! ss_conn x = Some (mkConn (cn_open k) (cn_out k ++ out))
    /\ st_conns (w_st w2) !! ss_conn x = Some (mkConn (cn_open k) (cn_out k ++ out ++ out)) /\ sl ∈ w_live w2.
Proof. intros e now evs sl frm x k h b w f s1 w2 Hl Hx Hk Hs. exact (same_answer e now evs sl frm x k h Hl Hx Hk Hs b). Qed.
Print Assumptions C145_answer_partial.
(** A registration that is accepted is refused when it comes again, without the code. *)
Theorem C145_refuted_registration : forall e now evs sl frm x k h r, let w := history e now evs in let f := EFrame sl (Ok frm) None in
  let w2 := history e now (evs ++ [f; f]) in
  sl ∈ w_live w -> st_sess (w_st w) !! sl = Some x -> st_conns (w_st w) !! ss_conn x = Some k -> single h ->
  received e (w_st w) frm = Some (h, B0100 r) -> devAt (w_st w) (h_phone h) = None ->
  devWithPlate (w_st w) (r_plate r) = None -> cn_open k = true ->
  exists f1 f2, encodePacket (e_o e) (mkMsg (with_id h 0x8100) (B8100 (h_sn h) 0 (code_for (r_devid r) (r_plate r) (h_phone h)))) = Ok f1
    /\ encodePacket (e_o e) (mkMsg (with_id h 0x8100) (B8100 (h_sn h) 1 [65; 117; 116; 104; 67; 111; 100; 101])) = Ok f2
    /\ st_conns (w_st w2) !! ss_conn x = Some (mkConn true (cn_out k ++ [f1; f2])).
Proof. intros e now evs sl frm x k h r w f w2 Hl Hx Hk Hs. exact (registered_twice e now evs sl frm x k h Hl Hx Hk Hs r). Qed.
Print Assumptions C145_refuted_registration.
(** A logout that comes again is not acknowledged; the connection is closed. *)
Theorem C145_refuted_logout : forall e now evs sl frm x k h, let w := history e now evs in let f := EFrame sl (Ok frm) None in
  let w1 := history e now (evs ++ [f]) in let w2 := history e now (evs ++ [f; f]) in
  sl ∈ w_live w -> st_sess (w_st w) !! sl = Some x -> st_conns (w_st w) !! ss_conn x = Some k -> single h ->
  received e (w_st w) frm = Some (h, B0003) -> is_Some (devAt (w_st w) (h_phone h)) -> cn_open k = true ->
  exists f1, encodePacket (e_o e) (mkMsg (with_id h 0x8001) (B8001 (h_sn h) (h_id h) 0)) = Ok f1
    /\ st_conns (w_st w1) !! ss_conn x = Some (mkConn true (cn_out k ++ [f1]))
    /\ st_conns (w_st w2) !! ss_conn x = Some (mkConn false (cn_out k ++ [f1])) /\ sl ∉ w_live w2.
Proof. intros e now evs sl frm x k h w f w1 w2 Hl Hx Hk Hs. exact (logged_out_twice e now evs sl frm x k h Hl Hx Hk Hs). Qed.
Print Assumptions C145_refuted_logout.
(** A location that comes again is stored again. *)
Theorem C145_refuted_location : forall e now evs sl frm x k h m, let w := history e now evs in let f := EFrame sl (Ok frm) None in
  sl ∈ w_live w -> st_sess (w_st w) !! sl = Some x -> st_conns (w_st w) !! ss_conn x = Some k -> single h ->
  received e (w_st w) frm = Some (h, B0200 m) -> is_Some (devAt (w_st w) (h_phone h)) -> cn_open k = true ->
  exists ws g, track (w_st w) (h_phone h) ws /\ track (w_st (history e now (evs ++ [f]))) (h_phone h) (ws ++ [g])
    /\ track (w_st (history e now (evs ++ [f; f]))) (h_phone h) (ws ++ [g; g]).
Proof. intros e now evs sl frm x k h m w f Hl Hx Hk Hs. exact (located_twice e now evs sl frm x k h Hl Hx Hk Hs m). Qed.
Print Assumptions C145_refuted_location.
(** The first setting for a phone is stored as it is; when it comes again its list is sorted and each id kept once. *)
Theorem C145_refuted_setting : forall e now evs sl frm x k h n ps, let w := history e now evs in let f := EFrame sl (Ok frm) None in
  sl ∈ w_live w -> st_sess (w_st w) !! sl = Some x -> st_conns (w_st w) !! ss_conn x = Some k -> single h ->
  received e (w_st w) frm = Some (h, B8103 n (Some ps)) -> st_params (w_st w) !! h_phone h = None -> cn_open k = true ->
  st_params (w_st (history e now (evs ++ [f]))) !! h_phone h = Some ps
  /\ st_params (w_st (history e now (evs ++ [f; f]))) !! h_phone h = Some (merged ps ps).
Proof. intros e now evs sl frm x k h n ps w f Hl Hx Hk Hs. exact (set_twice e now evs sl frm x k h Hl Hx Hk Hs n ps). Qed.
Print Assumptions C145_refuted_setting.
(** The serial number of a message plays no role for what it does: a repetition cannot be told from a new message. *)
Theorem C145_serials_partial : forall e now evs sl frm frm' wr wr' h b sn, let w := history e now evs in
  received e (w_st w) frm = Some (h, b) -> received e (w_st w) frm' = Some (with_serial h sn, b) ->
  same_content (w_st (history e now (evs ++ [EFrame sl (Ok frm) wr]))) (w_st (history e now (evs ++ [EFrame sl (Ok frm') wr']))).
Proof. exact serials_unused. Qed.
Print Assumptions C145_serials_partial.

Definition evsR : list event :=
  [EAccept 0 addr1; EAccept 1 addr2; EFrame 0 (Ok f_reg1) None; EFrame 1 (Ok f_reg2) None;
   EClock 2000; EFrame 0 (Ok f_auth1) None; EFrame 0 (Ok f_loc1) None].
Definition f_out1 : bytes := frame (mkMsg (hid 0x0003) B0003).
Definition f_heart9 : bytes := frame (mkMsg (with_serial (hid 0x0002) 999) B0002).
(** two items, in decreasing order of ids *)
Definition ps_down : devparams := mkParams phone12 2 [mkParam 0x0027 4 (VU32 5); mkParam 0x0001 4 (VU32 6)].
Definition f_set1 : bytes := frame (mkMsg (hid 0x8103) (B8103 2 (Some ps_down))).
Local Notation hof f := (pk_hdr (unframe f)).
Example C145_ex : w2 = history e0 1000 evsR /\ bool_decide (0%nat ∈ w_live w2) = true /\ st_sess s2 !! 0%nat = Some x1
  /\ (exists k, st_conns s2 !! ss_conn x1 = Some k /\ cn_open k = true)
  /\ received e0 s2 f_heart1 = Some (hof f_heart1, B0002) /\ single (hof f_heart1) /\ repeatable s2 phone12 B0002
  /\ received e0 s2 f_heart9 = Some (with_serial (hof f_heart1) 999, B0002)
  /\ received e0 s2 f_out1 = Some (hof f_out1, B0003) /\ is_Some (devAt s2 (h_phone (hof f_out1)))
  /\ (exists m, received e0 s2 f_loc1 = Some (hof f_loc1, B0200 m))
  /\ (exists ps, received e0 s2 f_set1 = Some (hof f_set1, B8103 2 (Some ps)) /\ st_params s2 !! h_phone (hof f_set1) = None
        /\ List.map p_id (dp_list ps) = [0x0027; 0x0001] /\ List.map p_id (dp_list (merged ps ps)) = [0x0001; 0x0027])
  /\ (let s := w_st (history e0 1000 [EAccept 0 addr1]) in exists r, received e0 s f_reg1 = Some (hof f_reg1, B0100 r)
        /\ devAt s (h_phone (hof f_reg1)) = None /\ devWithPlate s (r_plate r) = None).
Proof.
  split; [reflexivity|]. split; [vmr|]. split; [vmr|]. split; [eexists; split; vmr|]. split; [vmr|]. split; [vm_compute; discriminate|].
  split; [split; [intros m K; discriminate K|intros n ps K; discriminate K]|]. split; [vmr|]. split; [vmr|].
  split; [vm_compute; eauto|]. split; [eexists; vmr|]. split.
  - eexists. split; [vmr|]. split; [vmr|]. split; vmr.
  - eexists. split; [vmr|]. split; vmr.
Qed.
