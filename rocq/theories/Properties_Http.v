(** C124, C125: the answers to HTTP requests and what they disclose *)
From stdpp Require Import gmap.
From Verif Require Import Base HexM TimeM HeaderM ParamsM GeoM MsgM PacketM FrameM ProgM RingM StateM ProcM ServerM SpecRing SpecState SpecReg
  HttpM SpecHttp HttpP ExampleData ExampleState Properties_State Properties_Reg Properties_Server.
Local Open Scope N_scope.

(** C124: the exact answer to every request, which changes the server as the events of the histories do *)
Theorem C124_answers_partial : forall e s r, consistent s ->
  exists a s', run (http e r) s = (Ok a, s') /\ http_reply e s r a
    /\ forall live, w_st (step e (mkWorld s live false) (event_of r)) = s'.
Proof. exact http_answers. Qed.
Print Assumptions C124_answers_partial.
Theorem C124_one_value_partial : forall e s r, consistent s -> forall a s', run (http e r) s = (Ok a, s') -> (proper a <-> one_value s r).
Proof. exact proper_iff. Qed.
Print Assumptions C124_one_value_partial.
(** A setting whose body could not be bound is sent to the device and answered with 400.  A command that is sent is
    answered without a value, and so is one that could not be written.  Such a setting for an unknown phone gets two values. *)
Theorem C124_refuted : forall e s ph d x k, consistent s -> devAt s ph = Some d -> sessAt s (d_sid d) = Some x ->
  st_conns s !! ss_conn x = Some k -> cn_open k = true ->
  (forall ps b, paramsEncode (e_o e) ps = Ok b -> exists f s',
     encodePacket (e_o e) (platform_msg d 0x8103 ((ss_sn x + 1) mod 65536) (B8103 0 (Some ps))) = Ok f
     /\ run (http e (RPutParams ph true ps None)) s = (Ok (mkResp 400 [JErr]), s')
     /\ st_conns s' !! ss_conn x = Some (mkConn true (cn_out k ++ [f])))
  /\ (forall w, exists s', run (http e (RGetParams ph w)) s = (Ok (mkResp 200 []), s'))
  /\ (forall q ps w, devAt s q = None -> run (http e (RPutParams q true ps w)) s = (Ok (mkResp 400 [JErr; JErr]), s)).
Proof. exact improper. Qed.
Print Assumptions C124_refuted.
(** two devices, one location; the session of the first one ends *)
Example C124_ex : consistent s2 /\ devAt s2 phone12 = Some d1 /\ sessAt s2 (d_sid d1) = Some x1
  /\ (exists k, st_conns s2 !! ss_conn x1 = Some k /\ cn_open k = true) /\ (exists b, paramsEncode o0 ps_ok = Ok b)
  /\ fst (run (http e0 RList) s2) = Ok (mkResp 200 [JDevs [d1; d2]])
  /\ (exists g, fst (run (http e0 (RGeo phone12)) s2) = Ok (mkResp 200 [JGeo d1 g])) /\ fst (run (http e0 (RGeo phone12b)) s2) = Ok (mkResp 200 [])
  /\ fst (run (http e0 (RPutParams phone12 false ps_bad None)) s2) = Ok (mkResp 500 [])
  /\ fst (run (http e0 (RPutParams phone12 true ps_ok None)) s_end) = Ok (mkResp 400 [JErr; JErr]).
Proof.
  split; [exact s2_ok|]. split; [exact s2_d1|]. split; [vmr|]. split; [eexists; split; [vmr|reflexivity]|]. split; [eexists; vmr|].
  split; [vmr|]. split; [eexists; vmr|]. repeat (split; [vmr|]). vmr.
Qed.

(** C125: what the list shows of a device suffices to authenticate in its name, on any connection *)
Theorem C125_refuted : exists f : str -> str -> str -> str, forall e s, consistent s ->
  exists ds, run (http e RList) s = (Ok (mkResp 200 [JDevs ds]), s)
    /\ (forall ph d, devAt s ph = Some d -> d ∈ ds)
    /\ forall d sl p al imei sw, d ∈ ds ->
         carries e s p 0x0102 (B0102 al (f (d_id d) (d_plate d) (d_phone d)) imei sw) -> h_phone (pk_hdr p) = d_phone d ->
         exists m s2 d2, run (process e sl p) s = (Ok (Some m), s2) /\ answers p 0x8001 (B8001 (h_sn (pk_hdr p)) 0x0102 0) m
           /\ devAt s2 (d_phone d) = Some d2 /\ d_status d2 = Online.
Proof. exact disclosed. Qed.
Print Assumptions C125_refuted.
(** ... and of a device that has authenticated it shows the code itself *)
Theorem C125_refuted_shown : forall e now evs ph d, let s := w_st (history e now evs) in devAt s ph = Some d -> d_auth d <> [] ->
  exists ds, run (http e RList) s = (Ok (mkResp 200 [JDevs ds]), s) /\ d ∈ ds /\ is_code (d_id d) (d_plate d) ph (d_auth d).
Proof. exact disclosed_code. Qed.
Print Assumptions C125_refuted_shown.
Example C125_ex : consistent s2 /\ (exists a s1, run (http e0 RList) s2 = (Ok a, s1) /\ rs_values a = [JDevs [d1; d2]]) /\ d_auth d1 <> []
  /\ carries e0 s2 (unframe f_auth1) 0x0102 (B0102 0 (code_for (d_id d1) (d_plate d1) (d_phone d1)) [] []) /\ h_phone (pk_hdr (unframe f_auth1)) = d_phone d1.
Proof.
  split; [exact s2_ok|]. split; [eexists _, _; split; [vmr|reflexivity]|]. split; [vm_compute; discriminate|].
  split; [carried|vmr].
Qed.
