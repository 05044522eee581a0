(** C141: what the HTTP answers show *)
From Coq Require Import String.
From stdpp Require Import gmap.
From Verif Require Import Base HexM TimeM HeaderM ParamsM GeoM MsgM PacketM FrameM ProgM RingM StateM ProcM ServerM HttpM JsonM RenderM
  SpecRing SpecState SpecCodec SpecJson SpecRender RenderP ServerP ExampleData ExampleState Properties_Server Properties_State.
Local Open Scope N_scope.

(** C141: the list shows every registered device once, with every text that is UTF-8 as it is stored and every number *)
Theorem C141_list_partial : forall tm flt err e s, consistent s ->
  exists a s' ds, run (http e RList) s = (Ok a, s') /\ rs_status a = 200 /\ base.NoDup ds /\ (forall d, d ∈ ds <-> exists ph, devAt s ph = Some d)
    /\ exists vs, List.map (render tm flt err) (rs_values a) = [JArr vs] /\ Forall2 (shows_device tm) ds vs.
Proof. exact list_shows. Qed.
Print Assumptions C141_list_partial.
(** the other request shows the device, but for the time of its last message, with its last location *)
Theorem C141_geo_partial : forall tm flt err e s ph d ws g, consistent s -> devAt s ph = Some d -> track s ph ws -> last_of ws = Some g ->
  (length ws mod 100 <> 0)%nat ->
  exists a s' v, run (http e (RGeo ph)) s = (Ok a, s') /\ rs_status a = 200
    /\ List.map (render tm flt err) (rs_values a) = [v] /\ shows_both flt d g v.
Proof. exact geo_shows. Qed.
Print Assumptions C141_geo_partial.
(** a text is shown as it is exactly if it is UTF-8, and what is shown always is *)
Theorem C141_text_partial : forall s, utf8 (toValid s) /\ (utf8 s <-> toValid s = s).
Proof. intros s. split; [apply valid_utf8|apply toValid_id]. Qed.
Print Assumptions C141_text_partial.
(** A device whose id is not UTF-8 is not found in the list by its id. *)
Theorem C141_refuted : forall tm flt err e s ph d, consistent s -> devAt s ph = Some d -> ~ utf8 (d_id d) ->
  exists a s' vs, run (http e RList) s = (Ok a, s') /\ List.map (render tm flt err) (rs_values a) = [JArr vs]
    /\ forall l, In (JObj l) vs -> ~ member l "id" (eq (JText (d_id d))).
Proof. exact list_garbles. Qed.
Print Assumptions C141_refuted.
(** With the location, the time of the last message is shown as {} under another name, and the time of the location,
    which terminals report in the time of Beijing, is shown as if it was UTC. *)
Theorem C141_times_refuted : forall tm flt err e s ph d ws g secs, consistent s -> devAt s ph = Some d -> track s ph ws -> last_of ws = Some g ->
  (length ws mod 100 <> 0)%nat ->
  exists a s' l, run (http e (RGeo ph)) s = (Ok a, s') /\ List.map (render tm flt err) (rs_values a) = [JObj l]
    /\ lacks l "lastComTime" /\ member l "lastestComTime" (eq (JObj []))
    /\ (civil_valid (dg_time g) -> c_year (dg_time g) < 10000 ->
         member l "gis" (fun x => exists m, x = JObj m /\ member m "time" (fun y => ~ shows_instant secs (dg_time g) 480 y))).
Proof. exact geo_hides. Qed.
Print Assumptions C141_times_refuted.
(** two devices, one with a location; a device that registers with the id FF *)
Definition s_ff : st := w_st (history e0 1000
  [EAccept 0 addr1; EFrame 0 (Ok (frame (mkMsg (hid 0x0100) (B0100 (mkReg 1 2 abc abc [255] 1 [65; 49] []))))) None]).
Lemma ff_no_text : ~ utf8 [255].
Proof. intros H. apply toValid_id in H. discriminate. Qed.
Definition flt0 (n d : N) : str := HashM.itoa (n / d).
(** what is rendered *)
Definition seen (r : request) (s : st) : list jvalue :=
  match fst (run (http e0 r) s) with Ok a => List.map (render (fun _ => abc) flt0 []) (rs_values a) | _ => [] end.
Example C141_ex : consistent s2 /\ devAt s2 phone12 = Some d1 /\ track s2 phone12 [g_on] /\ last_of [g_on] = Some g_on
  /\ civil_valid (dg_time g_on) /\ c_year (dg_time g_on) < 10000 /\ jsonTime (dg_time g_on) = JText (text "2023-06-01T12:00:00Z")
  /\ (exists l, seen (RGeo phone12) s2 = [JObj (l ++ [(text "gis", jsonGeo flt0 g_on)])])
  /\ (exists l, seen RList s2 = [JArr [JObj ((text "id", JText (text "D1")) :: (text "plate", JText (text "A1"))
                                              :: (text "phone", JText (text "013912345678")) :: l); jsonDevice (fun _ => abc) d2]])
  /\ consistent s_ff /\ (exists d, devAt s_ff phone12 = Some d /\ d_id d = [255]) /\ ~ utf8 [255]
  /\ utf8 (text "D1") /\ utf8 [231; 178; 164] /\ utf8 [240; 159; 154; 154] /\ ~ utf8 [237; 160; 128] /\ ~ utf8 [192; 128] /\ ~ utf8 [212; 193].
Proof.
  assert (No : forall x, toValid x <> x -> ~ utf8 x) by (intros x H U; apply H, toValid_id, U).
  split; [exact s2_ok|]. split; [exact s2_d1|]. split; [exact (proj1 (proj2 (proj2 C50_ex)))|]. split; [reflexivity|].
  split.
  { change (dg_time g_on) with (mkCivil 2023 6 1 12 0 0). repeat split; cbn; try lia; intros; lia. }
  split; [reflexivity|]. split; [reflexivity|].
  split; [eexists [_; _; _; _; _; _; _; _; _; _; _; _; _; _]; vmr|]. split; [eexists; vmr|].
  split; [exact (wo_ok _ (history_ok e0 1000 _))|]. split; [eexists; split; vmr|].
  split; [exact ff_no_text|]. do 3 (split; [apply toValid_id; reflexivity|]).
  do 2 (split; [apply No; discriminate|]). apply No; discriminate.
Qed.
