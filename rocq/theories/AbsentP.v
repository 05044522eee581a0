(** A phone that is not registered stays so under every schedule unless it registers (C58) *)
From stdpp Require Import gmap.
From Verif Require Import Base HexM TimeM HashM HeaderM ParamsM GeoM MsgM PacketM FrameM ProgM RingM SpecRing StateM ProcM ServerM ConcM
  SpecCodec SpecState SpecConc SpecReg SpecTimely SpecAbsent ProgP StateP ProcP ServerP EffectP ConcP ReleaseP TimelyP.
Local Open Scope N_scope.

(** * What leaves the phone index, the jobs, and all locations but one buffer's alone *)
Definition qg (a : option nat) (s s' : st) : Prop :=
  st_byPhone s' = st_byPhone s /\ st_jobs s' = st_jobs s /\ st_geo s' = st_geo s
  /\ forall l, Some l <> a -> st_rings s' !! l = st_rings s !! l.
Section Quiet.
Context (a : option nat).
Notation quiet := (mono (qg a)).
Ltac qacts := repeat first [apply mono_ret | apply mono_act; [intros; repeat match goal with |- context [match ?x with _ => _ end] => destruct x end; (split_and!; try reflexivity; intros; reflexivity)|intros] | match goal with |- quiet (match ?x with _ => _ end) => destruct x end].
Lemma qg_nextSerial l : quiet (nextSerial l).
Proof. apply mono_zoom. intros. split_and!; reflexivity. Qed.
Ltac qs := repeat match goal with
  | |- quiet (pbind _ _) => apply mono_bind; [|intros]
  | |- quiet (pbindR _ _) => apply mono_bindR; [|intros]
  | |- quiet (lift _) => constructor
  | |- quiet (nextSerial _) => apply qg_nextSerial
  | |- quiet (hasPlate _) => unfold hasPlate
  | |- quiet (hasPhone _) => unfold hasPhone
  | |- quiet (let _ := _ in _) => cbv zeta
  | |- quiet (match ?x with _ => _ end) => destruct x
  | |- quiet (Ret _) => constructor
  | |- quiet (ret _) => constructor
  | |- quiet (fail _) => constructor
  | |- quiet panic => constructor
  | |- quiet _ => unfold getNow, readConst, readDev, writeDev, allocDev, getDeviceByPlate, getDeviceByPhone,
      getDeviceParamsByPhone, cacheDeviceParams, cacheSegment, getSession, storeSession, clearSession, readSess, connClose, connSend,
      lock, unlock, listDevice, countSession, rd1, wr1; cbv zeta; solve [qacts]
  end.
Lemma q_now : quiet getNow. Proof. qs. Qed.
Lemma q_hasPlate x : quiet (hasPlate x). Proof. qs. Qed.
Lemma q_8103 inc ps out : quiet (process8103 inc ps out). Proof. unfold process8103. qs. Qed.
Lemma q_8104 e out : quiet (process8104 e out). Proof. unfold process8104. qs. Qed.
Lemma q_8100 inc out : quiet (process8100 inc out). Proof. unfold process8100. qs. Qed.
Lemma q_segment p : quiet (processSegment p). Proof. unfold processSegment. qs. Qed.
Lemma q_write e c out w : quiet (processConnWrite e c out w). Proof. unfold processConnWrite. qs. Qed.
Lemma q_remove sl : quiet (remove sl). Proof. unfold remove. qs. Qed.
Lemma q_readSess sl : quiet (readSess sl). Proof. qs. Qed.
Lemma q_readDev l : quiet (readDev l). Proof. qs. Qed.
Lemma q_readConst l : quiet (readConst l). Proof. qs. Qed.
Lemma q_turnOffline l : quiet (shouldTurnOffline l). Proof. unfold shouldTurnOffline. qs. Qed.
Lemma q_clear l : quiet (shouldClear l). Proof. unfold shouldClear. qs. Qed.
Lemma q_writeDev l f : quiet (writeDev l f). Proof. qs. Qed.
Lemma q_connClose c : quiet (connClose c). Proof. qs. Qed.
Lemma q_cacheSegment x : quiet (cacheSegment x). Proof. qs. Qed.
Lemma q_send e i m w : quiet (serverSend e i m w).
Proof. unfold serverSend. qs; first [apply q_write|apply q_remove]. Qed.
Lemma q_accept c x : quiet (accept c x).
Proof. unfold accept. qs. Qed.
Lemma q_opened c : quiet (opened c). Proof. unfold opened, wr1. qacts. Qed.
Lemma q_get e q w : quiet (apiGetParams e q w).
Proof. unfold apiGetParams, apiSession. qs; apply q_send. Qed.
Lemma q_put e q b ps w : quiet (apiPutParams e q b ps w).
Proof. unfold apiPutParams, apiSession. qs; apply q_send. Qed.
Lemma q_list : quiet apiList. Proof. unfold apiList. qs. Qed.
Lemma q_count : quiet countSession. Proof. qs. Qed.
End Quiet.
Lemma q_onRing {A} l (p : prog _ A) : mono (qg (Some l)) (onRing l p).
Proof. apply mono_zoom. intros. split_and!; try reflexivity. intros l' Hl. cbn. apply lookup_insert_ne. congruence. Qed.

Section Absent.
Context (ph : str) (jb : Prop) (g0 : option nat) (r0 : option (ring devgeo)).
(** the phone is not registered, has no keepalive job, and its buffer is its own and as it was *)
Definition gone (s : st) : Prop := st_byPhone s !! ph = None /\ (jb -> ph ∉ st_jobs s)
  /\ st_geo s !! ph = g0
  /\ forall l, g0 = Some l -> st_rings s !! l = r0 /\ is_Some r0 /\ forall q, st_geo s !! q = Some l -> q = ph.
Notation XS P s p := (xs gone (xpost P) s p).
Notation xk := (xok gone).
Lemma gq {A} (p : sp A) a : (a = None \/ a <> g0) -> mono (qg a) p -> forall s, XS (@any A) s p.
Proof.
  intros Ha H. induction H as [r|x f k H1 H2 IH]; intros s; constructor.
  - intros t _ _ _. destruct r; exact Logic.I.
  - intros t _ (B & J & Eg & Hr) _ _ _. destruct (H1 t) as (E1 & E2 & E3 & E4). unfold gone. rewrite E1, E2, E3.
    split_and!; [exact B|exact J|exact Eg|]. intros l El. rewrite E4; [exact (Hr l El)|]. destruct Ha; congruence.
  - intros. apply IH.
Qed.
Definition gq0 {A} (p : sp A) := gq p None (or_introl eq_refl).
Lemma g_any {A} s (a : A) : XS (@any A) s (ret a).
Proof. constructor. intros. exact Logic.I. Qed.
Lemma g_fail {A} (P : st -> A -> Prop) s e : XS P s (fail e).
Proof. constructor. intros. exact Logic.I. Qed.
Lemma g_panic {A} (P : st -> A -> Prop) s : XS P s panic.
Proof. constructor. intros. exact Logic.I. Qed.
Lemma g_lift {A} s (r : res A) : XS (fun _ a => r = Ok a) s (lift r).
Proof. constructor. intros. destruct r; cbn; auto. Qed.
Lemma g_read {A} (P : st -> A -> Prop) s a g : stable P -> (forall t, grows s t -> xk t -> P t (g t)) -> XS P s (rd1 a g).
Proof.
  intros Hst H. constructor; [auto|]. intros t S1 X1 G1 _ _ _. constructor. intros u _ _ G2. cbn.
  eapply Hst; [apply H; [exact G1|split; assumption]|exact G2].
Qed.
Lemma g_write s a f : (forall t, grows s t -> xk t -> gone (f t)) -> XS (@any unit) s (wr1 a f).
Proof. intros H. constructor; [intros; apply H; [assumption|split; assumption]|]. intros. apply g_any. Qed.

(** a device object of another phone *)
Definition odev (q : str) (s : st) (l : nat) : Prop := q <> ph /\ exists d, st_devs s !! l = Some d /\ d_phone d = q.
Lemma stable_odev q : stable (odev q).
Proof. intros t u l (Hq & d & H & E) G. split; [exact Hq|]. destruct (gr_dev _ _ G l d H) as (d' & H' & E'). exists d'. split; [exact H'|]. congruence. Qed.
Notation found q := (fun t o => match o with Some l => odev q t l | None => True end).
Lemma g_byPhone s q : XS (found q) s (getDeviceByPhone q).
Proof.
  apply g_read.
  - intros t u [l|] H G; [eapply stable_odev; eassumption|exact H].
  - intros t G (S & (B & _)). destruct (st_byPhone t !! q) as [l|] eqn:E; [|exact Logic.I].
    destruct (sn_phone t S _ _ E) as (d' & D' & Eq). split; [congruence|eauto].
Qed.
Lemma g_readConst s q l : odev q s l -> XS (fun _ dv => d_phone dv = q) s (readConst l).
Proof.
  intros H. constructor; [auto|]. intros t S1 X1 G _ _ _. destruct (stable_odev _ _ _ _ H G) as (Hq & d & D & E).
  rewrite D. constructor. intros u _ _ _. exact E.
Qed.
Lemma g_writeDev s l f : XS (@any unit) s (writeDev l f).
Proof. apply g_write. intros t _ (S & X). exact X. Qed.
Lemma g_cacheDevice s q l : odev q s l -> XS (@any unit) s (cacheDevice l).
Proof.
  intros H. apply g_write. intros t G (S & (B & J & R)). destruct (stable_odev _ _ _ _ H G) as (Hq & d & D & E).
  rewrite D. split; [|exact (conj J R)]. cbn. rewrite lookup_insert_ne by congruence. exact B.
Qed.
Lemma g_allocDev s d : d_phone d <> ph -> XS (odev (d_phone d)) s (allocDev d).
Proof.
  intros Hq. constructor; [intros t _ X1 _ _ _; exact X1|].
  intros t _ X1 _ _ G _. constructor. intros u _ _ Gu. split; [exact Hq|].
  destruct (gr_dev _ _ Gu (fresh (dom (st_devs t))) d) as (d'' & H'' & E''); [cbn; apply lookup_insert|].
  exists d''. split; [exact H''|congruence].
Qed.
Lemma g_delDevice s q : XS (@any unit) s (delDeviceByPhone q).
Proof.
  apply g_write. intros t _ (S & (B & J & R)). destruct (st_byPhone t !! q) as [l|] eqn:E; [|exact (conj B (conj J R))].
  destruct (sn_phone t S _ _ E) as (d' & D' & Eq). rewrite D'. split; [|exact (conj J R)].
  cbn. rewrite lookup_delete_ne by congruence. exact B.
Qed.
Lemma g_timerAdd s q : q <> ph -> XS (@any unit) s (timerAdd q).
Proof.
  intros Hq. apply g_write. intros t _ (S & (B & J & R)). split; [exact B|]. split; [|exact R]. cbn. intros Hj Hin. apply elem_of_app in Hin.
  destruct Hin as [Hin|Hin]; [exact (J Hj Hin)|]. apply elem_of_list_singleton in Hin. congruence.
Qed.
Lemma g_timerCancel s q : XS (@any unit) s (timerCancel q).
Proof. apply g_write. intros t _ (S & (B & J & R)). split; [exact B|]. split; [|exact R]. cbn. intros Hj Hin. apply elem_of_list_filter in Hin. exact (J Hj (proj2 Hin)). Qed.

Ltac bd P := eapply (xs_bind gone P); [assumption|..].
Tactic Notation "nx" ident(t) ident(a) ident(g) ident(i) ident(h) := intros t a g i h.
Lemma g_0002 s inc out : xk s -> XS (@any msg) s (process0002 inc out).
Proof.
  intros Hs. bd (found (h_phone (m_hdr inc))); [apply g_byPhone|]. nx t d g1 i1 h1. destruct d as [l|]; [|apply g_fail].
  bd (@any Z); [apply gq0, q_now|]. nx t2 now g2 i2 h2. pose proof (stable_odev _ _ _ _ h1 g2) as D2.
  bd (@any unit); [apply g_writeDev|]. nx t3 u3 g3 i3 h3.
  bd (@any unit); [eapply g_cacheDevice; exact (stable_odev _ _ _ _ D2 g3)|]. nx t4 u4 g4 i4 h4. apply g_any.
Qed.
Lemma g_now s : XS (@any Z) s getNow.
Proof. apply gq0, q_now. Qed.
Lemma g_0003 s inc out : xk s -> XS (@any msg) s (process0003 inc out).
Proof.
  intros Hs. bd (found (h_phone (m_hdr inc))); [apply g_byPhone|]. nx t d g1 i1 h1. destruct d as [l|]; [|apply g_fail].
  eapply xs_bind; [exact i1|eapply g_readConst; exact h1|]. nx t2 dv g2 i2 h2.
  bd (@any unit); [apply g_timerCancel|]. nx t3 u3 g3 i3 h3.
  bd (@any unit); [apply g_delDevice|]. nx t4 u4 g4 i4 h4. apply g_any.
Qed.
Lemma g_0100 s sl inc r out : xk s -> h_phone (m_hdr inc) <> ph -> XS (@any msg) s (process0100 sl inc r out).
Proof.
  intros Hs Hq. bd (@any bool); [apply gq0, q_hasPlate|]. nx t b g1 i1 h1. destruct b; [apply g_any|].
  bd (@any bool).
  { bd (found (h_phone (m_hdr inc))); [apply g_byPhone|]. nx t2 o g2 i2 h2. apply g_any. }
  nx t2 b g2 i2 h2. destruct b; [apply g_any|].
  bd (@any session); [apply gq0, q_readSess|].
  nx t3 x g3 i3 h3. bd (@any Z); [apply g_now|]. nx t4 now g4 i4 h4. cbv zeta.
  eapply xs_bind; [exact i4|apply g_allocDev; exact Hq|]. nx t5 l g5 i5 h5.
  bd (@any unit); [eapply g_cacheDevice; exact h5|]. nx t6 u6 g6 i6 h6.
  bd (@any unit).
  { bd (found (h_phone (m_hdr inc))); [apply g_byPhone|]. nx t7 o g7 i7 h7. destruct o; [apply g_timerAdd; exact Hq|apply g_any]. }
  nx t7 u7 g7 i7 h7. apply g_any.
Qed.
Lemma g_0102 s inc code imei sw out : xk s -> XS (@any msg) s (process0102 inc code imei sw out).
Proof.
  intros Hs. bd (found (h_phone (m_hdr inc))); [apply g_byPhone|]. nx t d g1 i1 h1. destruct d as [l|]; [|apply g_fail].
  eapply xs_bind; [exact i1|eapply g_readConst; exact h1|]. nx t2 dv g2 i2 h2. pose proof (stable_odev _ _ _ _ h1 g2) as D2. case_bool_decide as Ec.
  - bd (@any unit); [apply g_writeDev|]. nx t3 u3 g3 i3 h3. pose proof (stable_odev _ _ _ _ D2 g3) as D3.
    bd (@any Z); [apply g_now|]. nx t4 now g4 i4 h4. pose proof (stable_odev _ _ _ _ D3 g4) as D4.
    bd (@any unit); [apply g_writeDev|]. nx t5 u5 g5 i5 h5. pose proof (stable_odev _ _ _ _ D4 g5) as D5.
    bd (@any unit); [apply g_writeDev|]. nx t6 u6 g6 i6 h6. pose proof (stable_odev _ _ _ _ D5 g6) as D6.
    bd (@any unit); [eapply g_cacheDevice; exact D6|]. nx t7 u7 g7 i7 h7. apply g_any.
  - bd (@any unit); [apply g_timerCancel|]. nx t3 u3 g3 i3 h3.
    bd (@any unit); [apply g_delDevice|]. nx t4 u4 g4 i4 h4. apply g_any.
Qed.
Lemma g_ring s q : q <> ph -> XS (fun _ l => Some l <> g0) s (getGeoRingByPhone q).
Proof.
  assert (F : forall t, gone t -> Some (fresh (dom (st_rings t))) <> g0).
  { intros t (_ & _ & _ & Hr) E. destruct (Hr _ (eq_sym E)) as (R1 & (x & R2) & _). rewrite R2 in R1.
    apply (is_fresh (dom (st_rings t))). apply elem_of_dom. eauto. }
  intros Hq. constructor.
  - intros t _ X1 _ _ _. pose proof (F t X1) as Fr. destruct X1 as (B & J & Eg & Hr).
    destruct (st_geo t !! q) as [l|] eqn:E; [split_and!; assumption|]. split_and!; [exact B|exact J| |].
    + cbn. rewrite lookup_insert_ne by exact Hq. exact Eg.
    + intros l El. destruct (Hr l El) as (R1 & R2 & R3). cbn. rewrite lookup_insert_ne by congruence. split_and!; [exact R1|exact R2|].
      intros q'. destruct (decide (q = q')) as [<-|Hn]; [rewrite lookup_insert; intros [= El']; congruence|].
      rewrite lookup_insert_ne by exact Hn. apply R3.
  - intros t _ X1 _ _ _ _. constructor. intros u _ _ _. cbn. destruct (st_geo t !! q) as [l|] eqn:E; [|apply F; exact X1].
    destruct X1 as (_ & _ & _ & Hr). intros El. apply Hq. exact (proj2 (proj2 (Hr l (eq_sym El))) _ E).
Qed.
Lemma g_onRing {A} s l (p : prog _ A) : Some l <> g0 -> XS (@any A) s (onRing l p).
Proof. intros H. apply (gq _ (Some l)); [right; exact H|apply q_onRing]. Qed.
Lemma g_0200 e s inc m out : xk s -> XS (@any msg) s (process0200 e inc m out).
Proof.
  intros Hs. bd (found (h_phone (m_hdr inc))); [apply g_byPhone|]. nx t d g1 i1 h1. destruct d as [l|]; [|apply g_fail].
  eapply xs_bind; [exact i1|eapply g_readConst; exact h1|]. nx t2 dv g2 i2 h2. pose proof (stable_odev _ _ _ _ h1 g2) as D2.
  bd (@any Z); [apply g_now|]. nx t3 now g3 i3 h3. cbv zeta. pose proof (stable_odev _ _ _ _ D2 g3) as D3.
  bd (@any unit).
  - destruct (_ =? _); [|apply g_any].
    bd (@any unit); [apply g_writeDev|]. nx t4 u4 g4 i4 h4. pose proof (stable_odev _ _ _ _ D3 g4) as D4.
    bd (@any Z); [apply g_now|]. nx t5 now' g5 i5 h5. pose proof (stable_odev _ _ _ _ D4 g5) as D5.
    bd (@any unit); [apply g_writeDev|]. nx t6 u6 g6 i6 h6. eapply g_cacheDevice. exact (stable_odev _ _ _ _ D5 g6).
  - nx t4 u4 g4 i4 h4. eapply xs_bind; [exact i4|apply g_ring; rewrite h2; apply h1|]. nx t5 rl g5 i5 h5.
    bd (@any unit); [apply g_onRing; exact h5|]. nx t6 u6 g6 i6 h6. apply g_any.
Qed.
Lemma g_8001 s inc r : xk s -> XS (@any unit) s (process8001 inc r).
Proof.
  intros Hs. unfold process8001. destruct (r =? 0); [|apply g_any].
  bd (found (h_phone (m_hdr inc))); [apply g_byPhone|]. nx t d g1 i1 h1. destruct d as [l|]; [|apply g_fail].
  bd (@any device); [apply gq0, q_readDev|]. nx t2 dv g2 i2 h2. destruct (_ =? _); [|apply g_any].
  pose proof (stable_odev _ _ _ _ h1 g2) as D2.
  bd (@any unit); [apply g_writeDev|]. nx t3 u3 g3 i3 h3. pose proof (stable_odev _ _ _ _ D2 g3) as D3.
  bd (@any Z); [apply g_now|]. nx t4 now g4 i4 h4. pose proof (stable_odev _ _ _ _ D3 g4) as D4.
  bd (@any unit); [apply g_writeDev|]. nx t5 u5 g5 i5 h5. eapply g_cacheDevice. exact (stable_odev _ _ _ _ D4 g5).
Qed.
Lemma table_0100 id ok : lookupN optionTable id = Some (K0100, ok) -> id = 0x0100.
Proof.
  unfold optionTable. cbn [lookupN].
  repeat (match goal with |- context [(?a =? ?b)] => destruct (N.eqb_spec a b) end; [intros [= <-]; congruence|]). discriminate.
Qed.
Definition other (p : packet) : Prop := h_phone (pk_hdr p) = ph -> h_id (pk_hdr p) <> 0x0100.
Lemma g_process e s sl p : xk s -> other p -> XS (@any (option msg)) s (process e sl p).
Proof.
  intros Hs Hl. unfold process. destruct (lookupN _ _) as [[ik ok]|] eqn:El; [|apply g_fail].
  destruct (isFragmented (pk_hdr p) && negb (pk_segdone p)) eqn:Ef; [apply gq0, q_segment|].
  bd (@any Z); [apply g_now|]. nx t now g1 i1 h1.
  eapply xs_bind; [exact i1|apply g_lift|]. nx t2 inc g2 i2 h2.
  pose proof (msgDecode_ok _ _ _ _ _ h2) as (Hh & Hk). destruct ok as [k|].
  - bd (@any Z); [apply g_now|]. nx t3 now3 g3 i3 h3.
    eapply xs_bind; [exact i3|apply g_lift|]. nx t4 o g4 i4 h4. destruct o as [out|]; [|apply g_any].
    bd (@any msg); [|nx t5 o5 g5 i5 h5; apply g_any].
    destruct (m_body inc) eqn:Eb; try apply g_any.
    + apply g_0002; assumption.
    + apply g_0003; assumption.
    + apply g_0100; [assumption|]. rewrite Hh. intros E. cbn in Hk. subst ik. exact (Hl E (table_0100 _ _ El)).
    + apply g_0102; assumption.
    + apply g_0200; assumption.
    + apply gq0, q_8100.
    + apply gq0, q_8103.
    + apply gq0, q_8104.
  - destruct (m_body inc); try apply g_any. bd (@any unit); [apply g_8001; assumption|]. nx t3 u3 g3 i3 h3. apply g_any.
Qed.
Lemma g_decodeP e s b : xk s -> XS (fun _ p => exists p0, decodePacket (e_o e) b = Ok p0 /\ pk_hdr p0 = pk_hdr p) s (decodeP e b).
Proof.
  intros Hs. unfold decodeP. eapply xs_bind; [exact Hs|apply g_lift|]. nx t p g1 i1 h1.
  destruct (isFragmented _); [|constructor; intros; exists p; auto]. destruct (h_frag _); [|apply g_panic].
  bd (@any bool); [apply gq0, q_cacheSegment|]. nx t2 d g2 i2 h2. constructor. intros. exists p. auto.
Qed.
Lemma g_serveOne e s sl r w : xk s ->
  (forall frm p, r = Ok frm -> decodePacket (e_o e) frm = Ok p -> other p) -> XS (@any bool) s (serveOne e sl r w).
Proof.
  intros Hs Hq. unfold serveOne. bd (@any session); [apply gq0, q_readSess|]. nx t x g1 i1 h1.
  eapply (xs_bindR gone (xpost (@any unit))); [|intros u y _ _ _; destruct y; [apply g_any|apply g_any|apply g_panic]|exact i1].
  unfold processConnRead. eapply xs_bind; [exact i1|apply g_lift|]. nx t2 b g2 i2 h2.
  eapply xs_bind; [exact i2|apply g_decodeP; exact i2|]. nx t3 p g3 i3 h3. destruct h3 as (p0 & E & Eh).
  bd (@any (option msg)); [apply g_process; [exact i3|unfold other; rewrite <- Eh; exact (Hq _ _ h2 E)]|]. nx t4 o g4 i4 h4.
  apply gq0, q_write.
Qed.
Lemma g_serve e sl ins : (forall frm w p, In (Ok frm, w) ins -> decodePacket (e_o e) frm = Ok p -> other p) ->
  forall s, xk s -> XS (@any bool) s (serveLoop e sl ins).
Proof.
  induction ins as [|[r w] t IH]; intros Hq s Hs; cbn [serveLoop]; [apply g_any|].
  eapply (xs_bindR gone (xpost (@any bool))); [apply g_serveOne; [assumption|]| |exact Hs].
  { intros frm p -> E. eapply Hq; [left; reflexivity|exact E]. }
  intros u y Hg Hi _.
  assert (Hend : XS (@any bool) u (remove sl ;;; ret true)%prog) by (apply gq0; apply mono_bind; [apply q_remove|intros; constructor]).
  destruct y as [[]|er|]; [|exact Hend..]. apply IH; [|assumption]. intros frm w' p H. eapply Hq. right. exact H.
Qed.
Lemma g_delGeo s q : q <> ph -> XS (@any unit) s (delGeoByPhone q).
Proof.
  intros Hq. apply g_write. intros t _ (S & (B & J & Eg & Hr)). split_and!; [exact B|exact J| |].
  - cbn. rewrite lookup_delete_ne by exact Hq. exact Eg.
  - intros l El. destruct (Hr l El) as (R1 & R2 & R3). split_and!; [exact R1|exact R2|]. intros q' Hq'. cbn in Hq'. apply lookup_delete_Some in Hq'. apply R3. apply Hq'.
Qed.
Lemma g_geo s q : xk s -> XS (@any (list N * option devgeo)) s (apiGeo q).
Proof.
  intros Hs. bd (found q); [apply g_byPhone|]. nx t d g1 i1 h1. destruct d as [l|]; [|apply g_any].
  bd (@any device); [apply gq0, q_readDev|]. nx t2 dv g2 i2 h2.
  bd (@any (option devgeo)).
  - eapply xs_bind; [exact i2|apply g_ring; apply h1|]. nx t3 rl g3 i3 h3. apply g_onRing. exact h3.
  - nx t3 o g3 i3 h3. destruct o; apply g_any.
Qed.
Lemma g_tick s q : xk s -> XS (@any unit) s (checkKeepalive q).
Proof.
  intros Hs. unfold checkKeepalive. bd (found q); [apply g_byPhone|]. nx t d g1 i1 h1. destruct d as [l|].
  2:{ bd (@any unit); [apply g_timerCancel|]. nx t2 u2 g2 i2 h2. apply g_panic. }
  bd (@any bool); [apply gq0, q_turnOffline|]. nx t3 b g3 i3 h3. pose proof (stable_odev _ _ _ _ h1 g3) as D3.
  destruct b.
  { bd (@any unit); [apply g_writeDev|]. nx t4 u4 g4 i4 h4. eapply g_cacheDevice. exact (stable_odev _ _ _ _ D3 g4). }
  bd (@any bool); [apply gq0, q_clear|]. nx t4 b4 g4 i4 h4. destruct b4; [|apply g_any].
  bd (@any device); [apply gq0, q_readConst|]. nx t5 dv5 g5 i5 h5.
  bd (@any unit); [apply gq0, q_connClose|]. nx t6 u6 g6 i6 h6.
  bd (@any unit); [apply g_delDevice|]. nx t7 u7 g7 i7 h7.
  bd (@any unit); [apply g_delGeo; apply h1|]. nx t8 u8 g8 i8 h8. apply g_timerCancel.
Qed.
Lemma g_code e s g : xk s -> registers_not e ph g -> XS (@any unit) s (code e g).
Proof.
  intros Hs Hg. destruct g as [c addr ins|sl ins|sl p|q| |q|q w|q bad ps w|now|]; cbn [code registers_not] in *.
  - bd (@any unit); [apply gq0, q_opened|]. nx t u g1 i1 h1. bd (@any bool); [|intros; apply g_any].
    unfold connThread. bd (@any nat); [apply gq0, q_accept|]. nx t2 sl g2 i2 h2. apply g_serve; assumption.
  - bd (@any bool); [apply g_serve; assumption|]. intros. apply g_any.
  - bd (@any (option msg)); [apply g_process; assumption|]. intros. apply g_any.
  - apply g_tick. exact Hs.
  - apply gq0. apply mono_bind; [apply q_list|intros; constructor].
  - bd (@any (list N * option devgeo)); [apply g_geo; exact Hs|]. intros. apply g_any.
  - apply gq0. apply mono_bind; [apply q_get|intros; constructor].
  - apply gq0. apply mono_bind; [apply q_put|intros; constructor].
  - apply g_write. intros t _ (_ & X1). exact X1.
  - apply gq0. apply mono_bind; [apply q_count|intros; constructor].
Qed.
End Absent.

Theorem stays_absent e gs s ph sch : sane s -> own_rings s -> devAt s ph = None -> (forall g, In g gs -> placed s g /\ registers_not e ph g) ->
  let s' := snd (running e gs s sch) in
  devAt s' ph = None /\ ringOf s' ph = ringOf s ph /\ (ph ∉ st_jobs s -> ph ∉ st_jobs s').
Proof.
  intros Hs Hown Hd Hg s'. set (jb := ph ∉ st_jobs s). set (Y := gone ph jb (st_geo s !! ph) (ringOf s ph)).
  assert (Ho : xok Y s).
  { split; [exact Hs|]. split_and!; [|auto|reflexivity|].
    - unfold devAt in Hd. destruct (st_byPhone s !! ph) as [l|] eqn:E; [|reflexivity].
      destruct (sn_phone s Hs _ _ E) as (d & D & _). congruence.
    - intros l El. unfold ringOf. rewrite El. split_and!; [reflexivity|exact (sn_geo s Hs _ _ El)|]. intros q Hq. exact (Hown _ _ _ Hq El). }
  pose proof (psteps_safe (xok Y) grows grows_refl grows_trans (fun _ _ => True) sch (List.map (code e) gs) s Ho) as H.
  destruct H as ((_ & (B & J & Eg & Hr)) & _).
  { intros j p Hj. rewrite nth_error_map in Hj. destruct (nth_error gs j) as [g|] eqn:E; [|discriminate]. injection Hj as <-.
    apply nth_error_In in E. destruct (Hg g E) as (Hp & Hh).
    eapply safe_post; [exact grows_trans|eapply xs_safe; [apply (sf_code false); [exact Hs|exact Hp|discriminate]|]|auto].
    apply g_code; assumption. }
  split_and!; [|unfold ringOf at 1|exact J].
  - unfold s', devAt, running. rewrite B. reflexivity.
  - unfold s', running. rewrite Eg. destruct (st_geo s !! ph) as [l|] eqn:E; [exact (proj1 (Hr l eq_refl))|]. unfold ringOf. rewrite E. reflexivity.
Qed.
