(** Which connections stay open (C82) *)
From stdpp Require Import gmap.
From Verif Require Import Base HexM TimeM HashM HeaderM ParamsM GeoM MsgM PacketM FrameM ProgM RingM SpecRing StateM ProcM ServerM ConcM
  SpecCodec SpecState SpecConc SpecReg SpecOpen ProgP StateP ProcP ServerP EffectP ConcP ReleaseP TimelyP.
Local Open Scope N_scope.

(** encoding never returns an error *)
Lemma params_no_err o ps : forall pkt er, paramsEncodeLoop o ps pkt <> Err er.
Proof.
  induction ps as [|p ps IH]; intros pkt er; cbn; [discriminate|]. destruct (paramEncode o p); [apply IH|apply IH|discriminate].
Qed.
Lemma encode_no_err o m er : encodePacket o m <> Err er.
Proof.
  unfold encodePacket, msgEncode, rmap. destruct (encBody o (m_hdr m) (m_body m)) as [b|e|] eqn:E; [discriminate| |discriminate].
  exfalso. revert E. unfold encBody, rmap, mqueryEncode.
  destruct (m_body m); try discriminate; repeat match goal with
    | |- context [match ?x with Some _ => _ | None => _ end] => destruct x
    | |- context [paramsEncode o ?d] => let H := fresh in destruct (paramsEncode o d) eqn:H; [|destruct (params_no_err _ _ _ _ H)|]
    end; cbn; try discriminate.
Qed.

Section Open.
Context (c : nat) (phs : list str).
Definition X (s : st) : Prop := still_open c s /\ on_conn c phs s.
Definition qo (s s' : st) : Prop :=
  (still_open c s -> still_open c s')
  /\ forall l d', st_devs s' !! l = Some d' -> exists d, st_devs s !! l = Some d /\ d_conn d' = d_conn d /\ d_phone d' = d_phone d.
Notation XS P s p := (xs X (xpost P) s p).
Notation xk := (xok X).
Lemma X_qo t u : X t -> qo t u -> X u.
Proof.
  intros (H1 & H2) (Q1 & Q2). split; [auto|]. intros l d' H E. destruct (Q2 l d' H) as (d & D & E1 & E2). rewrite E2. apply (H2 l d D). congruence.
Qed.
Lemma xq {A} (p : sp A) : mono qo p -> forall s, XS (@any A) s p.
Proof.
  intros H. induction H as [r|a f k H1 H2 IH]; intros s; constructor.
  - intros t _ _ _. destruct r; exact Logic.I.
  - intros t _ Ht _ _ _. eapply X_qo; [exact Ht|apply H1].
  - intros. apply IH.
Qed.
Lemma xs_any {A} s (a : A) : XS (@any A) s (ret a).
Proof. constructor. intros. exact Logic.I. Qed.
Lemma xs_panic {A} (P : st -> A -> Prop) s : XS P s panic.
Proof. constructor. intros. exact Logic.I. Qed.
Lemma xs_fail {A} (P : st -> A -> Prop) s e : XS P s (fail e).
Proof. constructor. intros. exact Logic.I. Qed.
Lemma xs_lift {A} s (r : res A) : XS (fun _ a => r = Ok a) s (lift r).
Proof. constructor. intros. destruct r; cbn; auto. Qed.
Lemma qo_refl s : qo s s.
Proof. split; [auto|]. intros l d H. eauto. Qed.
Lemma qo_same s s' : st_conns s' = st_conns s -> st_devs s' = st_devs s -> qo s s'.
Proof. intros H1 H2. unfold qo, still_open. rewrite H1, H2. split; [auto|]. intros l d H. eauto. Qed.
Lemma q_writeDev l f : (forall d, d_conn (f d) = d_conn d /\ d_phone (f d) = d_phone d) -> mono qo (writeDev l f).
Proof.
  intros Hf. apply mono_act; [|constructor]. intros s. split; [auto|]. intros l' d'. cbn. destruct (decide (l = l')) as [<-|Hn].
  - rewrite lookup_alter. destruct (st_devs s !! l) as [d|] eqn:E; [|discriminate]. intros [= <-]. exists d. split; [reflexivity|apply Hf].
  - rewrite lookup_alter_ne by exact Hn. eauto.
Qed.
Lemma q_connSend c' b w : mono qo (connSend c' b w).
Proof.
  apply mono_act.
  - intros s. split; [|intros l d H; eauto]. intros (k & H & Ho). unfold still_open. cbn. destruct (decide (c' = c)) as [->|Hn].
    + rewrite lookup_alter, H. cbn. rewrite Ho. eexists. split; reflexivity.
    + rewrite lookup_alter_ne by exact Hn. eauto.
  - intros s. destruct (st_conns s !! c') as [x|]; [|constructor]. destruct (cn_open x); [destruct w as [[]|]|]; constructor.
Qed.
Lemma q_onRing {A} l (p : prog _ A) : mono qo (onRing l p).
Proof. apply mono_zoom. intros. apply qo_same; reflexivity. Qed.
Lemma q_nextSerial l : mono qo (nextSerial l).
Proof. apply mono_zoom. intros. apply qo_same; reflexivity. Qed.
Notation quiet := (mono qo).
Ltac qacts := repeat first [apply mono_ret | apply mono_act; [intros; repeat match goal with |- context [match ?x with _ => _ end] => destruct x end; solve [apply qo_same; reflexivity]|intros] | match goal with |- quiet (match ?x with _ => _ end) => destruct x end].
Ltac qs := repeat match goal with
  | |- quiet (pbind _ _) => apply mono_bind; [|intros]
  | |- quiet (pbindR _ _) => apply mono_bindR; [|intros]
  | |- quiet (lift _) => constructor
  | |- quiet (onRing _ _) => apply q_onRing
  | |- quiet (nextSerial _) => apply q_nextSerial
  | |- quiet (writeDev _ _) => apply q_writeDev; intros; split; reflexivity
  | |- quiet (connSend _ _ _) => apply q_connSend
  | |- quiet (hasPlate _) => unfold hasPlate
  | |- quiet (hasPhone _) => unfold hasPhone
  | |- quiet (timerRegister _) => unfold timerRegister
  | |- quiet (let _ := _ in _) => cbv zeta
  | |- quiet (match ?x with _ => _ end) => destruct x
  | |- quiet (Ret _) => constructor
  | |- quiet (ret _) => constructor
  | |- quiet (fail _) => constructor
  | |- quiet panic => constructor
  | |- quiet _ => unfold getNow, readConst, readDev, getDeviceByPlate, getDeviceByPhone, cacheDevice, delDeviceByPhone, timerAdd, timerCancel,
      getGeoRingByPhone, delGeoByPhone, getDeviceParamsByPhone, cacheDeviceParams, cacheSegment, getSession, storeSession, clearSession,
      readSess, lock, unlock, listDevice, countSession, rd1, wr1; cbv zeta; solve [qacts]
  end.
Lemma xs_connClose s c' : c' <> c -> XS (@any unit) s (connClose c').
Proof.
  intros Hn. constructor; [|intros; apply xs_any]. intros t _ ((k & H & Ho) & D) _ _ _. split; [|exact D].
  exists k. cbn. rewrite lookup_alter_ne by exact Hn. auto.
Qed.
Lemma xs_allocDev s d : d_conn d <> c -> XS (@any nat) s (allocDev d).
Proof.
  intros Hn. constructor; [|intros; apply xs_any]. intros t _ (H & D) _ _ _. split; [exact H|].
  intros l d'. cbn. destruct (decide (fresh (dom (st_devs t)) = l)) as [<-|Hl].
  - rewrite lookup_insert. intros [= <-]. contradiction.
  - rewrite lookup_insert_ne by exact Hl. apply D.
Qed.
Lemma xs_opened s c' : c' <> c -> XS (@any unit) s (opened c').
Proof.
  intros Hn. constructor; [|intros; apply xs_any]. intros t _ ((k & H & Ho) & D) _ _ _. split; [|exact D].
  exists k. cbn. rewrite lookup_insert_ne by exact Hn. auto.
Qed.
(** a session on another connection *)
Definition osess (s : st) (sl : nat) : Prop := exists x, st_sess s !! sl = Some x /\ ss_conn x <> c.
Lemma stable_osess : stable osess.
Proof. intros t u l (x & H & E) G. destruct (gr_sess _ _ G l x H) as (x' & H' & _ & E'). exists x'. split; congruence. Qed.
Lemma xs_readSess s sl : osess s sl -> XS (fun _ x => ss_conn x <> c) s (readSess sl).
Proof.
  intros H. constructor; [auto|]. intros t _ _ G _ _ _. destruct (stable_osess _ _ _ H G) as (x & Hx & E). rewrite Hx.
  constructor. intros. exact E.
Qed.
Ltac bd P := eapply (xs_bind X P); [assumption|..].
Tactic Notation "nx" ident(t) ident(a) ident(g) ident(i) ident(h) := intros t a g i h.
Lemma xs_remove s sl : xk s -> osess s sl -> XS (@any unit) s (remove sl).
Proof.
  intros Hs Ho. unfold remove. bd (@any unit); [apply xq; qs|]. nx t u g1 i1 h1.
  eapply (xs_bindR X (xpost (@any unit))); [| |exact i1].
  - eapply xs_bind; [exact i1|apply xs_readSess; eapply stable_osess; eassumption|]. nx t2 x g2 i2 h2.
    bd (@any unit); [apply xs_connClose; exact h2|]. nx t3 u3 g3 i3 h3. apply xq. qs.
  - intros t2 r g2 i2 h2. bd (@any unit); [apply xq; qs|]. nx t3 u3 g3 i3 h3. constructor. intros. destruct r; exact Logic.I.
Qed.
Lemma q_segment p : quiet (processSegment p). Proof. unfold processSegment. qs. Qed.
Lemma q_write e c' out w : quiet (processConnWrite e c' out w). Proof. unfold processConnWrite. qs. Qed.
Lemma q_decodeP e b : quiet (decodeP e b). Proof. unfold decodeP. qs. Qed.
Lemma xs_0100 s sl inc r out : xk s -> osess s sl -> XS (@any msg) s (process0100 sl inc r out).
Proof.
  intros Hs Ho. bd (@any bool); [apply xq; qs|]. nx t b g1 i1 h1. destruct b; [apply xs_any|].
  bd (@any bool); [apply xq; qs|]. nx t2 b g2 i2 h2. destruct b; [apply xs_any|].
  eapply xs_bind; [exact i2|apply xs_readSess; eapply stable_osess; [|exact g2]; eapply stable_osess; eassumption|].
  nx t3 x g3 i3 h3. bd (@any Z); [apply xq; qs|]. nx t4 now g4 i4 h4. cbv zeta.
  bd (@any nat); [apply xs_allocDev; exact h3|]. nx t5 l g5 i5 h5. apply xq. qs.
Qed.
Lemma xs_process e s sl p : xk s -> osess s sl -> XS (@any (option msg)) s (process e sl p).
Proof.
  intros Hs Hl. unfold process. destruct (lookupN _ _) as [[ik ok]|] eqn:El; [|apply xs_fail].
  destruct (isFragmented (pk_hdr p) && negb (pk_segdone p)) eqn:Ef; [apply xq, q_segment|].
  bd (@any Z); [apply xq; qs|]. nx t now g1 i1 h1.
  eapply xs_bind; [exact i1|apply xs_lift|]. nx t2 inc g2 i2 h2. destruct ok as [k|].
  - bd (@any Z); [apply xq; qs|]. nx t3 now3 g3 i3 h3.
    eapply xs_bind; [exact i3|apply xs_lift|]. nx t4 o g4 i4 h4. destruct o as [out|]; [|apply xs_any].
    assert (Hx4 : osess t4 sl) by (eapply stable_osess; [exact Hl|]; eauto using grows_trans).
    bd (@any msg); [|nx t5 o5 g5 i5 h5; apply xs_any].
    destruct (m_body inc) eqn:Eb; try apply xs_any; try (apply xs_0100; assumption);
      apply xq; unfold process0002, process0003, process0102, process0200, process8100, process8103, process8104; qs.
  - destruct (m_body inc); try apply xs_any. apply xq. unfold process8001. qs.
Qed.
Lemma xs_serveOne e s sl r w : xk s -> osess s sl -> XS (@any bool) s (serveOne e sl r w).
Proof.
  intros Hs Ho. unfold serveOne. eapply xs_bind; [exact Hs|apply xs_readSess; exact Ho|]. nx t x g1 i1 h1.
  eapply (xs_bindR X (xpost (@any unit))); [|intros u y _ _ _; destruct y; [apply xs_any|apply xs_any|apply xs_panic]|exact i1].
  unfold processConnRead. eapply xs_bind; [exact i1|apply xs_lift|]. nx t2 b g2 i2 h2.
  bd (@any packet); [apply xq, q_decodeP|]. nx t3 p g3 i3 h3.
  bd (@any (option msg)); [apply xs_process; [exact i3|eapply stable_osess; [exact Ho|]; eauto using grows_trans]|]. nx t4 o g4 i4 h4.
  apply xq, q_write.
Qed.
Lemma xs_serve e sl ins : forall s, xk s -> osess s sl -> XS (@any bool) s (serveLoop e sl ins).
Proof.
  induction ins as [|[r w] t IH]; intros s Hs Ho; cbn [serveLoop]; [apply xs_any|].
  eapply (xs_bindR X (xpost (@any bool))); [apply xs_serveOne; assumption| |exact Hs].
  intros u y Hg Hi _. assert (Ho' : osess u sl) by (eapply stable_osess; eassumption).
  assert (Hend : XS (@any bool) u (remove sl ;;; ret true)%prog).
  { bd (@any unit); [apply xs_remove; assumption|]. intros. apply xs_any. }
  destruct y as [[]|er|]; [|exact Hend..]. apply IH; assumption.
Qed.
Lemma xs_accept s c' addr : c' <> c -> xk s -> XS osess s (accept c' addr).
Proof.
  intros Hn Hs. unfold accept. bd (@any unit); [apply xq; qs|]. nx t u g1 i1 h1.
  bd osess.
  { constructor.
    - intros v _ Hv _ _ _. eapply X_qo; [exact Hv|]. apply qo_same; reflexivity.
    - intros v _ _ _ _ G _. constructor. intros w _ _ Gw. cbn. apply (stable_osess (set_sess (<[fresh (dom (st_sess v)) := mkSession addr c' 0]>) v) w _); [|exact Gw].
      eexists. cbn. rewrite lookup_insert. split; [reflexivity|exact Hn]. }
  nx t2 l g2 i2 h2. bd (@any unit); [apply xq; qs|]. nx t3 u3 g3 i3 h3. bd (@any unit); [apply xq; qs|]. nx t4 u4 g4 i4 h4.
  constructor. intros v _ _ G. cbn. eapply stable_osess; [exact h2|]. eauto using grows_trans.
Qed.
(** a device of the phone [q] *)
Definition pdev (q : str) (s : st) (l : nat) : Prop := exists d, st_devs s !! l = Some d /\ d_phone d = q.
Lemma stable_pdev q : stable (pdev q).
Proof. intros t u l (d & H & E) G. destruct (gr_dev _ _ G l d H) as (d' & H' & E'). exists d'. split; congruence. Qed.
Lemma xs_byPhone s q : XS (opt (pdev q)) s (getDeviceByPhone q).
Proof.
  constructor; [auto|]. intros t S _ _ _ _ _. constructor. intros u _ _ G. cbn. destruct (st_byPhone t !! q) as [l|] eqn:E; [|exact Logic.I].
  destruct (sn_phone t S _ _ E) as (d & H & Eq). apply (stable_pdev q t u l); [exists d; auto|exact G].
Qed.
Lemma xs_readConst s q l : ~ In q phs -> pdev q s l -> XS (fun _ d => d_conn d <> c) s (readConst l).
Proof.
  intros Hq Hl. constructor; [auto|]. intros t _ (_ & D) G _ _ _. destruct (stable_pdev _ _ _ _ Hl G) as (d & H & E). rewrite H.
  constructor. intros _ _ _ _ Ec. apply Hq. rewrite <- E. apply (D l d H Ec).
Qed.
Lemma xs_tick s q : ~ In q phs -> xk s -> XS (@any unit) s (checkKeepalive q).
Proof.
  intros Hq Hs. unfold checkKeepalive. bd (opt (pdev q)); [apply xs_byPhone|]. nx t o g1 i1 h1. destruct o as [l|]; [|apply xq; qs].
  cbn in h1. bd (@any bool); [apply xq; unfold shouldTurnOffline; qs|]. nx t3 b g3 i3 h3.
  destruct b; [apply xq; qs|]. bd (@any bool); [apply xq; unfold shouldClear; qs|]. nx t4 b4 g4 i4 h4. destruct b4; [|apply xs_any].
  eapply xs_bind; [exact i4|apply (xs_readConst _ q); [exact Hq|]|].
  { eapply stable_pdev; [exact h1|]. eauto using grows_trans. }
  nx t5 d5 g5 i5 h5.
  bd (@any unit); [apply xs_connClose; exact h5|]. nx t6 u6 g6 i6 h6. apply xq. qs.
Qed.
(** sending over [c] while it is open *)
Definition unbroken {A} : st -> res A -> Prop := fun _ r => r <> Err ErrClosedPipe /\ r <> Err ErrNetClosed.
Lemma xs_write_c e s m w : sound w -> xk s -> xs X unbroken s (processConnWrite e c (Some m) w).
Proof.
  intros Hw Hs. unfold processConnWrite, pbind, lift. cbn [pbindR]. destruct (encodePacket (e_o e) m) as [b|er|] eqn:E.
  2:{ destruct (encode_no_err _ _ _ E). }
  2:{ constructor. intros. split; discriminate. }
  unfold connSend. constructor.
  - intros v _ Hv _ _ _. eapply X_qo; [exact Hv|]. pose proof (q_connSend c b w) as Q. inversion Q as [|? ? ? Q1]. subst. apply Q1.
  - intros v _ ((k & Hk & Ho) & _) _ _ _ _. rewrite Hk, Ho. destruct w as [[n er]|]; constructor; intros; split; try discriminate.
    + intros [= ->]. destruct (Hw n ErrClosedPipe eq_refl) as (H9 & _). auto.
    + intros [= ->]. destruct (Hw n ErrNetClosed eq_refl) as (_ & H9). auto.
Qed.
Lemma xs_send e s i m w : sound w -> xk s -> XS (@any unit) s (serverSend e i m w).
Proof.
  intros Hw Hs. unfold serverSend. bd (@any (option nat)); [apply xq; qs|]. nx t o g1 i1 h1. destruct o as [sl|]; [|apply xs_any].
  eapply (xs_bind X (fun t x => exists x', st_sess t !! sl = Some x' /\ ss_conn x' = ss_conn x)); [exact i1| |].
  { constructor; [auto|]. intros v _ _ _ _ _ _. destruct (st_sess v !! sl) as [x|] eqn:E; [|apply xs_panic].
    constructor. intros u _ _ G. destruct (gr_sess _ _ G sl x E) as (x' & H' & _ & E'). exists x'. auto. }
  nx t2 x g2 i2 h2. destruct (decide (ss_conn x = c)) as [->|Hn].
  - eapply (xs_bindR X unbroken); [apply xs_write_c; assumption| |exact i2]. intros u r G I2 (N1 & N2).
    destruct r as [v|er|]; [apply xs_any| |apply xs_panic]. destruct er; try apply xs_any; contradiction.
  - eapply (xs_bindR X (xpost (@any unit))); [apply xq, q_write| |exact i2]. intros u r G I2 _.
    assert (Ho : osess u sl).
    { destruct h2 as (x' & H' & E'). apply (stable_osess t2 u sl); [|exact G]. exists x'. split; [exact H'|congruence]. }
    destruct r as [v|er|]; [apply xs_any| |apply xs_panic]. destruct er; try apply xs_any; apply xs_remove; assumption.
Qed.
Lemma xs_get e s q w : sound w -> xk s -> XS (@any (list N)) s (apiGetParams e q w).
Proof.
  intros Hw Hs. unfold apiGetParams. bd (@any (option nat)); [apply xq; qs|]. nx t o g1 i1 h1. destruct o as [l|]; [|apply xs_any].
  bd (@any device); [apply xq; qs|]. nx t2 dv g2 i2 h2. bd (@any (nat * N)); [apply xq; unfold apiSession; qs|]. nx t3 y g3 i3 h3.
  bd (@any session); [apply xq; qs|]. nx t4 x g4 i4 h4. bd (@any unit); [apply xs_send; assumption|]. intros. apply xs_any.
Qed.
Lemma xs_put e s q bad ps w : sound w -> xk s -> XS (@any (list N)) s (apiPutParams e q bad ps w).
Proof.
  intros Hw Hs. unfold apiPutParams. cbv zeta. bd (@any (option nat)); [apply xq; qs|]. nx t o g1 i1 h1. destruct o as [l|]; [|apply xs_any].
  bd (@any device); [apply xq; qs|]. nx t2 dv g2 i2 h2. bd (@any (nat * N)); [apply xq; unfold apiSession; qs|]. nx t3 y g3 i3 h3.
  bd (@any session); [apply xq; qs|]. nx t4 x g4 i4 h4. bd (@any unit); [apply xs_send; assumption|]. intros. apply xs_any.
Qed.
Lemma xs_code e s g : xk s -> elsewhere c phs s g -> XS (@any unit) s (code e g).
Proof.
  intros Hs Hg. destruct g as [c' addr ins|sl ins|sl p|q| |q|q w|q bad ps w|now|]; cbn [code elsewhere] in *.
  - bd (@any unit); [apply xs_opened; exact Hg|]. nx t u g1 i1 h1. bd (@any bool); [|intros; apply xs_any].
    unfold connThread. eapply xs_bind; [exact i1|apply xs_accept; assumption|]. nx t2 sl g2 i2 h2. apply xs_serve; assumption.
  - bd (@any bool); [apply xs_serve; assumption|]. intros. apply xs_any.
  - bd (@any (option msg)); [apply xs_process; assumption|]. intros. apply xs_any.
  - apply xs_tick; assumption.
  - apply xq. unfold apiList. qs.
  - apply xq. unfold apiGeo, getGeoLatestByPhone. qs.
  - bd (@any (list N)); [apply xs_get; assumption|]. intros. apply xs_any.
  - bd (@any (list N)); [apply xs_put; assumption|]. intros. apply xs_any.
  - constructor; [|intros; apply xs_any]. intros t _ Ht _ _ _. eapply X_qo; [exact Ht|]. apply qo_same; reflexivity.
  - apply xq. qs.
Qed.
End Open.

Theorem stays_open e gs s c phs sch : sane s -> still_open c s -> on_conn c phs s ->
  (forall g, In g gs -> placed s g /\ elsewhere c phs s g) ->
  let s' := snd (running e gs s sch) in still_open c s' /\ on_conn c phs s'.
Proof.
  intros Hs Ho Hc Hg s'. assert (Hk : xok (X c phs) s) by (split; [exact Hs|split; assumption]).
  pose proof (psteps_safe (xok (X c phs)) grows grows_refl grows_trans (fun _ _ => True) sch (List.map (code e) gs) s Hk) as H.
  destruct H as ((_ & HX) & _); [|exact HX].
  intros j p Hj. rewrite nth_error_map in Hj. destruct (nth_error gs j) as [g|] eqn:E; [|discriminate]. injection Hj as <-.
  apply nth_error_In in E. destruct (Hg g E) as (Hp & Hh).
  eapply safe_post; [exact grows_trans|eapply xs_safe; [apply (sf_code false); [exact Hs|exact Hp|discriminate]|]|auto].
  apply xs_code; assumption.
Qed.
