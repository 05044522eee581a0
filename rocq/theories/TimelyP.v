(** A device heard less than a keepalive interval ago survives every schedule (C118) *)
From stdpp Require Import gmap.
From Verif Require Import Base HexM TimeM HashM HeaderM ParamsM GeoM MsgM PacketM FrameM ProgM RingM SpecRing StateM ProcM ServerM ConcM
  SpecCodec SpecState SpecConc SpecReg SpecTimely ProgP StateP ProcP ServerP EffectP ConcP ReleaseP.
Local Open Scope N_scope.

(** * An invariant on top of [sane] and [grows], which every action is known to keep *)
Section Xs.
Context (X : st -> Prop).
Definition xpost {A} (P : st -> A -> Prop) : st -> res A -> Prop := fun t r => match r with Ok a => P t a | _ => True end.
Inductive xs {A} (P : st -> res A -> Prop) : st -> sp A -> Prop :=
| xs_ret s r : (forall t, sane t -> X t -> grows s t -> P t r) -> xs P s (Ret r)
| xs_act s a f k :
    (forall t, sane t -> X t -> grows s t -> sane (f t) -> grows t (f t) -> X (f t)) ->
    (forall t, sane t -> X t -> grows s t -> sane (f t) -> grows t (f t) -> X (f t) -> xs P (f t) (k t)) ->
    xs P s (Act a f k).
Definition xok (s : st) : Prop := sane s /\ X s.
Lemma xs_bindR {A B} (Q : st -> res A -> Prop) (Q' : st -> res B -> Prop) s (p : sp A) g :
  xs Q s p -> (forall t r, grows s t -> xok t -> Q t r -> xs Q' t (g r)) -> xok s -> xs Q' s (pbindR p g).
Proof.
  intros H. induction H as [s r Hq|s a f k H1 H2 IH]; intros Hg (Hs & Hx); cbn.
  - apply Hg; [apply grows_refl|split; assumption|]. apply Hq; [assumption..|apply grows_refl].
  - constructor; [exact H1|]. intros t S1 X1 G1 S2 G2 X2. apply (IH t S1 X1 G1 S2 G2 X2); [|split; assumption].
    intros u r Hu Ho HQ. apply Hg; [|exact Ho|exact HQ].
    eapply grows_trans; [exact G1|]. eapply grows_trans; [exact G2|exact Hu].
Qed.
Lemma xs_bind {A B} (P : st -> A -> Prop) (P' : st -> B -> Prop) s (p : sp A) g :
  xok s -> xs (xpost P) s p -> (forall t a, grows s t -> xok t -> P t a -> xs (xpost P') t (g a)) -> xs (xpost P') s (pbind p g).
Proof.
  intros Ho Hp Hg. unfold pbind. eapply xs_bindR; [exact Hp| |exact Ho].
  intros t [a|er|] G O HQ; [apply Hg; assumption|constructor; intros; exact Logic.I..].
Qed.
Lemma xs_weaken {A} (P Q : st -> res A -> Prop) s (p : sp A) : xs P s p -> (forall t r, P t r -> Q t r) -> xs Q s p.
Proof. intros H HPQ. induction H; constructor; auto. Qed.
(** together with what is known of the goroutine *)
Lemma xs_safe {A} (Q P : st -> res A -> Prop) s (p : sp A) : safe sane grows Q s p -> xs P s p ->
  safe xok grows (fun t r => Q t r /\ P t r) s p.
Proof.
  intros H. induction H as [s r Hq|s a f k H1 _ IH]; intros Hx; inversion Hx as [? ? Hp|? ? ? ? K1 K2]; subst; constructor.
  - intros t (S & X1) G. split; [apply Hq|apply Hp]; assumption.
  - intros t (S & X1) G. destruct (H1 t S G) as (S2 & G2). split; [split; [exact S2|]|exact G2]. apply K1; assumption.
  - intros t (S & X1) G. destruct (H1 t S G) as (S2 & G2). apply IH; [assumption..|]. apply K2; try assumption. apply K1; assumption.
Qed.
End Xs.
Arguments xs_ret {X A}. Arguments xs_act {X A}.

(** * The invariant *)
Section Timely.
Context (ph : str) (l0 : nat) (d0 : device) (jb spr : Prop).
Definition good (d : device) : Prop := same_identity d0 d /\ (d_last d0 <= d_last d)%Z /\ d_status d <> Offline.
(** no other device has the plate *)
Definition taken (s : st) : Prop := st_byPlate s !! d_plate d0 = Some l0
  /\ forall q l d, st_byPhone s !! q = Some l -> st_devs s !! l = Some d -> d_plate d = d_plate d0 -> l = l0.
Definition X (s : st) : Prop :=
  within d0 (st_clock s) /\ st_byPhone s !! ph = Some l0 /\ (exists d, st_devs s !! l0 = Some d /\ good d) /\ (jb -> ph ∈ st_jobs s) /\ (spr -> taken s).
Definition qt (s s' : st) : Prop :=
  st_clock s' = st_clock s /\ st_byPhone s' = st_byPhone s /\ st_devs s' = st_devs s /\ st_jobs s' = st_jobs s
  /\ st_byPlate s' = st_byPlate s.
Hypothesis Hph : d_phone d0 = ph.
Notation XS P s p := (xs X (xpost P) s p).
Notation xk := (xok X).
Lemma X_qt t u : X t -> qt t u -> X u.
Proof. unfold X, taken. intros H (-> & -> & -> & -> & ->). exact H. Qed.
Lemma xq {A} (p : sp A) : mono qt p -> forall s, XS (@any A) s p.
Proof.
  intros H. induction H as [r|a f k H1 H2 IH]; intros s; constructor.
  - intros t _ _ _. destruct r; exact Logic.I.
  - intros t _ Ht _ _ _. eapply X_qt; [exact Ht|apply H1].
  - intros. apply IH.
Qed.
Lemma xs_any {A} s (a : A) : XS (@any A) s (ret a).
Proof. constructor. intros. exact Logic.I. Qed.
Lemma xs_fail {A} (P : st -> A -> Prop) s e : XS P s (fail e).
Proof. constructor. intros. exact Logic.I. Qed.
Lemma xs_panic {A} (P : st -> A -> Prop) s : XS P s panic.
Proof. constructor. intros. exact Logic.I. Qed.
Lemma xs_lift {A} s (r : res A) : XS (fun _ a => r = Ok a) s (lift r).
Proof. constructor. intros. destruct r; cbn; auto. Qed.
Lemma xs_read {A} (P : st -> A -> Prop) s a g : stable P -> (forall t, grows s t -> xk t -> P t (g t)) -> XS P s (rd1 a g).
Proof.
  intros Hst H. constructor; [auto|]. intros t S1 X1 G1 _ _ _. constructor. intros u _ _ G2. cbn.
  eapply Hst; [apply H; [exact G1|split; assumption]|exact G2].
Qed.
Lemma xs_write s a f : (forall t, grows s t -> xk t -> X (f t)) -> XS (@any unit) s (wr1 a f).
Proof. intros H. constructor; [intros; apply H; [assumption|split; assumption]|]. intros. apply xs_any. Qed.

(** a device object: that of the phone, or another phone's *)
Definition mdev (q : str) (s : st) (l : nat) : Prop := (exists d, st_devs s !! l = Some d /\ d_phone d = q /\ (spr -> d_plate d = d_plate d0 -> l = l0)) /\ (l = l0 <-> q = ph).
Lemma stable_mdev q : stable (mdev q).
Proof.
  intros t u l ((d & H & E & Hp) & Hi) G. split; [|exact Hi]. destruct (gr_dev _ _ G l d H) as (d' & H' & E'). exists d'. split; [exact H'|].
  split; [congruence|]. intros Hs Ed. apply Hp; [exact Hs|congruence].
Qed.
Lemma xs_byPhone s q : XS (fun t o => match o with Some l => mdev q t l | None => q <> ph end) s (getDeviceByPhone q).
Proof.
  apply xs_read.
  - intros t u [l|] H G; [eapply stable_mdev; eassumption|exact H].
  - intros t G (S & (_ & B & (d & D & I1 & _) & _ & T)). destruct (st_byPhone t !! q) as [l|] eqn:E.
    + destruct (sn_phone t S _ _ E) as (d' & D' & Eq). split; [exists d'; split; [exact D'|]; split; [exact Eq|]; intros Hsp Epl; exact (proj2 (T Hsp) _ _ _ E D' Epl)|]. split; [|congruence]. intros ->.
      unfold same_identity in I1. destruct I1 as (_ & _ & I1 & _). congruence.
    + intros ->. congruence.
Qed.
Lemma xs_readConst s q l : mdev q s l -> XS (fun _ dv => d_phone dv = q /\ (q = ph -> same_identity d0 dv)) s (readConst l).
Proof.
  intros H. constructor; [auto|]. intros t S1 X1 G _ _ _. destruct (stable_mdev _ _ _ _ H G) as ((d & D & E & _) & Hi).
  rewrite D. constructor. intros u _ _ _. split; [exact E|]. intros Hq. destruct X1 as (_ & _ & (d' & D' & I1 & _) & _).
  assert (l = l0) by (apply Hi; exact Hq). congruence.
Qed.
Lemma xs_readDev s q l : mdev q s l ->
  XS (fun _ dv => d_phone dv = q /\ (q = ph -> good dv)) s (readDev l).
Proof.
  intros H. constructor; [auto|]. intros t S1 X1 G _ _ _. destruct (stable_mdev _ _ _ _ H G) as ((d & D & E & _) & Hi).
  rewrite D. constructor. intros u _ _ _. split; [exact E|]. intros Hq. destruct X1 as (_ & _ & (d' & D' & I1) & _).
  assert (l = l0) by (apply Hi; exact Hq). congruence.
Qed.
Lemma xs_getNow s : XS (fun _ n => within d0 n) s getNow.
Proof. apply xs_read; [intros t u n H _; exact H|]. intros t _ (_ & (H & _)). exact H. Qed.
Lemma xs_writeDev s l f : (l = l0 -> forall d, good d -> good (f d)) -> (forall d, d_plate (f d) = d_plate d) -> XS (@any unit) s (writeDev l f).
Proof.
  intros Hf Hpl. apply xs_write. intros t _ (S & (C & B & (d & D & Gd) & J & T)). split; [exact C|]. split; [exact B|]. split; [|split; [exact J|]].
  2:{ intros Hs. destruct (T Hs) as (T1 & T2). split; [exact T1|]. intros q l' d' Hq. cbn. intros Hd Ed.
      destruct (decide (l = l')) as [->|Hn].
      - rewrite lookup_alter in Hd. destruct (st_devs t !! l') as [d''|] eqn:E''; [|discriminate]. cbn in Hd. injection Hd as <-.
        rewrite Hpl in Ed. exact (T2 _ _ _ Hq E'' Ed).
      - rewrite lookup_alter_ne in Hd by exact Hn. exact (T2 _ _ _ Hq Hd Ed). }
  cbn. destruct (decide (l = l0)) as [->|Hn].
  - exists (f d). rewrite lookup_alter, D. split; [reflexivity|]. apply Hf; auto.
  - exists d. rewrite lookup_alter_ne by exact Hn. auto.
Qed.
Lemma xs_cacheDevice s q l : mdev q s l -> XS (@any unit) s (cacheDevice l).
Proof.
  intros H. apply xs_write. intros t G (S & (C & B & (d & D & Gd) & J & T)). destruct (stable_mdev _ _ _ _ H G) as ((d' & D' & E & Hp) & Hi).
  rewrite D'. split; [exact C|]. split; [|split; [exists d; auto|split; [exact J|]]].
  2:{ intros Hs. destruct (T Hs) as (T1 & T2). split; cbn.
      - destruct (decide (d_plate d' = d_plate d0)) as [Ep|Hn].
        + rewrite Ep, lookup_insert. f_equal. exact (Hp Hs Ep).
        + rewrite lookup_insert_ne by exact Hn. exact T1.
      - intros q' l' d''. destruct (decide (d_phone d' = q')) as [<-|Hn].
        + rewrite lookup_insert. intros [= <-] Hd Ed. apply (Hp Hs). congruence.
        + rewrite lookup_insert_ne by exact Hn. apply T2. }
  cbn.
  destruct (decide (q = ph)) as [Eq|Hn].
  - rewrite E, Eq, lookup_insert. f_equal. apply Hi. exact Eq.
  - rewrite lookup_insert_ne by congruence. exact B.
Qed.
Lemma xs_allocDev s d : XS (fun t l => exists d', st_devs t !! l = Some d' /\ d_phone d' = d_phone d /\ d_plate d' = d_plate d /\ l <> l0) s (allocDev d).
Proof.
  assert (F : forall t, X t -> fresh (dom (st_devs t)) <> l0).
  { intros t (_ & _ & (d' & D & _) & _) E. assert (Hn : st_devs t !! fresh (dom (st_devs t)) = None) by (apply not_elem_of_dom, is_fresh).
    congruence. }
  constructor.
  - intros t S1 X1 _ _ _. pose proof (F t X1) as Hn. destruct X1 as (C & B & (d' & D & Gd) & J & T). split; [exact C|]. split; [exact B|].
    split; [|split; [exact J|]]. { exists d'. cbn. rewrite lookup_insert_ne by exact Hn. auto. }
    intros Hs. destruct (T Hs) as (T1 & T2). split; [exact T1|]. intros q l' d'' Hq. cbn. intros Hd Ed.
    destruct (decide (fresh (dom (st_devs t)) = l')) as [<-|Hn'].
    + exfalso. destruct (sn_phone t S1 _ _ Hq) as (x & Hx & _). apply (is_fresh (dom (st_devs t))). apply elem_of_dom. eauto.
    + rewrite lookup_insert_ne in Hd by exact Hn'. exact (T2 _ _ _ Hq Hd Ed).
  - intros t _ X1 _ _ G _. constructor. intros u _ _ Gu. cbn. pose proof (F t X1) as Hn.
    destruct (gr_dev _ _ Gu (fresh (dom (st_devs t))) d) as (d'' & H'' & E''); [cbn; apply lookup_insert|].
    exists d''. split_and!; [exact H''|congruence|congruence|exact Hn].
Qed.
Lemma xs_delDevice s q : q <> ph -> XS (@any unit) s (delDeviceByPhone q).
Proof.
  intros Hq. apply xs_write. intros t _ (S & (C & B & Dd & J & T)). destruct (st_byPhone t !! q) as [l|] eqn:E.
  2:{ split_and!; auto. }
  destruct (sn_phone t S _ _ E) as (d' & D' & Eq). rewrite D'. split; [exact C|]. split; [|split; [exact Dd|split; [exact J|]]].
  - cbn. rewrite lookup_delete_ne by congruence. exact B.
  - intros Hs. destruct (T Hs) as (T1 & T2). destruct Dd as (d & D & (_ & _ & I1 & _) & _). split; cbn.
    + rewrite lookup_delete_ne; [exact T1|]. intros Ep. apply Hq. rewrite (T2 _ _ _ E D' Ep) in D'. congruence.
    + intros q' l' d'' Hd. apply lookup_delete_Some in Hd. apply T2 with q'. apply Hd.
Qed.
Lemma xs_timerAdd s q : XS (@any unit) s (timerAdd q).
Proof.
  apply xs_write. intros t _ (S & (C & B & Dd & J & T)). split_and!; auto. cbn. intros Hj. apply elem_of_app. left. exact (J Hj).
Qed.
Lemma xs_timerCancel s q : q <> ph -> XS (@any unit) s (timerCancel q).
Proof.
  intros Hq. apply xs_write. intros t _ (S & (C & B & Dd & J & T)). split_and!; auto. cbn. intros Hj. apply elem_of_list_filter. auto.
Qed.
Lemma good_last d n : within d0 n -> good d -> good (dset_last d n).
Proof. intros (H & _) (I & L & S). split_and!; [exact I|exact H|exact S]. Qed.
Lemma good_status d x : x <> Offline -> good d -> good (dset_status d x).
Proof. intros H (I & L & S). split_and!; [exact I|exact L|exact H]. Qed.
Lemma good_auth d a b c : good d -> good (dset_auth d a b c).
Proof. intros (I & L & S). split_and!; [exact I|exact L|exact S]. Qed.

(** ** What leaves the device, its index entry, its job and the clock alone *)
Notation quiet := (mono qt).
Ltac qacts := repeat first [apply mono_ret | apply mono_act; [intros; repeat match goal with |- context [match ?x with _ => _ end] => destruct x end; (split_and!; reflexivity)|intros] | match goal with |- quiet (match ?x with _ => _ end) => destruct x end].
Lemma q_onRing {A} l (p : prog _ A) : quiet (onRing l p).
Proof. apply mono_zoom. intros. split_and!; reflexivity. Qed.
Lemma q_nextSerial l : quiet (nextSerial l).
Proof. apply mono_zoom. intros. split_and!; reflexivity. Qed.
Ltac qs := repeat match goal with
  | |- quiet (pbind _ _) => apply mono_bind; [|intros]
  | |- quiet (pbindR _ _) => apply mono_bindR; [|intros]
  | |- quiet (lift _) => constructor
  | |- quiet (onRing _ _) => apply q_onRing
  | |- quiet (nextSerial _) => apply q_nextSerial
  | |- quiet (hasPlate _) => unfold hasPlate
  | |- quiet (hasPhone _) => unfold hasPhone
  | |- quiet (let _ := _ in _) => cbv zeta
  | |- quiet (match ?x with _ => _ end) => destruct x
  | |- quiet (Ret _) => constructor
  | |- quiet (ret _) => constructor
  | |- quiet (fail _) => constructor
  | |- quiet panic => constructor
  | |- quiet _ => unfold getNow, readConst, readDev, getDeviceByPlate, getDeviceByPhone, getGeoRingByPhone, delGeoByPhone,
      getDeviceParamsByPhone, cacheDeviceParams, cacheSegment, getSession, storeSession, clearSession, readSess, connClose, connSend,
      lock, unlock, listDevice, countSession, rd1, wr1; cbv zeta; solve [qacts]
  end.
Lemma q_hasPlate x : quiet (hasPlate x). Proof. qs. Qed.
Lemma q_8103 inc ps out : quiet (process8103 inc ps out). Proof. unfold process8103. qs. Qed.
Lemma q_8104 e out : quiet (process8104 e out). Proof. unfold process8104. qs. Qed.
Lemma q_8100 inc out : quiet (process8100 inc out). Proof. unfold process8100. qs. Qed.
Lemma q_segment p : quiet (processSegment p). Proof. unfold processSegment. qs. Qed.
Lemma q_write e c out w : quiet (processConnWrite e c out w). Proof. unfold processConnWrite. qs. Qed.
Lemma q_remove sl : quiet (remove sl). Proof. unfold remove. qs. Qed.
Lemma q_readSess sl : quiet (readSess sl). Proof. qs. Qed.
Lemma q_send e i m w : quiet (serverSend e i m w).
Proof. unfold serverSend. qs; first [apply q_write|apply q_remove]. Qed.
Lemma q_decodeP e b : quiet (decodeP e b). Proof. unfold decodeP. qs. Qed.
Lemma q_accept c a : quiet (accept c a).
Proof. unfold accept. qs. Qed.
Lemma q_opened c : quiet (opened c). Proof. unfold opened, wr1. qacts. Qed.
Lemma q_geo q : quiet (apiGeo q). Proof. unfold apiGeo, getGeoLatestByPhone. qs. Qed.
Lemma q_get e q w : quiet (apiGetParams e q w).
Proof. unfold apiGetParams, apiSession. qs; apply q_send. Qed.
Lemma q_put e q b ps w : quiet (apiPutParams e q b ps w).
Proof. unfold apiPutParams, apiSession. qs; apply q_send. Qed.

(** ** Handlers *)
Ltac bd P := eapply (xs_bind X P); [assumption|..].
Tactic Notation "nx" ident(t) ident(a) ident(g) ident(i) ident(h) := intros t a g i h.
Notation found q := (fun t o => match o with Some l => mdev q t l | None => q <> ph end).
Lemma xs_hasPhone s q : xk s -> XS (fun _ b => q = ph -> b = true) s (hasPhone q).
Proof.
  intros Hs. bd (found q); [apply xs_byPhone|]. nx t o g i h. constructor. intros u _ _ _. cbn. destruct o; [reflexivity|]. intros. contradiction.
Qed.
Lemma xs_0002 s inc out : xk s -> XS (@any msg) s (process0002 inc out).
Proof.
  intros Hs. bd (found (h_phone (m_hdr inc))); [apply xs_byPhone|]. nx t d g1 i1 h1. destruct d as [l|]; [|apply xs_fail].
  bd (fun (_ : st) n => within d0 n); [apply xs_getNow|]. nx t2 now g2 i2 h2. pose proof (stable_mdev _ _ _ _ h1 g2) as D2.
  bd (@any unit); [apply xs_writeDev; [intros _ d; apply good_last; exact h2|reflexivity]|]. nx t3 u3 g3 i3 h3.
  bd (@any unit); [eapply xs_cacheDevice; exact (stable_mdev _ _ _ _ D2 g3)|]. nx t4 u4 g4 i4 h4. apply xs_any.
Qed.
Lemma xs_0003 s inc out : xk s -> h_phone (m_hdr inc) <> ph -> XS (@any msg) s (process0003 inc out).
Proof.
  intros Hs Hq. bd (found (h_phone (m_hdr inc))); [apply xs_byPhone|]. nx t d g1 i1 h1. destruct d as [l|]; [|apply xs_fail].
  eapply xs_bind; [exact i1|eapply xs_readConst; exact h1|]. nx t2 dv g2 i2 h2. destruct h2 as (h2 & _).
  bd (@any unit); [apply xs_timerCancel; congruence|]. nx t3 u3 g3 i3 h3.
  bd (@any unit); [apply xs_delDevice; congruence|]. nx t4 u4 g4 i4 h4. apply xs_any.
Qed.
Lemma xs_register s q : xk s -> XS (@any unit) s (timerRegister q).
Proof.
  intros Hs. bd (@any (option nat)); [apply xq; qs|]. nx t o g i h. destruct o; [apply xs_timerAdd|apply xs_any].
Qed.
Lemma xs_hasPlate s w : xk s -> XS (fun _ b => spr -> w = d_plate d0 -> b = true) s (hasPlate w).
Proof.
  intros Hs. bd (fun (_ : st) (o : option nat) => spr -> w = d_plate d0 -> o = Some l0).
  - apply xs_read; [intros t u o H _; exact H|]. intros t _ (_ & (_ & _ & _ & _ & T)) Hsp ->. exact (proj1 (T Hsp)).
  - nx t o g i h. constructor. intros u _ _ _. cbn. intros H1 H2. rewrite (h H1 H2). reflexivity.
Qed.
Definition refusal (out : msg) : msg := match m_body out with B8100 sn _ c => mkMsg (m_hdr out) (B8100 sn 1 c) | _ => out end.
Lemma xs_0100 s sl inc r out : xk s -> XS (fun _ m => spr -> r_plate r = d_plate d0 -> m = refusal out) s (process0100 sl inc r out).
Proof.
  intros Hs. eapply xs_bind; [exact Hs|apply xs_hasPlate; exact Hs|]. nx t b g1 i1 h1. destruct b; [constructor; intros u _ _ _ _ _; reflexivity|].
  eapply xs_bind; [exact i1|apply xs_hasPhone; exact i1|]. nx t2 b g2 i2 h2.
  assert (Hno : forall m, spr -> r_plate r = d_plate d0 -> m = refusal out) by (intros m H1 H2; specialize (h1 H1 H2); discriminate).
  destruct b; [constructor; intros u _ _ _; exact (Hno _)|].
  assert (Hq : h_phone (m_hdr inc) <> ph) by (intros E; specialize (h2 E); discriminate).
  bd (@any session); [apply xq, q_readSess|].
  nx t3 x g3 i3 h3. bd (fun (_ : st) n => within d0 n); [apply xs_getNow|]. nx t4 now g4 i4 h4. cbv zeta.
  eapply xs_bind; [exact i4|apply xs_allocDev|]. nx t5 l g5 i5 h5. destruct h5 as (d' & D & E & Ep & Hn).
  bd (@any unit).
  { apply (xs_cacheDevice _ (h_phone (m_hdr inc))). split; [exists d'; split; [exact D|]; split; [exact E|]|split; intros; contradiction].
    intros H1 H2. rewrite Ep in H2. specialize (h1 H1 H2). discriminate. }
  nx t6 u6 g6 i6 h6.
  bd (@any unit); [apply xs_register; exact i6|]. nx t7 u7 g7 i7 h7. constructor. intros u _ _ _. exact (Hno _).
Qed.
Lemma xs_0102 s inc code imei sw out : xk s -> (h_phone (m_hdr inc) = ph -> is_code (d_id d0) (d_plate d0) ph code) ->
  XS (@any msg) s (process0102 inc code imei sw out).
Proof.
  intros Hs Hc. bd (found (h_phone (m_hdr inc))); [apply xs_byPhone|]. nx t d g1 i1 h1. destruct d as [l|]; [|apply xs_fail].
  eapply xs_bind; [exact i1|eapply xs_readConst; exact h1|]. nx t2 dv g2 i2 h2. case_bool_decide as Ec.
  - pose proof (stable_mdev _ _ _ _ h1 g2) as D2.
    bd (@any unit); [apply xs_writeDev; [intros _ d; apply good_status; discriminate|reflexivity]|]. nx t3 u3 g3 i3 h3. pose proof (stable_mdev _ _ _ _ D2 g3) as D3.
    bd (fun (_ : st) n => within d0 n); [apply xs_getNow|]. nx t4 now g4 i4 h4. pose proof (stable_mdev _ _ _ _ D3 g4) as D4.
    bd (@any unit); [apply xs_writeDev; [intros _ d; apply good_last; exact h4|reflexivity]|]. nx t5 u5 g5 i5 h5. pose proof (stable_mdev _ _ _ _ D4 g5) as D5.
    bd (@any unit); [apply xs_writeDev; [intros _ d; apply good_auth|reflexivity]|]. nx t6 u6 g6 i6 h6. pose proof (stable_mdev _ _ _ _ D5 g6) as D6.
    bd (@any unit); [eapply xs_cacheDevice; exact D6|]. nx t7 u7 g7 i7 h7. apply xs_any.
  - destruct h2 as (h2 & h2'). assert (Hq : d_phone dv <> ph).
    { intros E. assert (Eq : h_phone (m_hdr inc) = ph) by congruence. destruct (h2' Eq) as (I1 & I2 & I3 & _). apply Ec.
      apply code_iff. rewrite I1, I2, I3, Hph. apply Hc. exact Eq. }
    bd (@any unit); [apply xs_timerCancel; exact Hq|]. nx t3 u3 g3 i3 h3.
    bd (@any unit); [apply xs_delDevice; exact Hq|]. nx t4 u4 g4 i4 h4. apply xs_any.
Qed.
Lemma xs_0200 e s inc m out : xk s -> XS (@any msg) s (process0200 e inc m out).
Proof.
  intros Hs. bd (found (h_phone (m_hdr inc))); [apply xs_byPhone|]. nx t d g1 i1 h1. destruct d as [l|]; [|apply xs_fail].
  eapply xs_bind; [exact i1|eapply xs_readConst; exact h1|]. nx t2 dv g2 i2 h2. pose proof (stable_mdev _ _ _ _ h1 g2) as D2.
  bd (fun (_ : st) n => within d0 n); [apply xs_getNow|]. nx t3 now g3 i3 h3. cbv zeta. pose proof (stable_mdev _ _ _ _ D2 g3) as D3.
  bd (@any unit).
  - destruct (_ =? _); [|apply xs_any].
    bd (@any unit); [apply xs_writeDev; [intros _ d; apply good_status; discriminate|reflexivity]|]. nx t4 u4 g4 i4 h4. pose proof (stable_mdev _ _ _ _ D3 g4) as D4.
    bd (fun (_ : st) n => within d0 n); [apply xs_getNow|]. nx t5 now' g5 i5 h5. pose proof (stable_mdev _ _ _ _ D4 g5) as D5.
    bd (@any unit); [apply xs_writeDev; [intros _ d; apply good_last; exact h5|reflexivity]|]. nx t6 u6 g6 i6 h6. eapply xs_cacheDevice.
    exact (stable_mdev _ _ _ _ D5 g6).
  - nx t4 u4 g4 i4 h4. apply xq. qs.
Qed.
Lemma xs_8001 s inc r : xk s -> XS (@any unit) s (process8001 inc r).
Proof.
  intros Hs. unfold process8001. destruct (r =? 0); [|apply xs_any].
  bd (found (h_phone (m_hdr inc))); [apply xs_byPhone|]. nx t d g1 i1 h1. destruct d as [l|]; [|apply xs_fail].
  bd (@any device); [apply xq; qs|]. nx t2 dv g2 i2 h2. destruct (_ =? _); [|apply xs_any].
  pose proof (stable_mdev _ _ _ _ h1 g2) as D2.
  bd (@any unit); [apply xs_writeDev; [intros _ d; apply good_status; discriminate|reflexivity]|]. nx t3 u3 g3 i3 h3. pose proof (stable_mdev _ _ _ _ D2 g3) as D3.
  bd (fun (_ : st) n => within d0 n); [apply xs_getNow|]. nx t4 now g4 i4 h4. pose proof (stable_mdev _ _ _ _ D3 g4) as D4.
  bd (@any unit); [apply xs_writeDev; [intros _ d; apply good_last; exact h4|reflexivity]|]. nx t5 u5 g5 i5 h5. eapply xs_cacheDevice.
  exact (stable_mdev _ _ _ _ D4 g5).
Qed.
Lemma table_0003 id ok : lookupN optionTable id = Some (K0003, ok) -> id = 0x0003.
Proof.
  unfold optionTable. cbn [lookupN].
  repeat (match goal with |- context [(?a =? ?b)] => destruct (N.eqb_spec a b) end; [intros [= <-]; congruence|]). discriminate.
Qed.
Lemma table_0102 id ok : lookupN optionTable id = Some (K0102, ok) -> id = 0x0102.
Proof.
  unfold optionTable. cbn [lookupN].
  repeat (match goal with |- context [(?a =? ?b)] => destruct (N.eqb_spec a b) end; [intros [= <-]; congruence|]). discriminate.
Qed.
Lemma xs_process e s sl p : xk s -> loyal e ph d0 p -> XS (@any (option msg)) s (process e sl p).
Proof.
  intros Hs Hl. unfold process. destruct (lookupN _ _) as [[ik ok]|] eqn:El; [|apply xs_fail].
  destruct (isFragmented (pk_hdr p) && negb (pk_segdone p)) eqn:Ef; [apply xq, q_segment|].
  bd (@any Z); [apply xq; qs|]. nx t now g1 i1 h1.
  eapply xs_bind; [exact i1|apply xs_lift|]. nx t2 inc g2 i2 h2.
  pose proof (msgDecode_ok _ _ _ _ _ h2) as (Hh & Hk). destruct ok as [k|].
  - bd (@any Z); [apply xq; qs|]. nx t3 now3 g3 i3 h3.
    eapply xs_bind; [exact i3|apply xs_lift|]. nx t4 o g4 i4 h4. destruct o as [out|]; [|apply xs_any].
    bd (@any msg); [|nx t5 o5 g5 i5 h5; apply xs_any].
    destruct (m_body inc) eqn:Eb; try apply xs_any.
    + apply xs_0002; assumption.
    + apply xs_0003; [assumption|]. rewrite Hh. intros E. cbn in Hk. subst ik. exact (proj1 (Hl E) (table_0003 _ _ El)).
    + eapply xs_weaken; [apply xs_0100; assumption|]. intros u [x|er|] _; exact Logic.I.
    + apply xs_0102; [assumption|]. rewrite Hh. intros E. cbn in Hk. subst ik. exact (proj2 (Hl E) (table_0102 _ _ El) _ _ _ _ _ _ h2 Eb).
    + apply xs_0200; assumption.
    + apply xq, q_8100.
    + apply xq, q_8103.
    + apply xq, q_8104.
  - destruct (m_body inc); try apply xs_any. bd (@any unit); [apply xs_8001; assumption|]. nx t3 u3 g3 i3 h3. apply xs_any.
Qed.
Lemma loyal_same e p p' : pk_hdr p = pk_hdr p' -> pk_body p = pk_body p' -> loyal e ph d0 p -> loyal e ph d0 p'.
Proof. unfold loyal, msgDecode. intros <- <-. auto. Qed.
Lemma xs_decodeP e s b : xk s ->
  XS (fun _ p => exists p0, decodePacket (e_o e) b = Ok p0 /\ pk_hdr p0 = pk_hdr p /\ pk_body p0 = pk_body p) s (decodeP e b).
Proof.
  intros Hs. unfold decodeP. eapply xs_bind; [exact Hs|apply xs_lift|]. nx t p g1 i1 h1.
  destruct (isFragmented _); [|constructor; intros; exists p; auto]. destruct (h_frag _); [|apply xs_panic].
  bd (@any bool); [apply xq; qs|]. nx t2 d g2 i2 h2. constructor. intros. exists p. auto.
Qed.
Lemma xs_serveOne e s sl r w : xk s ->
  (forall frm p, r = Ok frm -> decodePacket (e_o e) frm = Ok p -> loyal e ph d0 p) -> XS (@any bool) s (serveOne e sl r w).
Proof.
  intros Hs Hq. unfold serveOne. bd (@any session); [apply xq, q_readSess|]. nx t x g1 i1 h1.
  eapply (xs_bindR X (xpost (@any unit))); [|intros u y _ _ _; destruct y; [apply xs_any|apply xs_any|apply xs_panic]|exact i1].
  unfold processConnRead. eapply xs_bind; [exact i1|apply xs_lift|]. nx t2 b g2 i2 h2.
  eapply xs_bind; [exact i2|apply xs_decodeP; exact i2|]. nx t3 p g3 i3 h3. destruct h3 as (p0 & E & Eh & Eb).
  bd (@any (option msg)); [apply xs_process; [exact i3|exact (loyal_same e _ _ Eh Eb (Hq _ _ h2 E))]|]. nx t4 o g4 i4 h4.
  apply xq, q_write.
Qed.
Lemma xs_serve e sl ins : (forall frm w p, In (Ok frm, w) ins -> decodePacket (e_o e) frm = Ok p -> loyal e ph d0 p) ->
  forall s, xk s -> XS (@any bool) s (serveLoop e sl ins).
Proof.
  induction ins as [|[r w] t IH]; intros Hq s Hs; cbn [serveLoop]; [apply xs_any|].
  eapply (xs_bindR X (xpost (@any bool))); [apply xs_serveOne; [assumption|]| |exact Hs].
  { intros frm p -> E. eapply Hq; [left; reflexivity|exact E]. }
  intros u y Hg Hi _.
  assert (Hend : XS (@any bool) u (remove sl ;;; ret true)%prog) by (apply xq; qs; apply q_remove).
  destruct y as [[]|er|]; [|exact Hend..]. apply IH; [|assumption]. intros frm w' p H. eapply Hq. right. exact H.
Qed.
Lemma good_fresh n dv : within d0 n -> good dv -> (d_keep dv + d_last dv <? n)%Z = false.
Proof. intros (_ & Hn) ((_ & _ & _ & _ & _ & Ek & _) & HL & _). apply Z.ltb_ge. rewrite Ek. lia. Qed.
Lemma xs_turnOffline s q l : xk s -> mdev q s l -> XS (fun _ b => q = ph -> b = false) s (shouldTurnOffline l).
Proof.
  intros Hs h1. unfold shouldTurnOffline. bd (fun (_ : st) n => within d0 n); [apply xs_getNow|]. nx t2 now g2 i2 h2. pose proof (stable_mdev _ _ _ _ h1 g2) as D2.
  eapply xs_bind; [exact i2|eapply xs_readDev; exact D2|]. nx t3 dv g3 i3 h3. pose proof (stable_mdev _ _ _ _ D2 g3) as D3.
  destruct (d_status dv =? Offline); [constructor; intros ? _ _ _ _; reflexivity|].
  eapply xs_bind; [exact i3|eapply xs_readDev; exact D3|]. nx t4 dv4 g4 i4 h4. destruct h4 as (_ & h4).
  constructor. intros ? _ _ _ E. exact (good_fresh _ _ h2 (h4 E)).
Qed.
Lemma xs_clear s q l : xk s -> mdev q s l -> XS (fun _ b => q = ph -> b = false) s (shouldClear l).
Proof.
  intros Hs h1. unfold shouldClear. bd (fun (_ : st) n => within d0 n); [apply xs_getNow|]. nx t2 now g2 i2 h2. pose proof (stable_mdev _ _ _ _ h1 g2) as D2.
  eapply xs_bind; [exact i2|eapply xs_readDev; exact D2|]. nx t3 dv g3 i3 h3. pose proof (stable_mdev _ _ _ _ D2 g3) as D3.
  destruct (d_status dv =? Offline); [|constructor; intros ? _ _ _ _; reflexivity].
  eapply xs_bind; [exact i3|eapply xs_readDev; exact D3|]. nx t4 dv4 g4 i4 h4. destruct h4 as (_ & h4).
  constructor. intros ? _ _ _ E. exact (good_fresh _ _ h2 (h4 E)).
Qed.
Lemma xs_tick s q : xk s -> XS (@any unit) s (checkKeepalive q).
Proof.
  intros Hs. unfold checkKeepalive. bd (found q); [apply xs_byPhone|]. nx t d g1 i1 h1. destruct d as [l|].
  2:{ bd (@any unit); [apply xs_timerCancel; exact h1|]. nx t2 u2 g2 i2 h2. apply xs_panic. }
  eapply xs_bind; [exact i1|eapply xs_turnOffline; [exact i1|exact h1]|]. nx t3 b g3 i3 h3. pose proof (stable_mdev _ _ _ _ h1 g3) as D3. destruct b.
  { assert (Hq : q <> ph) by (intros E; discriminate (h3 E)).
    bd (@any unit); [apply xs_writeDev; [intros El; destruct Hq; apply D3; exact El|reflexivity]|]. nx t4 u4 g4 i4 h4. eapply xs_cacheDevice. exact (stable_mdev _ _ _ _ D3 g4). }
  eapply xs_bind; [exact i3|eapply xs_clear; [exact i3|exact D3]|]. nx t4 b4 g4 i4 h4. pose proof (stable_mdev _ _ _ _ D3 g4) as D4.
  destruct b4; [|apply xs_any]. assert (Hq : q <> ph) by (intros E; discriminate (h4 E)).
  eapply xs_bind; [exact i4|eapply xs_readConst; exact D4|]. nx t5 dv5 g5 i5 h5.
  bd (@any unit); [apply xq; qs|]. nx t6 u6 g6 i6 h6.
  bd (@any unit); [apply xs_delDevice; exact Hq|]. nx t7 u7 g7 i7 h7.
  bd (@any unit); [apply xq; qs|]. nx t8 u8 g8 i8 h8. apply xs_timerCancel. exact Hq.
Qed.
Lemma xs_code e s g : xk s -> harmless e ph d0 g -> XS (@any unit) s (code e g).
Proof.
  intros Hs Hg. destruct g as [c addr ins|sl ins|sl p|q| |q|q w|q bad ps w|now|]; cbn [code harmless] in *.
  - bd (@any unit); [apply xq, q_opened|]. nx t u g1 i1 h1. bd (@any bool); [|intros; apply xs_any].
    unfold connThread. bd (@any nat); [apply xq, q_accept|]. nx t2 sl g2 i2 h2. apply xs_serve; assumption.
  - bd (@any bool); [apply xs_serve; assumption|]. intros. apply xs_any.
  - bd (@any (option msg)); [apply xs_process; assumption|]. intros. apply xs_any.
  - apply xs_tick. exact Hs.
  - apply xq. unfold apiList. qs.
  - apply xq. qs. apply q_geo.
  - apply xq. qs. apply q_get.
  - apply xq. qs. apply q_put.
  - apply xs_write. intros t _ (_ & (C & B & D & J & T)). split_and!; auto.
  - apply xq. qs.
Qed.
End Timely.

Theorem timely_survives e gs s ph d sch : sane s -> devAt s ph = Some d -> d_status d <> Offline -> within d (st_clock s) ->
  (forall g, In g gs -> placed s g /\ harmless e ph d g) ->
  let s' := snd (running e gs s sch) in
  (exists d', devAt s' ph = Some d' /\ same_identity d d' /\ d_status d' <> Offline /\ (d_last d <= d_last d')%Z)
  /\ (ph ∈ st_jobs s -> ph ∈ st_jobs s').
Proof.
  intros Hs Hd Hon Hw Hg s'. unfold devAt in Hd. destruct (st_byPhone s !! ph) as [l0|] eqn:Eb; [|discriminate].
  destruct (sn_phone s Hs _ _ Eb) as (d1 & D1 & Hph). assert (d1 = d) by congruence. subst d1.
  set (jb := ph ∈ st_jobs s).
  assert (Ho : xok (X ph l0 d jb False) s).
  { split; [exact Hs|]. split_and!; auto; [|intros []]. exists d. split; [exact D1|]. split_and!; [repeat split|lia|exact Hon]. }
  pose proof (psteps_safe (xok (X ph l0 d jb False)) grows grows_refl grows_trans (fun _ _ => True) sch (List.map (code e) gs) s Ho) as H.
  destruct H as ((_ & (C & B & (d' & D & Gd) & J & _)) & _).
  { intros j p Hj. rewrite nth_error_map in Hj. destruct (nth_error gs j) as [g|] eqn:E; [|discriminate]. injection Hj as <-.
    apply nth_error_In in E. destruct (Hg g E) as (Hp & Hh).
    eapply safe_post; [exact grows_trans|eapply xs_safe; [apply (sf_code false); [exact Hs|exact Hp|discriminate]|]|auto].
    apply xs_code; assumption. }
  split; [|exact J]. exists d'. unfold s', devAt. unfold running. rewrite B. split; [exact D|]. destruct Gd as (G1 & G2 & G3). auto.
Qed.
