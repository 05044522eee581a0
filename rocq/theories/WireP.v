(** Proofs about a fleet over byte streams (C134) *)
From Coq Require Import ZArith.
From stdpp Require Import gmap.
From Flocq Require Import IEEE754.Bits.
From Verif Require Import Base HexM TimeM HashM HeaderM ParamsM GeoM MsgM PacketM FrameM FloatM ProgM RingM
  StateM ProcM ServerM ClientM DatagenM NetM WireM SpecCodec SpecState SpecSim SpecNet SpecWrite SpecWire FrameP ProgP WriteP
  FleetP2 FleetP3 FleetP4 FleetP5.
Local Open Scope N_scope.

(** * Only whole frames are written, and connections stay where they are *)
Definition grown (e : env) (s s' : st) : Prop :=
  (forall c, exists bs, sent s' c = sent s c ++ bs /\ Forall (whole_frame e) bs)
  /\ forall sl, ss_conn <$> st_sess s' !! sl = ss_conn <$> st_sess s !! sl.
Lemma grown_same e s s' : (forall c, sent s' c = sent s c) -> (forall sl, ss_conn <$> st_sess s' !! sl = ss_conn <$> st_sess s !! sl) -> grown e s s'.
Proof. intros H1 H2. split; [|exact H2]. intros c. exists []. split; [rewrite app_nil_r; apply H1|constructor]. Qed.
Lemma grown_refl e s : grown e s s.
Proof. apply grown_same; reflexivity. Qed.
Lemma grown_trans e a b c : grown e a b -> grown e b c -> grown e a c.
Proof.
  intros (H1 & H2) (H3 & H4). split; [|intros sl; rewrite H4; apply H2]. intros k. destruct (H1 k) as (x & E1 & F1). destruct (H3 k) as (y & E2 & F2).
  exists (x ++ y). split; [rewrite E2, E1, app_assoc; reflexivity|]. apply Forall_app; split; assumption.
Qed.
Section Grow.
Context (e : env).
Inductive gw {A} : sp A -> Prop :=
| gw_Ret r : gw (Ret r)
| gw_Act a f k : (forall s, grown e s (f s)) -> (forall s, gw (k s)) -> gw (Act a f k).
Lemma gw_bindR {A B} (p : sp A) (g : res A -> sp B) : gw p -> (forall r, gw (g r)) -> gw (pbindR p g).
Proof. intros H Hg. induction H as [r|a f k Hf _ IH]; cbn; [apply Hg|]. constructor; [exact Hf|exact IH]. Qed.
Lemma gw_bind {A B} (p : sp A) (g : A -> sp B) : gw p -> (forall a, gw (g a)) -> gw (pbind p g).
Proof. intros H Hg. apply gw_bindR; [exact H|]. intros [a|er|]; [apply Hg|constructor..]. Qed.
Lemma gw_run {A} (p : sp A) : gw p -> forall s, grown e s (snd (run p s)).
Proof. induction 1 as [r|a f k Hf _ IH]; intros s; cbn; [apply grown_refl|]. eapply grown_trans; [apply Hf|apply IH]. Qed.
Lemma gw_zoom {B A} (get : st -> B) set (p : prog B A) : (forall r s, grown e s (set r s)) -> gw (zoom get set p).
Proof. intros H. induction p as [r|a f k IH]; cbn; [constructor|]. constructor; [|intros s; apply IH]. intros s. apply H. Qed.
Ltac gws := repeat first
  [ apply gw_bind; [|intros] | apply gw_bindR; [|intros]
  | match goal with
    | |- gw (match ?x with _ => _ end) => destruct x
    | |- gw (if ?x then _ else _) => destruct x
    | |- gw (let _ := _ in _) => cbv zeta
    | |- gw (Act _ _ _) => constructor; [|intros]
    | |- gw (Ret _) => constructor
    | |- gw (ret _) => constructor
    | |- gw (fail _) => constructor
    | |- gw panic => constructor
    | |- gw (lift _) => constructor
    | |- forall s : st, grown _ s _ => intros ?; apply grown_same; reflexivity
    end ].
Lemma gw_getNow : gw getNow. Proof. unfold getNow, rd1. gws. Qed.
Lemma gw_readConst l : gw (readConst l). Proof. unfold readConst. gws. Qed.
Lemma gw_readDev l : gw (readDev l). Proof. unfold readDev. gws. Qed.
Lemma gw_writeDev l f : gw (writeDev l f). Proof. unfold writeDev, wr1. gws. Qed.
Lemma gw_allocDev d : gw (allocDev d). Proof. unfold allocDev. gws. Qed.
Lemma gw_byPlate q : gw (getDeviceByPlate q). Proof. unfold getDeviceByPlate, rd1. gws. Qed.
Lemma gw_byPhone q : gw (getDeviceByPhone q). Proof. unfold getDeviceByPhone, rd1. gws. Qed.
Lemma gw_cacheDevice l : gw (cacheDevice l).
Proof. unfold cacheDevice, wr1. gws. all: intros s; destruct (st_devs s !! l); apply grown_same; reflexivity. Qed.
Lemma gw_delDevice ph : gw (delDeviceByPhone ph).
Proof.
  unfold delDeviceByPhone, wr1. gws. all: intros s; destruct (st_byPhone s !! ph) as [l|]; [|apply grown_refl].
  destruct (st_devs s !! l); apply grown_same; reflexivity.
Qed.
Lemma gw_getRing ph : gw (getGeoRingByPhone ph).
Proof. unfold getGeoRingByPhone. gws. intros s. destruct (st_geo s !! ph); apply grown_same; reflexivity. Qed.
Lemma gw_onRing {A} l (p : prog _ A) : gw (onRing l p).
Proof. apply gw_zoom. intros r s. apply grown_same; reflexivity. Qed.
Lemma gw_delGeo ph : gw (delGeoByPhone ph). Proof. unfold delGeoByPhone, wr1. gws. Qed.
Lemma gw_getParams ph : gw (getDeviceParamsByPhone ph). Proof. unfold getDeviceParamsByPhone, rd1. gws. Qed.
Lemma gw_cacheParams d : gw (cacheDeviceParams d). Proof. unfold cacheDeviceParams, wr1. gws. Qed.
Lemma gw_cacheSegment x : gw (cacheSegment x). Proof. unfold cacheSegment. cbv zeta. gws. Qed.
Lemma gw_getSession i : gw (getSession i). Proof. unfold getSession, rd1. gws. Qed.
Lemma gw_clearSession i : gw (clearSession i). Proof. unfold clearSession, wr1. gws. Qed.
Lemma gw_readSess l : gw (readSess l). Proof. unfold readSess. gws. Qed.
Lemma gw_nextSerial l : gw (nextSerial l).
Proof.
  apply gw_zoom. intros r s. apply grown_same; [reflexivity|]. intros sl. cbn. destruct (decide (sl = l)) as [->|Hn].
  - rewrite lookup_alter. destruct (st_sess s !! l); reflexivity.
  - rewrite lookup_alter_ne by congruence. reflexivity.
Qed.
Lemma gw_timerAdd ph : gw (timerAdd ph). Proof. unfold timerAdd, wr1. gws. Qed.
Lemma gw_timerCancel ph : gw (timerCancel ph). Proof. unfold timerCancel, wr1. gws. Qed.
Lemma gw_lock m : gw (lock m). Proof. unfold lock, wr1. gws. Qed.
Lemma gw_unlock m : gw (unlock m). Proof. unfold unlock, wr1. gws. Qed.
Lemma gw_connClose c : gw (connClose c).
Proof.
  unfold connClose, wr1. gws. intros s. apply grown_same; [|reflexivity]. intros c'. unfold sent. cbn. destruct (decide (c' = c)) as [->|Hn].
  - rewrite lookup_alter. destruct (st_conns s !! c); reflexivity.
  - rewrite lookup_alter_ne by congruence. reflexivity.
Qed.
Lemma gw_connSend c b : whole_frame e b -> gw (connSend c b None).
Proof.
  intros Hb. unfold connSend. constructor.
  - intros s. split; [|reflexivity]. intros c'. unfold sent. cbn. destruct (decide (c' = c)) as [->|Hn].
    + rewrite lookup_alter. destruct (st_conns s !! c) as [x|]; cbn; [|exists []; split; [reflexivity|constructor]].
      destruct (cn_open x); cbn; [exists [b]; split; [reflexivity|repeat constructor; exact Hb]|].
      exists []. rewrite app_nil_r. split; [reflexivity|constructor].
    + rewrite lookup_alter_ne by congruence. exists []. rewrite app_nil_r. split; [reflexivity|constructor].
  - intros s. destruct (st_conns s !! c) as [x|]; [destruct (cn_open x)|]; constructor.
Qed.
Lemma gw_write c out : gw (processConnWrite e c out None).
Proof.
  unfold processConnWrite. destruct out as [m|]; [|constructor]. unfold pbind, lift. cbn [pbindR].
  destruct (encodePacket (e_o e) m) as [b|er|] eqn:E; [|constructor..]. apply gw_connSend. exists m. exact E.
Qed.
Ltac gwp := repeat match goal with
  | |- gw (pbind _ _) => apply gw_bind; [|intros]
  | |- gw (pbindR _ _) => apply gw_bindR; [|intros]
  | |- gw (fail _) => constructor
  | |- gw panic => constructor
  | |- gw (lift _) => constructor
  | |- gw (ret _) => constructor
  | |- gw (Ret _) => constructor
  | |- gw getNow => apply gw_getNow
  | |- gw (readConst _) => apply gw_readConst
  | |- gw (readDev _) => apply gw_readDev
  | |- gw (writeDev _ _) => apply gw_writeDev
  | |- gw (allocDev _) => apply gw_allocDev
  | |- gw (getDeviceByPlate _) => apply gw_byPlate
  | |- gw (getDeviceByPhone _) => apply gw_byPhone
  | |- gw (cacheDevice _) => apply gw_cacheDevice
  | |- gw (delDeviceByPhone _) => apply gw_delDevice
  | |- gw (getGeoRingByPhone _) => apply gw_getRing
  | |- gw (onRing _ _) => apply gw_onRing
  | |- gw (delGeoByPhone _) => apply gw_delGeo
  | |- gw (getDeviceParamsByPhone _) => apply gw_getParams
  | |- gw (cacheDeviceParams _) => apply gw_cacheParams
  | |- gw (cacheSegment _) => apply gw_cacheSegment
  | |- gw (getSession _) => apply gw_getSession
  | |- gw (clearSession _) => apply gw_clearSession
  | |- gw (readSess _) => apply gw_readSess
  | |- gw (nextSerial _) => apply gw_nextSerial
  | |- gw (timerAdd _) => apply gw_timerAdd
  | |- gw (timerCancel _) => apply gw_timerCancel
  | |- gw (connClose _) => apply gw_connClose
  | |- gw (lock _) => apply gw_lock
  | |- gw (unlock _) => apply gw_unlock
  | |- gw (processConnWrite _ _ _ None) => apply gw_write
  | |- gw (match ?x with _ => _ end) => destruct x
  | |- gw (let _ := _ in _) => cbv zeta
  | |- gw (hasPlate _) => unfold hasPlate
  | |- gw (hasPhone _) => unfold hasPhone
  | |- gw (timerRegister _) => unfold timerRegister
  end.
Lemma gw_process sl p : gw (process e sl p).
Proof.
  unfold process, processSegment, process0002, process0003, process0100, process0102, process0200, process8001, process8100, process8103,
    process8104, process9205. gwp.
Qed.
Lemma gw_read sl c f : gw (processConnRead e sl c (Ok f) None).
Proof. unfold processConnRead, decodeP. gwp. apply gw_process. Qed.
Lemma gw_serve sl f : gw (serveLoop e sl [(Ok f, None)]).
Proof. unfold serveLoop, serveOne, remove. gwp. apply gw_read. Qed.
Lemma gw_client sl f : gw (clientLoop e sl [(Ok f, None)]).
Proof. unfold clientLoop. gwp. apply gw_read. Qed.
Lemma gw_clientSend sl m : gw (clientSend e sl m None).
Proof. unfold clientSend, clientStop. gwp. Qed.
Lemma gw_getSim ph : gw (getSim ph).
Proof. unfold getSim. gwp. Qed.
Lemma gw_build c sl : gw (buildDevice c sl).
Proof. unfold buildDevice. gwp. Qed.
Lemma gw_register c ph sl : gw (register e c ph sl None).
Proof. unfold register. apply gw_bind; [apply gw_getSim|intros l]. gwp. apply gw_clientSend. Qed.
Lemma gw_keepalive ph sl : gw (keepalive e ph sl [None]).
Proof. unfold keepalive, beats0002. apply gw_bind; [apply gw_getSim|intros l]. gwp. apply gw_clientSend. Qed.
Lemma gw_report other ph g sl r : gw (reportLocation e other ph g sl [(r, None)]).
Proof. unfold reportLocation. apply gw_bind; [apply gw_getSim|intros l]. gwp. apply gw_clientSend. Qed.
Lemma gw_check ph : gw (statusCheck ph).
Proof. unfold statusCheck. gwp. Qed.
Lemma gw_keep ph : gw (checkKeepalive ph).
Proof. unfold checkKeepalive, shouldTurnOffline, shouldClear. gwp. Qed.
End Grow.

(** * What has arrived *)
Definition is_frame (b : bytes) : Prop := exists x, b = framed x /\ no_delim x.
Definition carried (fs : list bytes) (k : nat) (w : wire) : Prop :=
  Forall is_frame fs /\ (k <= length fs)%nat /\ chunks_ok (wr_in w) /\ (wr_sent w <= length (concat fs))%nat
  /\ concat (firstn k fs) ++ st_bytes (wr_in w) = firstn (wr_sent w) (concat fs).
Lemma carried_more fs bs k w : Forall is_frame bs -> carried fs k w -> carried (fs ++ bs) k w.
Proof.
  intros Hb (H1 & H2 & H3 & H4 & H5). split; [apply Forall_app; auto|]. rewrite concat_app, !app_length. split; [lia|]. split; [exact H3|].
  split; [lia|]. rewrite !firstn_app. replace (k - length fs)%nat with 0%nat by lia. replace (wr_sent w - length (concat fs))%nat with 0%nat by lia.
  cbn. rewrite !app_nil_r. exact H5.
Qed.
Lemma firstn_plus {A} a b (l : list A) : firstn (a + b) l = firstn a l ++ firstn b (skipn a l).
Proof. revert l. induction a as [|a IH]; intros l; [reflexivity|]. destruct l as [|x l]; [destruct b; reflexivity|]. cbn. rewrite IH. reflexivity. Qed.
Lemma firstn_len {A} m (l : list A) : firstn (length (firstn m l)) l = firstn m l.
Proof. revert l. induction m as [|m IH]; intros [|x l]; cbn; try reflexivity. rewrite IH. reflexivity. Qed.
Lemma carried_arrive m fs k w : carried fs k w -> carried fs k (arrive m (concat fs) w).
Proof.
  intros (H1 & H2 & H3 & H4 & H5). unfold arrive. set (c := firstn m (skipn (wr_sent w) (concat fs))).
  assert (L : (wr_sent w + length c <= length (concat fs))%nat) by (unfold c; rewrite firstn_length, skipn_length; lia).
  assert (E : firstn (wr_sent w + length c) (concat fs) = firstn (wr_sent w) (concat fs) ++ c).
  { rewrite firstn_plus. f_equal. unfold c. apply firstn_len. }
  clearbody c. destruct c as [|b c]; [split; auto|]. split; [exact H1|]. split; [exact H2|]. cbn [wr_in wr_sent]. split; [|split].
  - intros Hin. cbn [st_next] in Hin. apply in_app_or in Hin as [Hin|[Hin|[]]]; [exact (H3 Hin)|discriminate Hin].
  - exact L.
  - rewrite E, <- H5. unfold st_bytes. cbn [st_cur st_next]. rewrite concat_app. cbn [concat]. rewrite app_nil_r, !app_assoc. reflexivity.
Qed.
Lemma recv_waits s y : chunks_ok s -> st_bytes s = y -> y = [] \/ (exists z, y = 0x7e :: z /\ ~ In 0x7e z) -> exists er r, recv s = (Err er, r).
Proof.
  intros Hs E Hy. pose proof (recv_flat s Hs) as H. rewrite E in H. unfold flatRecv in H. destruct Hy as [->|(z & -> & Hz)]; [cbn in H; eauto|].
  cbn [recvBuf] in H. destruct (recvBuf_content z 0x7e [0x7e] Hz) as (la & El). change (126 =? 126) with true in H. cbn [app] in H. rewrite El in H. eauto.
Qed.
Lemma app_inj_l {A} (a b c d : list A) : length a = length c -> a ++ b = c ++ d -> b = d.
Proof. revert c. induction a as [|x a IH]; intros [|y c] L E; try discriminate L; [exact E|]. cbn in E, L. injection E as _ E. apply (IH c); [lia|exact E]. Qed.
Lemma carried_recv fs k w : carried fs k w ->
  if whole_there fs k (wr_sent w)
  then exists f r, nth_error fs k = Some f /\ recv (wr_in w) = (Ok f, r) /\ carried fs (S k) (mkWire r (wr_sent w))
  else exists er r, recv (wr_in w) = (Err er, r).
Proof.
  intros (H1 & H2 & H3 & H4 & H5). unfold whole_there.
  pose proof (f_equal (@length _) H5) as HL. rewrite app_length, firstn_length, Nat.min_l in HL by exact H4.
  destruct (Nat.ltb_spec k (length fs)) as [Hk|Hk]; cbn [andb].
  - destruct (nth_error fs k) as [f|] eqn:Ef; [|apply nth_error_None in Ef; lia].
    assert (Es : fs = firstn k fs ++ f :: skipn (S k) fs).
    { rewrite <- (firstn_skipn k fs) at 1. f_equal. clear -Ef. revert k Ef. induction fs as [|a fs IH]; intros [|k] E; try discriminate E; [injection E as ->; reflexivity|].
      cbn. apply IH. exact E. }
    assert (Ek : firstn (S k) fs = firstn k fs ++ [f]).
    { rewrite Es at 1. rewrite firstn_app, firstn_length, Nat.min_l by lia. rewrite firstn_all2 by (rewrite firstn_length; lia).
      replace (S k - k)%nat with 1%nat by lia. reflexivity. }
    assert (Ec : concat fs = concat (firstn k fs) ++ f ++ concat (skipn (S k) fs)) by (rewrite Es at 1; rewrite concat_app; reflexivity).
    assert (Hf : is_frame f) by (rewrite List.Forall_forall in H1; apply H1; eapply nth_error_In; exact Ef).
    assert (Eb : st_bytes (wr_in w) = firstn (wr_sent w - length (concat (firstn k fs))) (f ++ concat (skipn (S k) fs))).
    { rewrite Ec, firstn_app, (firstn_all2 (concat (firstn k fs))) in H5 by lia. apply app_inv_head in H5. exact H5. }
    rewrite Ek, concat_app, app_length. cbn [concat]. rewrite app_nil_r. assert (HL' : (length (concat (firstn k fs)) <= wr_sent w)%nat) by lia.
    destruct Hf as (x & -> & Hx).
    destruct (Nat.leb_spec (length (concat (firstn k fs)) + length (framed x)) (wr_sent w)) as [Hw|Hw].
    + rewrite firstn_app, firstn_all2 in Eb by lia. set (r0 := firstn _ (concat (skipn (S k) fs))) in Eb.
      assert (Eb' : st_bytes (wr_in w) = [] ++ 0x7e :: x ++ 0x7e :: r0) by (rewrite Eb; unfold framed; cbn; rewrite <- app_assoc; reflexivity).
      destruct (frames_cons (wr_in w) [] x r0 H3 ltac:(intros []) Hx Eb') as (s' & R1 & R2 & _ & R4 & _).
      exists (framed x), s'. split; [reflexivity|]. split; [exact R1|]. split; [exact H1|]. split; [lia|]. split; [exact R4|]. split; [exact H4|].
      cbn [wr_in wr_sent]. rewrite Ek, concat_app, R2, <- H5, Eb. cbn [concat]. rewrite app_nil_r, <- app_assoc. reflexivity.
    + apply (recv_waits _ _ H3 Eb). rewrite firstn_app. remember (wr_sent w - length (concat (firstn k fs)))%nat as j eqn:Ej.
      replace (j - length (framed x))%nat with 0%nat by lia. cbn [firstn]. rewrite app_nil_r.
      assert (Lx : length (framed x) = S (S (length x))) by (unfold framed; cbn; rewrite app_length; cbn; lia). rewrite Lx in Hw. unfold framed.
      cbn [app]. destruct j as [|j]; [left; reflexivity|]. right. exists (firstn j x). cbn [firstn]. split.
      * f_equal. rewrite firstn_app. replace (j - length x)%nat with 0%nat by lia. cbn. rewrite app_nil_r. reflexivity.
      * intros Hin. apply Hx. rewrite <- (firstn_skipn j x). apply in_or_app. left. exact Hin.
  - apply (recv_waits _ [] H3); [|left; reflexivity]. rewrite firstn_all2 in H5, HL by lia.
    assert (length (st_bytes (wr_in w)) = 0%nat) by lia. destruct (st_bytes (wr_in w)); [reflexivity|discriminate].
Qed.

(** * The fleet *)
Lemma written_grown e s s' sl : grown e s s' -> exists bs, written s' sl = written s sl ++ bs /\ Forall is_frame bs.
Proof.
  intros (H1 & H2). specialize (H2 sl). unfold written. destruct (st_sess s !! sl) as [x|], (st_sess s' !! sl) as [x'|]; cbn in H2; try discriminate H2.
  - injection H2 as E. destruct (H1 (ss_conn x)) as (bs & Eb & F). unfold sent in Eb. rewrite E. exists bs. split; [exact Eb|].
    eapply List.Forall_impl; [|exact F]. intros a. apply whole_framed.
  - exists []. split; [reflexivity|constructor].
Qed.

Section Fleet.
Context (e ec : env) (other : binary64 -> N).
Let nstp := nstep e ec other.
Let wstp := wstep e ec other.
Definition moves (n n' : net) (du dd : nat -> nat) : Prop :=
  grown e (nt_srv n) (nt_srv n') /\ grown ec (nt_cli n) (nt_cli n') /\ length (nt_terms n') = length (nt_terms n)
  /\ forall j t, nt_terms n !! j = Some t -> exists t', nt_terms n' !! j = Some t'
     /\ tm_srv t' = tm_srv t /\ tm_cli t' = tm_cli t /\ tm_up t' = (du j + tm_up t)%nat /\ tm_down t' = (dd j + tm_down t)%nat.
Definition none (j : nat) : nat := 0%nat.
Definition only (i j : nat) : nat := if (j =? i)%nat then 1%nat else 0%nat.
Lemma moves_refl n : moves n n none none.
Proof. split; [apply grown_refl|]. split; [apply grown_refl|]. split; [reflexivity|]. intros j t Ht. exists t. auto. Qed.
Lemma moves_at n i t t' s' sc' du dd : nt_terms n !! i = Some t -> grown e (nt_srv n) s' -> grown ec (nt_cli n) sc' ->
  tm_srv t' = tm_srv t -> tm_cli t' = tm_cli t -> tm_up t' = (du i + tm_up t)%nat -> tm_down t' = (dd i + tm_down t)%nat ->
  (forall j, j <> i -> du j = 0%nat /\ dd j = 0%nat) -> moves n (mkNet s' sc' (set_term n i t')) du dd.
Proof.
  intros Hi G1 G2 E1 E2 E3 E4 Hj. split; [exact G1|]. split; [exact G2|]. unfold set_term. cbn [nt_terms]. split; [apply insert_length|].
  intros j u Hu. destruct (decide (j = i)) as [->|Hn].
  - exists t'. rewrite Hi in Hu. injection Hu as <-. split; [apply list_lookup_insert; apply lookup_lt_Some in Hi; exact Hi|auto].
  - exists u. rewrite list_lookup_insert_ne by congruence. split; [exact Hu|]. destruct (Hj j Hn) as (-> & ->). auto.
Qed.
Lemma run_snd {A} (p : sp A) s r s' : run p s = (r, s') -> s' = snd (run p s).
Proof. intros ->. reflexivity. Qed.
Lemma goes_moves {A} n i t (p : sp A) a : nt_terms n !! i = Some t -> gw ec p -> moves n (goes n i t p a) none none.
Proof.
  intros Hi Hp. unfold goes. destruct (run p (nt_cli n)) as [r s'] eqn:E. pose proof (gw_run ec p Hp (nt_cli n)) as G. rewrite E in G. cbn in G.
  destruct r; apply (moves_at n i t); auto using grown_refl.
Qed.
Lemma serve_moves n i t f : nt_terms n !! i = Some t -> moves n (serveFrame e n i t f) (only i) none.
Proof.
  intros Hi. unfold serveFrame. pose proof (gw_run e _ (gw_serve e (tm_srv t) f) (nt_srv n)) as G.
  destruct (run _ (nt_srv n)) as [r s']. cbn in G.
  assert (O : forall j, j <> i -> only i j = 0%nat /\ none j = 0%nat).
  { intros j Hj. unfold only. destruct (Nat.eqb_spec j i); [contradiction|auto]. }
  assert (O1 : only i i = 1%nat) by (unfold only; rewrite Nat.eqb_refl; reflexivity).
  destruct r as [[]| |]; (apply (moves_at n i t); auto using grown_refl; cbn; rewrite O1; reflexivity).
Qed.
Lemma client_moves n i t f : nt_terms n !! i = Some t -> moves n (clientFrame ec n i t f) none (only i).
Proof.
  intros Hi. unfold clientFrame. pose proof (gw_run ec _ (gw_client ec (tm_cli t) f) (nt_cli n)) as G.
  destruct (run _ (nt_cli n)) as [r s']. cbn in G.
  assert (O : forall j, j <> i -> none j = 0%nat /\ only i j = 0%nat).
  { intros j Hj. unfold only. destruct (Nat.eqb_spec j i); [contradiction|auto]. }
  assert (O1 : only i i = 1%nat) by (unfold only; rewrite Nat.eqb_refl; reflexivity).
  destruct r as [[]| |]; (apply (moves_at n i t); auto using grown_refl; cbn; rewrite O1; reflexivity).
Qed.
Lemma nstep_moves n ev : (forall i, ev <> NServe i /\ ev <> NClient i) -> moves n (nstp n ev) none none.
Proof.
  intros H. unfold nstp. destruct ev; cbn [nstep];
    try (split; [apply grown_same; reflexivity|]; split; [apply grown_same; reflexivity|]; split; [reflexivity|]; intros j u Hu; exists u; auto; fail).
  3: destruct (H i) as (E & _); congruence.
  3: destruct (H i) as (_ & E); congruence.
  all: destruct (nt_terms n !! i) as [t|] eqn:Hi; [|apply moves_refl]; unfold act.
  1-5: destruct (tm_at t); try apply moves_refl; apply goes_moves; try exact Hi.
  - apply gw_build.
  - apply gw_register.
  - apply gw_check.
  - apply gw_keepalive.
  - apply gw_report.
  - destruct (bool_decide _); [|apply moves_refl]. split; [cbn [nt_srv]; apply (gw_run e); apply gw_keep|]. split; [apply grown_refl|].
    split; [reflexivity|]. intros j u Hu. exists u. auto.
Qed.

Definition winv (x : wnet) : Prop :=
  length (wn_up x) = length (nt_terms (wn_net x)) /\ length (wn_down x) = length (nt_terms (wn_net x))
  /\ forall i t, nt_terms (wn_net x) !! i = Some t ->
     (forall w, wn_up x !! i = Some w -> carried (written (nt_cli (wn_net x)) (tm_cli t)) (tm_up t) w)
     /\ (forall w, wn_down x !! i = Some w -> carried (written (nt_srv (wn_net x)) (tm_srv t)) (tm_down t) w).
Lemma connected_winv x : connected x -> winv x.
Proof.
  intros (L1 & L2 & B1 & B2 & H). split; [exact L1|]. split; [exact L2|]. intros i t Ht. destruct (H i t Ht) as (E1 & E2 & E3 & E4).
  assert (C : forall w, blank w -> carried [] 0 w).
  { intros w (W1 & W2 & W3). split; [constructor|]. split; [lia|]. split; [exact W2|]. rewrite W3, W1. split; [cbn; lia|reflexivity]. }
  rewrite E1, E2, E3, E4. rewrite Forall_lookup in B1, B2. split; intros w Hw; apply C; eauto.
Qed.
(** the programs go on: what has arrived has still arrived *)
Lemma winv_moves x n' up' down' du dd : winv x -> moves (wn_net x) n' du dd ->
  length up' = length (wn_up x) -> length down' = length (wn_down x) ->
  (forall i t w', nt_terms (wn_net x) !! i = Some t -> up' !! i = Some w' -> carried (written (nt_cli (wn_net x)) (tm_cli t)) (du i + tm_up t) w') ->
  (forall i t w', nt_terms (wn_net x) !! i = Some t -> down' !! i = Some w' -> carried (written (nt_srv (wn_net x)) (tm_srv t)) (dd i + tm_down t) w') ->
  winv (mkWnet n' up' down').
Proof.
  intros (L1 & L2 & I) (G1 & G2 & L & M) Lu Ld Hu Hd. split; [cbn; lia|]. split; [cbn; lia|]. cbn [wn_net wn_up wn_down].
  intros i t' Ht'. destruct (nt_terms (wn_net x) !! i) as [t|] eqn:Ht.
  2: { apply lookup_ge_None in Ht. apply lookup_lt_Some in Ht'. lia. }
  destruct (M i t Ht) as (t2 & E & E1 & E2 & E3 & E4). rewrite Ht' in E. injection E as <-. rewrite E1, E2, E3, E4. split; intros w Hw.
  - destruct (written_grown _ _ _ (tm_cli t) G2) as (bs & -> & F). apply carried_more; [exact F|]. eapply Hu; eassumption.
  - destruct (written_grown _ _ _ (tm_srv t) G1) as (bs & -> & F). apply carried_more; [exact F|]. eapply Hd; eassumption.
Qed.
Lemma winv_step x ev : winv x -> winv (wstp x ev) /\ wn_net (wstp x ev) = nruns e ec other (wn_net x) (as_frames x ev).
Proof.
  intros W. pose proof W as (L1 & L2 & I).
  assert (Keep : winv x /\ wn_net x = nruns e ec other (wn_net x) []) by (split; [exact W|reflexivity]).
  assert (Plain : forall a, (forall i, a <> NServe i /\ a <> NClient i) ->
    winv (mkWnet (nstp (wn_net x) a) (wn_up x) (wn_down x)) /\ nstp (wn_net x) a = nruns e ec other (wn_net x) [a]).
  { intros a Ha. split; [|reflexivity]. apply (winv_moves x _ _ _ none none W (nstep_moves (wn_net x) a Ha)); auto.
    - intros i t w Ht Hw. apply (I i t Ht). exact Hw.
    - intros i t w Ht Hw. apply (I i t Ht). exact Hw. }
  unfold wstp. destruct ev as [a|i k|i k]; cbn [wstep as_frames].
  - destruct a as [i|i|i|i|i|i|i r|i|t|t]; try (apply Plain; intros j; split; discriminate).
    + unfold up_there. destruct (nt_terms (wn_net x) !! i) as [t|] eqn:Hi; [|exact Keep]. destruct (wn_up x !! i) as [w|] eqn:Hw; [|exact Keep].
      destruct (I i t Hi) as (Cu & Cd). pose proof (carried_recv _ _ _ (Cu w Hw)) as R.
      destruct (whole_there _ _ _).
      * destruct R as (f & r & Ef & -> & C'). destruct (tm_served t) eqn:Es.
        -- split; [|cbn [wn_net nruns fold_left nstep]; rewrite Hi; unfold act; rewrite Es, Ef; reflexivity].
           apply (winv_moves x _ _ _ (only i) none W (serve_moves (wn_net x) i t f Hi)); [apply insert_length|reflexivity| |].
           ++ intros j u w' Hu Hw'. apply list_lookup_insert_Some in Hw' as [(<- & <- & _)|(Hn & Hw')].
              ** rewrite Hi in Hu. injection Hu as <-. unfold only. rewrite Nat.eqb_refl. exact C'.
              ** unfold only. destruct (Nat.eqb_spec j i); [congruence|]. apply (I j u Hu). exact Hw'.
           ++ intros j u w' Hu Hw'. apply (I j u Hu). exact Hw'.
        -- split; [exact W|]. cbn [nruns fold_left nstep]. rewrite Hi. unfold act. rewrite Es. reflexivity.
      * destruct R as (er & r & ->). destruct (tm_served t); exact Keep.
    + unfold down_there. destruct (nt_terms (wn_net x) !! i) as [t|] eqn:Hi; [|exact Keep]. destruct (wn_down x !! i) as [w|] eqn:Hw; [|exact Keep].
      destruct (I i t Hi) as (Cu & Cd). pose proof (carried_recv _ _ _ (Cd w Hw)) as R.
      destruct (whole_there _ _ _).
      * destruct R as (f & r & Ef & -> & C'). destruct (tm_runs t) eqn:Es.
        -- split; [|cbn [wn_net nruns fold_left nstep]; rewrite Hi; unfold act; rewrite Es, Ef; reflexivity].
           apply (winv_moves x _ _ _ none (only i) W (client_moves (wn_net x) i t f Hi)); [reflexivity|apply insert_length| |].
           ++ intros j u w' Hu Hw'. apply (I j u Hu). exact Hw'.
           ++ intros j u w' Hu Hw'. apply list_lookup_insert_Some in Hw' as [(<- & <- & _)|(Hn & Hw')].
              ** rewrite Hi in Hu. injection Hu as <-. unfold only. rewrite Nat.eqb_refl. exact C'.
              ** unfold only. destruct (Nat.eqb_spec j i); [congruence|]. apply (I j u Hu). exact Hw'.
        -- split; [exact W|]. cbn [nruns fold_left nstep]. rewrite Hi. unfold act. rewrite Es. reflexivity.
      * destruct R as (er & r & ->). destruct (tm_runs t); exact Keep.
  - destruct (nt_terms (wn_net x) !! i) as [t|] eqn:Hi; [|exact Keep]. destruct (wn_up x !! i) as [w|] eqn:Hw; [|exact Keep]. split; [|reflexivity].
    apply (winv_moves x _ _ _ none none W (moves_refl _)); [apply insert_length|reflexivity| |].
    + intros j u w' Hu Hw'. apply list_lookup_insert_Some in Hw' as [(<- & <- & _)|(Hn & Hw')]; [|apply (I j u Hu); exact Hw'].
      rewrite Hi in Hu. injection Hu as <-. apply carried_arrive. apply (I i t Hi). exact Hw.
    + intros j u w' Hu Hw'. apply (I j u Hu). exact Hw'.
  - destruct (nt_terms (wn_net x) !! i) as [t|] eqn:Hi; [|exact Keep]. destruct (wn_down x !! i) as [w|] eqn:Hw; [|exact Keep]. split; [|reflexivity].
    apply (winv_moves x _ _ _ none none W (moves_refl _)); [reflexivity|apply insert_length| |].
    + intros j u w' Hu Hw'. apply (I j u Hu). exact Hw'.
    + intros j u w' Hu Hw'. apply list_lookup_insert_Some in Hw' as [(<- & <- & _)|(Hn & Hw')]; [|apply (I j u Hu); exact Hw'].
      rewrite Hi in Hu. injection Hu as <-. apply carried_arrive. apply (I i t Hi). exact Hw.
Qed.
Lemma winv_runs evs : forall x, winv x -> winv (wruns e ec other x evs) /\ wn_net (wruns e ec other x evs) = nruns e ec other (wn_net x) (all_as_frames e ec other x evs).
Proof.
  induction evs as [|ev evs IH]; intros x W; [auto|]. destruct (winv_step x ev W) as (W1 & E1). destruct (IH _ W1) as (W2 & E2).
  split; [exact W2|]. cbn [wruns fold_left all_as_frames]. rewrite nruns_app, <- E1. exact E2.
Qed.

(** * The same run with whole frames *)
Definition pend_up (n : net) (i : nat) : bool :=
  match nt_terms n !! i with Some t => (tm_up t <? length (written (nt_cli n) (tm_cli t)))%nat | None => false end.
Definition pend_down (n : net) (i : nat) : bool :=
  match nt_terms n !! i with Some t => (tm_down t <? length (written (nt_srv n) (tm_srv t)))%nat | None => false end.
(** an event that changes nothing *)
Definition idle (n : net) : nevent := NClockC (st_clock (nt_cli n)).
Lemma idle_step n : nstp n (idle n) = n.
Proof. unfold nstp, idle. cbn [nstep]. rewrite clock_id. destruct n. reflexivity. Qed.
Definition view (x : wnet) (ev : wevent) : nevent :=
  match ev with
  | WUp _ _ | WDown _ _ => idle (wn_net x)
  | WDo (NServe i) => if up_there x i || negb (pend_up (wn_net x) i) then NServe i else idle (wn_net x)
  | WDo (NClient i) => if down_there x i || negb (pend_down (wn_net x) i) then NClient i else idle (wn_net x)
  | WDo ev => ev
  end.
Lemma view_step x ev : winv x -> wn_net (wstp x ev) = nstp (wn_net x) (view x ev).
Proof.
  intros W. destruct (winv_step x ev W) as (_ & ->).
  assert (Id : wn_net x = nstp (wn_net x) (idle (wn_net x))) by (rewrite idle_step; reflexivity).
  destruct ev as [a|i k|i k]; cbn [as_frames view]; try exact Id. destruct a as [i|i|i|i|i|i|i r|i|t|t]; try reflexivity.
  - destruct (up_there x i) eqn:E; [reflexivity|]. cbn [orb]. destruct (pend_up (wn_net x) i) eqn:P; [exact Id|]. cbn [nruns fold_left negb].
    unfold nstp. cbn [nstep]. unfold pend_up in P. destruct (nt_terms (wn_net x) !! i) as [t|]; [|reflexivity].
    unfold act. destruct (tm_served t); [|reflexivity]. apply Nat.ltb_ge in P. apply nth_error_None in P. rewrite P. reflexivity.
  - destruct (down_there x i) eqn:E; [reflexivity|]. cbn [orb]. destruct (pend_down (wn_net x) i) eqn:P; [exact Id|]. cbn [nruns fold_left negb].
    unfold nstp. cbn [nstep]. unfold pend_down in P. destruct (nt_terms (wn_net x) !! i) as [t|]; [|reflexivity].
    unfold act. destruct (tm_runs t); [|reflexivity]. apply Nat.ltb_ge in P. apply nth_error_None in P. rewrite P. reflexivity.
Qed.
Fixpoint views (x : wnet) (evs : list wevent) : list nevent :=
  match evs with [] => [] | ev :: t => view x ev :: views (wstp x ev) t end.
Lemma views_run evs : forall x, winv x -> wpunctual e ec other x evs ->
  wn_net (wruns e ec other x evs) = nruns e ec other (wn_net x) (views x evs)
  /\ all_punctual e ec other (wn_net x) (views x evs)
  /\ forall i, all_generated e ec other (wn_net x) i (views x evs) = wgenerated e ec other x i evs.
Proof.
  induction evs as [|ev evs IH]; intros x W P; [cbn; auto|]. destruct P as (P & Ps). destruct (winv_step x ev W) as (W1 & _).
  destruct (IH _ W1 Ps) as (E & Q & G). pose proof (view_step x ev W) as V. fold wstp in E, G, Q.
  cbn [wruns fold_left views nruns all_punctual all_generated wgenerated]. fold wstp. unfold wstp in V at 1. fold (nruns e ec other).
  rewrite <- (V : wn_net (wstp x ev) = nstep e ec other (wn_net x) (view x ev)). split; [exact E|]. split.
  - split; [|exact Q]. destruct ev as [a|i k|i k]; cbn [view]; try exact Logic.I.
    destruct a as [i|i|i|i|i|i|i r|i|t|t]; try exact P; try exact Logic.I; destruct (_ || _); exact Logic.I.
  - intros j. rewrite (G j). f_equal. destruct ev as [a|i k|i k]; cbn [view]; try reflexivity.
    destruct a as [i|i|i|i|i|i|i r|i|t|t]; try reflexivity; destruct (_ || _); reflexivity.
Qed.
Lemma wruns_app x a b : wruns e ec other x (a ++ b) = wruns e ec other (wruns e ec other x a) b.
Proof. apply fold_left_app. Qed.
Lemma views_app a : forall x b, views x (a ++ b) = views x a ++ views (wruns e ec other x a) b.
Proof. induction a as [|ev a IH]; intros x b; [reflexivity|]. cbn. rewrite IH. reflexivity. Qed.

(** * A run that never ends *)
(** something is needed in full before it can be taken; more of it comes again and again *)
Lemma eventually (ok : nat -> nat -> nat -> Prop) (hit more try : nat -> Prop) :
  (forall m N h, ok m N h -> hit m \/ exists h', (h <= h')%nat /\ ok (S m) N h' /\ (more m -> (h < N)%nat -> (h < h')%nat)) ->
  (forall m, exists m', (m <= m')%nat /\ more m') -> (forall m, exists m', (m <= m')%nat /\ try m') ->
  (forall m N h, ok m N h -> try m -> (N <= h)%nat -> hit m) ->
  forall m N h, ok m N h -> exists m', (m <= m')%nat /\ hit m'.
Proof.
  intros H1 H2 H3 H4.
  assert (Walk : forall k m N h, ok m N h -> (exists m', (m <= m')%nat /\ hit m') \/ exists h', (h <= h')%nat /\ ok (k + m)%nat N h').
  { induction k as [|k IH]; intros m N h Ok; [right; exists h; split; [lia|exact Ok]|].
    destruct (IH m N h Ok) as [?|(h1 & L1 & O1)]; [left; assumption|]. destruct (H1 _ _ _ O1) as [Hh|(h2 & L2 & O2 & _)].
    - left. exists (k + m)%nat. split; [lia|exact Hh].
    - right. exists h2. split; [lia|exact O2]. }
  assert (Go : forall d m N h, ok m N h -> (N - h <= d)%nat -> exists m', (m <= m')%nat /\ hit m').
  { induction d as [|d IH]; intros m N h Ok Hd.
    - destruct (H3 m) as (m3 & L3 & T3). destruct (Walk (m3 - m)%nat m N h Ok) as [?|(h1 & L1 & O1)]; [assumption|].
      replace (m3 - m + m)%nat with m3 in O1 by lia. exists m3. split; [exact L3|]. apply (H4 _ _ _ O1 T3). lia.
    - destruct (H2 m) as (m2 & L2 & M2). destruct (Walk (m2 - m)%nat m N h Ok) as [?|(h1 & L1 & O1)]; [assumption|].
      replace (m2 - m + m)%nat with m2 in O1 by lia. destruct (H1 _ _ _ O1) as [Hh|(h2 & L3 & O2 & St)]; [exists m2; auto|].
      destruct (IH (S m2) N h2 O2) as (m' & L' & Hh); [|exists m'; split; [lia|exact Hh]].
      destruct (decide (h1 < N)%nat) as [Hlt|Hge]; [specialize (St M2 Hlt)|]; lia. }
  intros m N h Ok. exact (Go _ m N h Ok (le_n _)).
Qed.

Lemma wstep_moves x ev : exists du dd, moves (wn_net x) (wn_net (wstp x ev)) du dd
  /\ (forall i, ev <> WDo (NServe i) -> du i = 0%nat) /\ (forall i, ev <> WDo (NClient i) -> dd i = 0%nat).
Proof.
  assert (Z : exists du dd, moves (wn_net x) (wn_net x) du dd /\ (forall i, ev <> WDo (NServe i) -> du i = 0%nat) /\ (forall i, ev <> WDo (NClient i) -> dd i = 0%nat)).
  { exists none, none. split; [apply moves_refl|]. split; reflexivity. }
  unfold wstp. destruct ev as [a|i k|i k]; cbn [wstep].
  - destruct a as [i|i|i|i|i|i|i r|i|t|t];
      try (exists none, none; split; [cbn [wn_net]; apply nstep_moves; intros j; split; discriminate|split; reflexivity]).
    + destruct (nt_terms (wn_net x) !! i) as [t|] eqn:Hi; [|exact Z]. destruct (wn_up x !! i) as [w|]; [|exact Z]. destruct (tm_served t); [|exact Z].
      destruct (recv (wr_in w)) as [[f| |] r]; [|exact Z..]. exists (only i), none. split; [apply serve_moves; exact Hi|]. split; [|reflexivity].
      intros j Hj. unfold only. destruct (Nat.eqb_spec j i); [subst j; contradiction|reflexivity].
    + destruct (nt_terms (wn_net x) !! i) as [t|] eqn:Hi; [|exact Z]. destruct (wn_down x !! i) as [w|]; [|exact Z]. destruct (tm_runs t); [|exact Z].
      destruct (recv (wr_in w)) as [[f| |] r]; [|exact Z..]. exists none, (only i). split; [apply client_moves; exact Hi|]. split; [reflexivity|].
      intros j Hj. unfold only. destruct (Nat.eqb_spec j i); [subst j; contradiction|reflexivity].
  - destruct (nt_terms (wn_net x) !! i) as [t|] eqn:Hi; [|exact Z]. destruct (wn_up x !! i) as [w|]; exact Z.
  - destruct (nt_terms (wn_net x) !! i) as [t|] eqn:Hi; [|exact Z]. destruct (wn_down x !! i) as [w|]; exact Z.
Qed.
Lemma arrive_more k bs w : (wr_sent w <= wr_sent (arrive k bs w))%nat
  /\ ((0 < k)%nat -> (wr_sent w < length bs)%nat -> (wr_sent w < wr_sent (arrive k bs w))%nat).
Proof.
  unfold arrive. destruct (firstn k (skipn (wr_sent w) bs)) as [|b c] eqn:E; cbn [wr_sent length]; [|split; lia]. split; [lia|]. intros Hk Hl.
  apply (f_equal (@length _)) in E. rewrite firstn_length, skipn_length in E. cbn in E. lia.
Qed.
Lemma up_after x ev i w t : nt_terms (wn_net x) !! i = Some t -> wn_up x !! i = Some w ->
  exists w', wn_up (wstp x ev) !! i = Some w' /\ (wr_sent w <= wr_sent w')%nat
    /\ forall k, ev = WUp i (S k) -> (wr_sent w < length (concat (written (nt_cli (wn_net x)) (tm_cli t))))%nat -> (wr_sent w < wr_sent w')%nat.
Proof.
  intros Hi Hw. assert (Li : (i < length (wn_up x))%nat) by (apply lookup_lt_Some in Hw; exact Hw).
  assert (Z : (forall k, ev <> WUp i (S k)) -> exists w', wn_up x !! i = Some w' /\ (wr_sent w <= wr_sent w')%nat
    /\ forall k, ev = WUp i (S k) -> (wr_sent w < length (concat (written (nt_cli (wn_net x)) (tm_cli t))))%nat -> (wr_sent w < wr_sent w')%nat).
  { intros Hn. exists w. split; [exact Hw|]. split; [lia|]. intros k Hk. destruct (Hn k Hk). }
  unfold wstp. destruct ev as [a|j k|j k]; cbn [wstep].
  - destruct a as [j|j|j|j|j|j|j r|j|u|u]; try (apply Z; discriminate).
    + destruct (nt_terms (wn_net x) !! j) as [u|]; [|apply Z; discriminate]. destruct (wn_up x !! j) as [v|] eqn:Hv; [|apply Z; discriminate].
      destruct (tm_served u); [|apply Z; discriminate]. destruct (recv (wr_in v)) as [[f| |] r]; [|apply Z; discriminate..]. cbn [wn_up].
      destruct (decide (j = i)) as [->|Hn]; [|rewrite list_lookup_insert_ne by exact Hn; apply Z; discriminate].
      rewrite Hw in Hv. injection Hv as <-. rewrite list_lookup_insert by exact Li. exists (mkWire r (wr_sent w)). split; [reflexivity|]. cbn [wr_sent].
      split; [lia|discriminate].
    + destruct (nt_terms (wn_net x) !! j) as [u|]; [|apply Z; discriminate]. destruct (wn_down x !! j) as [v|] eqn:Hv; [|apply Z; discriminate].
      destruct (tm_runs u); [|apply Z; discriminate]. destruct (recv (wr_in v)) as [[f| |] r]; apply Z; discriminate.
  - destruct (decide (j = i)) as [->|Hn].
    + rewrite Hi, Hw. cbn [wn_up]. rewrite list_lookup_insert by exact Li. eexists. split; [reflexivity|].
      destruct (arrive_more k (concat (written (nt_cli (wn_net x)) (tm_cli t))) w) as (A1 & A2). split; [exact A1|].
      intros k' E. injection E as ->. apply A2. lia.
    + assert (Hne : forall k', WUp j k <> WUp i (S k')) by congruence. specialize (Z Hne).
      destruct (nt_terms (wn_net x) !! j) as [u|]; [|exact Z]. destruct (wn_up x !! j) as [v|]; [|exact Z]. cbn [wn_up].
      rewrite list_lookup_insert_ne by exact Hn. exact Z.
  - destruct (nt_terms (wn_net x) !! j) as [u|]; [|apply Z; discriminate]. destruct (wn_down x !! j) as [v|]; apply Z; discriminate.
Qed.
Lemma down_after x ev i w t : nt_terms (wn_net x) !! i = Some t -> wn_down x !! i = Some w ->
  exists w', wn_down (wstp x ev) !! i = Some w' /\ (wr_sent w <= wr_sent w')%nat
    /\ forall k, ev = WDown i (S k) -> (wr_sent w < length (concat (written (nt_srv (wn_net x)) (tm_srv t))))%nat -> (wr_sent w < wr_sent w')%nat.
Proof.
  intros Hi Hw. assert (Li : (i < length (wn_down x))%nat) by (apply lookup_lt_Some in Hw; exact Hw).
  assert (Z : (forall k, ev <> WDown i (S k)) -> exists w', wn_down x !! i = Some w' /\ (wr_sent w <= wr_sent w')%nat
    /\ forall k, ev = WDown i (S k) -> (wr_sent w < length (concat (written (nt_srv (wn_net x)) (tm_srv t))))%nat -> (wr_sent w < wr_sent w')%nat).
  { intros Hn. exists w. split; [exact Hw|]. split; [lia|]. intros k Hk. destruct (Hn k Hk). }
  unfold wstp. destruct ev as [a|j k|j k]; cbn [wstep].
  - destruct a as [j|j|j|j|j|j|j r|j|u|u]; try (apply Z; discriminate).
    + destruct (nt_terms (wn_net x) !! j) as [u|]; [|apply Z; discriminate]. destruct (wn_up x !! j) as [v|] eqn:Hv; [|apply Z; discriminate].
      destruct (tm_served u); [|apply Z; discriminate]. destruct (recv (wr_in v)) as [[f| |] r]; apply Z; discriminate.
    + destruct (nt_terms (wn_net x) !! j) as [u|]; [|apply Z; discriminate]. destruct (wn_down x !! j) as [v|] eqn:Hv; [|apply Z; discriminate].
      destruct (tm_runs u); [|apply Z; discriminate]. destruct (recv (wr_in v)) as [[f| |] r]; [|apply Z; discriminate..]. cbn [wn_down].
      destruct (decide (j = i)) as [->|Hn]; [|rewrite list_lookup_insert_ne by exact Hn; apply Z; discriminate].
      rewrite Hw in Hv. injection Hv as <-. rewrite list_lookup_insert by exact Li. exists (mkWire r (wr_sent w)). split; [reflexivity|]. cbn [wr_sent].
      split; [lia|discriminate].
  - destruct (nt_terms (wn_net x) !! j) as [u|]; [|apply Z; discriminate]. destruct (wn_up x !! j) as [v|]; apply Z; discriminate.
  - destruct (decide (j = i)) as [->|Hn].
    + rewrite Hi, Hw. cbn [wn_down]. rewrite list_lookup_insert by exact Li. eexists. split; [reflexivity|].
      destruct (arrive_more k (concat (written (nt_srv (wn_net x)) (tm_srv t))) w) as (A1 & A2). split; [exact A1|].
      intros k' E. injection E as ->. apply A2. lia.
    + assert (Hne : forall k', WDown j k <> WDown i (S k')) by congruence. specialize (Z Hne).
      destruct (nt_terms (wn_net x) !! j) as [u|]; [|exact Z]. destruct (wn_down x !! j) as [v|]; [|exact Z]. cbn [wn_down].
      rewrite list_lookup_insert_ne by exact Hn. exact Z.
Qed.
(** Recv waits: nothing changes *)
Lemma serve_waits x i : winv x -> up_there x i = false -> wstp x (WDo (NServe i)) = x.
Proof.
  intros (_ & _ & I) E. unfold wstp. cbn [wstep]. unfold up_there in E. destruct (nt_terms (wn_net x) !! i) as [t|] eqn:Hi; [|reflexivity].
  destruct (wn_up x !! i) as [w|] eqn:Hw; [|reflexivity]. destruct (I i t Hi) as (Cu & _). pose proof (carried_recv _ _ _ (Cu w Hw)) as R. rewrite E in R.
  destruct R as (er & r & ->). destruct (tm_served t); reflexivity.
Qed.
Lemma client_waits x i : winv x -> down_there x i = false -> wstp x (WDo (NClient i)) = x.
Proof.
  intros (_ & _ & I) E. unfold wstp. cbn [wstep]. unfold down_there in E. destruct (nt_terms (wn_net x) !! i) as [t|] eqn:Hi; [|reflexivity].
  destruct (wn_down x !! i) as [w|] eqn:Hw; [|reflexivity]. destruct (I i t Hi) as (_ & Cd). pose proof (carried_recv _ _ _ (Cd w Hw)) as R. rewrite E in R.
  destruct R as (er & r & ->). destruct (tm_runs t); reflexivity.
Qed.

Section Forever.
Context (x0 : wnet) (ev : nat -> wevent) (i : nat).
Hypothesis W0 : winv x0.
Hypothesis Hf : wfair_for i ev.
Definition wat (m : nat) : wnet := wruns e ec other x0 (wupto ev m).
Lemma wupto_S m : wupto ev (S m) = wupto ev m ++ [ev m].
Proof. unfold wupto. rewrite seq_S, List.map_app. reflexivity. Qed.
Lemma wat_S m : wat (S m) = wstp (wat m) (ev m).
Proof. unfold wat. rewrite wupto_S, wruns_app. reflexivity. Qed.
Lemma winv_at m : winv (wat m).
Proof using W0. apply winv_runs. exact W0. Qed.
Definition nev (m : nat) : nevent := view (wat m) (ev m).
Lemma nev_views m : upto nev m = views x0 (wupto ev m).
Proof.
  induction m as [|m IH]; [reflexivity|]. rewrite wupto_S, views_app, <- IH. unfold upto. rewrite seq_S, List.map_app. reflexivity.
Qed.
Definition need (fs : list bytes) (k : nat) : nat := length (concat (firstn (S k) fs)).
Lemma need_more fs bs k : (k < length fs)%nat -> need (fs ++ bs) k = need fs k.
Proof. intros H. unfold need. rewrite firstn_app. replace (S k - length fs)%nat with 0%nat by lia. cbn [firstn]. rewrite app_nil_r. reflexivity. Qed.
Lemma need_le fs k : (need fs k <= length (concat fs))%nat.
Proof. unfold need. rewrite <- (firstn_skipn (S k) fs) at 2. rewrite concat_app, app_length. lia. Qed.
Definition ok_up (m N h : nat) : Prop := exists t w, nt_terms (wn_net (wat m)) !! i = Some t /\ wn_up (wat m) !! i = Some w
  /\ (tm_up t < length (written (nt_cli (wn_net (wat m))) (tm_cli t)))%nat
  /\ N = need (written (nt_cli (wn_net (wat m))) (tm_cli t)) (tm_up t) /\ h = wr_sent w.
Definition ok_down (m N h : nat) : Prop := exists t w, nt_terms (wn_net (wat m)) !! i = Some t /\ wn_down (wat m) !! i = Some w
  /\ (tm_down t < length (written (nt_srv (wn_net (wat m))) (tm_srv t)))%nat
  /\ N = need (written (nt_srv (wn_net (wat m))) (tm_srv t)) (tm_down t) /\ h = wr_sent w.
Lemma wevent_serve (a : wevent) : a = WDo (NServe i) \/ a <> WDo (NServe i).
Proof. destruct a as [a| |]; [|right; discriminate..]. destruct a; try (right; discriminate). destruct (decide (i0 = i)) as [->|H]; [left; reflexivity|right; congruence]. Qed.
Lemma wevent_client (a : wevent) : a = WDo (NClient i) \/ a <> WDo (NClient i).
Proof. destruct a as [a| |]; [|right; discriminate..]. destruct a; try (right; discriminate). destruct (decide (i0 = i)) as [->|H]; [left; reflexivity|right; congruence]. Qed.
Lemma fair_serve m : exists m', (m <= m')%nat /\ nev m' = NServe i.
Proof using W0 Hf.
  destruct Hf as (F1 & F2 & _). destruct (F1 (NServe i) ltac:(unfold coming_online; tauto) m) as (m1 & L1 & E1).
  destruct (up_there (wat m1) i || negb (pend_up (wn_net (wat m1)) i)) eqn:V.
  { exists m1. split; [exact L1|]. unfold nev. rewrite E1. cbn [view]. rewrite V. reflexivity. }
  apply orb_false_elim in V as (V1 & V2). apply negb_false_iff in V2. unfold pend_up in V2.
  destruct (nt_terms (wn_net (wat m1)) !! i) as [t|] eqn:Hi; [|discriminate V2]. apply Nat.ltb_lt in V2.
  destruct (wn_up (wat m1) !! i) as [w|] eqn:Hw.
  2: { destruct (winv_at m1) as (Lu & _). apply lookup_ge_None in Hw. apply lookup_lt_Some in Hi. lia. }
  destruct (eventually ok_up (fun m => nev m = NServe i) (fun m => exists k, ev m = WUp i (S k)) (fun m => ev m = WDo (NServe i))) with (m := m1)
    (N := need (written (nt_cli (wn_net (wat m1))) (tm_cli t)) (tm_up t)) (h := wr_sent w) as (m' & L' & H').
  - intros k N h (u & v & Hu & Hv & P & -> & ->). destruct (wevent_serve (ev k)) as [E|E].
    + destruct (up_there (wat k) i) eqn:T.
      * left. unfold nev. rewrite E. cbn [view]. rewrite T. reflexivity.
      * right. exists (wr_sent v). split; [lia|]. split; [|intros (k' & E'); rewrite E in E'; discriminate E'].
        exists u, v. rewrite wat_S, E, (serve_waits _ i (winv_at k) T). auto.
    + right. destruct (up_after (wat k) (ev k) i v u Hu Hv) as (v' & Hv' & Lv & Sv). rewrite <- wat_S in Hv'.
      destruct (wstep_moves (wat k) (ev k)) as (du & dd & (_ & G2 & _ & M) & Zu & _). destruct (M i u Hu) as (u' & Hu' & _ & Ec & Eu & _).
      rewrite <- wat_S in Hu', G2. rewrite (Zu i E) in Eu. cbn in Eu. destruct (written_grown _ _ _ (tm_cli u) G2) as (bs & Eb & _).
      exists (wr_sent v'). split; [exact Lv|]. split.
      * exists u', v'. split; [exact Hu'|]. split; [exact Hv'|]. rewrite Ec, Eu, Eb. split; [rewrite app_length; lia|]. split; [rewrite need_more by exact P; reflexivity|reflexivity].
      * intros (k' & E') Hlt. apply (Sv k' E'). pose proof (need_le (written (nt_cli (wn_net (wat k))) (tm_cli u)) (tm_up u)). lia.
  - intros k. destruct (F2 k) as (k' & j & Lk & Ek). exists k'. eauto.
  - intros k. destruct (F1 (NServe i) ltac:(unfold coming_online; tauto) k) as (k' & Lk & Ek). eauto.
  - intros k N h (u & v & Hu & Hv & P & -> & ->) E Hn. unfold nev. rewrite E. cbn [view].
    assert (T : up_there (wat k) i = true).
    { unfold up_there. rewrite Hu, Hv. unfold whole_there. apply andb_true_intro. split; [apply Nat.ltb_lt; exact P|apply Nat.leb_le; exact Hn]. }
    rewrite T. reflexivity.
  - exists t, w. auto.
  - exists m'. split; [lia|exact H'].
Qed.
Lemma fair_client m : exists m', (m <= m')%nat /\ nev m' = NClient i.
Proof using W0 Hf.
  destruct Hf as (F1 & _ & F2). destruct (F1 (NClient i) ltac:(unfold coming_online; tauto) m) as (m1 & L1 & E1).
  destruct (down_there (wat m1) i || negb (pend_down (wn_net (wat m1)) i)) eqn:V.
  { exists m1. split; [exact L1|]. unfold nev. rewrite E1. cbn [view]. rewrite V. reflexivity. }
  apply orb_false_elim in V as (V1 & V2). apply negb_false_iff in V2. unfold pend_down in V2.
  destruct (nt_terms (wn_net (wat m1)) !! i) as [t|] eqn:Hi; [|discriminate V2]. apply Nat.ltb_lt in V2.
  destruct (wn_down (wat m1) !! i) as [w|] eqn:Hw.
  2: { destruct (winv_at m1) as (_ & Lu & _). apply lookup_ge_None in Hw. apply lookup_lt_Some in Hi. lia. }
  destruct (eventually ok_down (fun m => nev m = NClient i) (fun m => exists k, ev m = WDown i (S k)) (fun m => ev m = WDo (NClient i))) with (m := m1)
    (N := need (written (nt_srv (wn_net (wat m1))) (tm_srv t)) (tm_down t)) (h := wr_sent w) as (m' & L' & H').
  - intros k N h (u & v & Hu & Hv & P & -> & ->). destruct (wevent_client (ev k)) as [E|E].
    + destruct (down_there (wat k) i) eqn:T.
      * left. unfold nev. rewrite E. cbn [view]. rewrite T. reflexivity.
      * right. exists (wr_sent v). split; [lia|]. split; [|intros (k' & E'); rewrite E in E'; discriminate E'].
        exists u, v. rewrite wat_S, E, (client_waits _ i (winv_at k) T). auto.
    + right. destruct (down_after (wat k) (ev k) i v u Hu Hv) as (v' & Hv' & Lv & Sv). rewrite <- wat_S in Hv'.
      destruct (wstep_moves (wat k) (ev k)) as (du & dd & (G1 & _ & _ & M) & _ & Zd). destruct (M i u Hu) as (u' & Hu' & Ec & _ & _ & Eu).
      rewrite <- wat_S in Hu', G1. rewrite (Zd i E) in Eu. cbn in Eu. destruct (written_grown _ _ _ (tm_srv u) G1) as (bs & Eb & _).
      exists (wr_sent v'). split; [exact Lv|]. split.
      * exists u', v'. split; [exact Hu'|]. split; [exact Hv'|]. rewrite Ec, Eu, Eb. split; [rewrite app_length; lia|]. split; [rewrite need_more by exact P; reflexivity|reflexivity].
      * intros (k' & E') Hlt. apply (Sv k' E'). pose proof (need_le (written (nt_srv (wn_net (wat k))) (tm_srv u)) (tm_down u)). lia.
  - intros k. destruct (F2 k) as (k' & j & Lk & Ek). exists k'. eauto.
  - intros k. destruct (F1 (NClient i) ltac:(unfold coming_online; tauto) k) as (k' & Lk & Ek). eauto.
  - intros k N h (u & v & Hu & Hv & P & -> & ->) E Hn. unfold nev. rewrite E. cbn [view].
    assert (T : down_there (wat k) i = true).
    { unfold down_there. rewrite Hu, Hv. unfold whole_there. apply andb_true_intro. split; [apply Nat.ltb_lt; exact P|apply Nat.leb_le; exact Hn]. }
    rewrite T. reflexivity.
  - exists t, w. auto.
  - exists m'. split; [lia|exact H'].
Qed.
Lemma nev_fair : fair_for i nev.
Proof using W0 Hf.
  intros a Ha m.
  assert (Plain : (a = NBuild i \/ a = NRegister i \/ a = NCheck i) -> exists m', (m <= m')%nat /\ nev m' = a).
  { intros Hp. destruct Hf as (F1 & _). destruct (F1 a Ha m) as (m' & L & E). exists m'. split; [exact L|]. unfold nev. rewrite E.
    destruct Hp as [->|[->| ->]]; reflexivity. }
  destruct Ha as [->|[->|[->|[->| ->]]]]; auto using fair_serve, fair_client.
Qed.
End Forever.

(** * The fleet over byte streams *)
Hypothesis Ho : e_o ec = e_o e.
Lemma wire_fleet x evs : dialled (e_o e) (wn_net x) -> connected x -> wpunctual e ec other x evs ->
  let n := wn_net x in let n' := wn_net (wruns e ec other x evs) in
  (forall i t, nt_terms n !! i = Some t -> exists t', nt_terms n' !! i = Some t'
     /\ tm_conf t' = tm_conf t /\ tm_srv t' = tm_srv t /\ tm_cli t' = tm_cli t
     /\ tm_served t' = true /\ tm_runs t' = true /\ tm_at t' <> PDead
     /\ (exists k, track (nt_srv n') (number (tm_conf t)) (firstn k (wgenerated e ec other x i evs)))
     /\ (tm_at t' = POnline -> online n' t')
     /\ (tm_at t' = PSent \/ tm_at t' = POnline -> settled n' t' ->
         online n' t' /\ track (nt_srv n') (number (tm_conf t)) (wgenerated e ec other x i evs)))
  /\ (forall q, outside n q -> devAt (nt_srv n') q = devAt (nt_srv n) q /\ ringOf (nt_srv n') q = ringOf (nt_srv n) q).
Proof using Ho.
  intros Hd Hc Hp. destruct (views_run evs x (connected_winv x Hc) Hp) as (E & P & G). cbv zeta. rewrite E.
  destruct (fleet e ec other Ho (wn_net x) (views x evs) Hd P) as (H1 & H2). split; [|exact H2].
  intros i t Ht. destruct (H1 i t Ht) as (t' & H'). exists t'. rewrite <- (G i). exact H'.
Qed.
Lemma wire_fair x ev i t : dialled (e_o e) (wn_net x) -> connected x -> (forall m, wpunctual e ec other x (wupto ev m)) ->
  wfair_for i ev -> nt_terms (wn_net x) !! i = Some t ->
  let after m := wn_net (wruns e ec other x (wupto ev m)) in
  let reports m := wgenerated e ec other x i (wupto ev m) in
  (exists m, forall m', (m <= m')%nat -> exists t', nt_terms (after m') !! i = Some t' /\ tm_conf t' = tm_conf t
     /\ tm_at t' = POnline /\ online (after m') t')
  /\ forall m, exists m', (m <= m')%nat /\ forall k, (m' <= k)%nat ->
       exists ws, track (nt_srv (after k)) (number (tm_conf t)) ws /\ prefix (reports m) ws /\ prefix ws (reports k).
Proof using Ho.
  intros Hd Hc Hp Hf Ht. cbv zeta. pose proof (connected_winv x Hc) as W.
  assert (V : forall m, wn_net (wruns e ec other x (wupto ev m)) = nruns e ec other (wn_net x) (upto (nev x ev) m)
    /\ all_punctual e ec other (wn_net x) (upto (nev x ev) m)
    /\ forall j, all_generated e ec other (wn_net x) j (upto (nev x ev) m) = wgenerated e ec other x j (wupto ev m)).
  { intros m. rewrite nev_views. apply views_run; [exact W|apply Hp]. }
  pose proof (nev_fair x ev i W Hf) as F.
  assert (Pu : forall m, all_punctual e ec other (wn_net x) (upto (nev x ev) m)) by (intros m; apply V). split.
  - destruct (fair_online e ec other Ho (wn_net x) (nev x ev) Hd Pu i F t Ht) as (m & H). exists m. intros m' L.
    destruct (V m') as (-> & _). exact (H m' L).
  - intros m. destruct (fair_reports e ec other Ho (wn_net x) (nev x ev) Hd Pu i F t m Ht) as (m' & L & H). exists m'. split; [exact L|]. intros k Lk.
    destruct (V k) as (-> & _ & <-). destruct (V m) as (_ & _ & <-). exact (H k Lk).
Qed.
End Fleet.
