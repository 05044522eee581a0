(** Which synchronisation protects which memory, for every schedule *)
From stdpp Require Import gmap.
From Verif Require Import Base HexM TimeM HeaderM ParamsM GeoM MsgM PacketM FrameM ProgM ProgP RingM
  StateM ProcM ServerM ConcM SpecState StateP ProcP ServerP EffectP.
Local Open Scope N_scope.

(** every access of every continuation satisfies [P] *)
Fixpoint all_acc {S A} (P : access -> Prop) (p : prog S A) : Prop :=
  match p with
  | Ret _ => True
  | Act a _ k => Forall P a /\ forall s, all_acc P (k s)
  end.
Section Acc.
Context {S : Type} (P : access -> Prop).
Lemma acc_bindR {A B} (p : prog S A) (g : res A -> prog S B) :
  all_acc P p -> (forall r, all_acc P (g r)) -> all_acc P (pbindR p g).
Proof. induction p as [r|a f k IH]; intros Hp Hg; cbn; [apply Hg|]. destruct Hp as (H1 & H2). split; auto. Qed.
Lemma acc_bind {A B} (p : prog S A) (g : A -> prog S B) :
  all_acc P p -> (forall a, all_acc P (g a)) -> all_acc P (pbind p g).
Proof. intros Hp Hg. apply acc_bindR; [exact Hp|]. intros [a|e|]; cbn; auto. Qed.
Lemma acc_step {A} (ps : list (prog S A)) s i :
  (forall j p, nth_error ps j = Some p -> all_acc P p) ->
  forall j p, nth_error (fst (pstep ps s i)) j = Some p -> all_acc P p.
Proof.
  intros H. unfold pstep. destruct (nth_error ps i) as [[r|a f k]|] eqn:E; cbn; auto.
  intros j p Hj. rewrite (nth_error_upd ps i j (k s) _ E) in Hj.
  destruct (Nat.eqb i j); [|eauto]. injection Hj as <-. destruct (H i _ E) as (_ & Hk). apply Hk.
Qed.
Lemma acc_steps {A} sch : forall (ps : list (prog S A)) s,
  (forall j p, nth_error ps j = Some p -> all_acc P p) ->
  forall j p, nth_error (fst (psteps ps s sch)) j = Some p -> all_acc P p.
Proof.
  induction sch as [|i t IH]; intros ps s H; cbn; [exact H|].
  pose proof (acc_step ps s i H) as H'. destruct (pstep ps s i) as [ps' s']. cbn in *. apply IH. exact H'.
Qed.
Lemma acc_accesses {A} (p : prog S A) x : all_acc P p -> In x (accesses p) -> P x.
Proof. destruct p as [r|a f k]; cbn; [tauto|]. intros (H & _) Hx. rewrite Forall_forall in H. auto. Qed.
End Acc.
Lemma acc_zoom {S T A} P (get : S -> T) put (p : prog T A) : all_acc P p -> all_acc P (zoom get put p).
Proof. induction p as [r|a f k IH]; cbn; [tauto|]. intros (H1 & H2). split; auto. Qed.

(** the accesses of the server that are synchronised the same way throughout *)
Definition disciplined (x : access) : Prop :=
  match ac_cell x with
  | CDevMaps => ac_sync x = Locked MDev
  | CGeoMap => ac_sync x = Locked MGeo
  | CParamMap => ac_sync x = Locked MParam
  | CSegMap => ac_sync x = Locked MSeg
  | CSessMap => ac_sync x = Locked MSess
  | CTimer | CConn _ => ac_sync x = Atomic
  | CRingReader _ => ac_sync x = Atomic
  | _ => True
  end.
(** the cells these cover *)
Definition guarded (c : cell) : Prop :=
  match c with
  | CDevMaps | CGeoMap | CParamMap | CSegMap | CSessMap | CTimer | CConn _ | CRingReader _ => True
  | _ => False
  end.
Lemma cell_eqb_eq c c' : cell_eqb c c' = true -> c = c'.
Proof. destruct c, c'; cbn; try discriminate; try reflexivity; intros H; apply Nat.eqb_eq in H; congruence. Qed.
Lemma disciplined_conflict x y : disciplined x -> disciplined y -> guarded (ac_cell x) -> conflict x y = false.
Proof.
  intros Hx Hy Hg. destruct (conflict x y) eqn:E; [|reflexivity]. unfold conflict in E.
  apply andb_prop in E as (E & Hs). apply andb_prop in E as (E & _). apply cell_eqb_eq in E.
  unfold disciplined in *. rewrite <- E in Hy. destruct (ac_cell x); cbn in Hg; try contradiction;
    rewrite Hx, Hy in Hs; discriminate.
Qed.

Ltac acc := repeat match goal with
  | |- all_acc _ (pbind _ _) => apply acc_bind; [|intros ?]
  | |- all_acc _ (pbindR _ _) => apply acc_bindR; [|intros ?]
  | |- all_acc _ (ret _) => exact Logic.I
  | |- all_acc _ (fail _) => exact Logic.I
  | |- all_acc _ panic => exact Logic.I
  | |- all_acc _ (lift _) => exact Logic.I
  | |- all_acc _ (Ret _) => exact Logic.I
  | |- all_acc _ (zoom _ _ _) => apply acc_zoom
  | |- all_acc _ (match ?x with _ => _ end) => destruct x
  | |- all_acc _ (rd1 _ _) => split; [|intros ?; exact Logic.I]
  | |- all_acc _ (wr1 _ _) => split; [|intros ?; exact Logic.I]
  | |- all_acc _ (Act _ _ _) => split; [|intros ?]
  | |- Forall _ [] => constructor
  | |- Forall _ (_ :: _) => constructor
  | |- disciplined _ => first [reflexivity|exact Logic.I]
  end.
Lemma acc_nextSerial l : all_acc disciplined (nextSerial l).
Proof. unfold nextSerial, getNextSerialNum. acc. Qed.
Lemma acc_process e sl p : all_acc disciplined (process e sl p).
Proof.
  unfold process, processSegment, process8001, process0002, process0003, process0100, process0102, process0200,
    process8100, process8103, process8104, process9205, timerRegister, hasPlate, hasPhone, getDeviceByPlate,
    getDeviceByPhone, getSession, readConst, readDev, writeDev, allocDev, cacheDevice, delDeviceByPhone, getNow,
    timerRegister, timerCancel, timerAdd, getGeoRingByPhone, onRing, ringWrite, loadWriter, setSlot, storeWriter,
    getDeviceParamsByPhone, cacheDeviceParams, readSess.
  acc; try apply acc_nextSerial.
Qed.
Lemma acc_serve e sl ins : all_acc disciplined (serveLoop e sl ins).
Proof.
  induction ins as [|[r w] t IH]; cbn [serveLoop]; [exact Logic.I|].
  unfold serveOne, remove, lock, unlock, processConnRead, decodeP, cacheSegment, processConnWrite, connSend, connClose, clearSession, readSess.
  acc; first [apply acc_process|exact IH|idtac].
Qed.
Lemma acc_send e i m w : all_acc disciplined (serverSend e i m w).
Proof.
  unfold serverSend, remove, lock, unlock, processConnWrite, connSend, connClose, clearSession, readSess, getSession. acc.
Qed.
Lemma acc_code e g : g <> GList -> g <> GCount -> all_acc disciplined (code e g).
Proof.
  intros Hg Hg'. destruct g as [c addr ins|sl ins|sl p|ph| |ph|ph w|ph bad ps w|now|]; cbn [code]; [..|contradiction| | | | |contradiction].
  - unfold opened, connThread, accept, lock, unlock, storeSession. acc; apply acc_serve.
  - acc. apply acc_serve.
  - acc. apply acc_process.
  - unfold checkKeepalive, shouldTurnOffline, shouldClear, getDeviceByPhone, timerCancel, getNow, readDev, readConst, writeDev, cacheDevice, connClose,
      delDeviceByPhone, delGeoByPhone. acc.
  - unfold apiGeo, getDeviceByPhone, readDev, getGeoLatestByPhone, getGeoRingByPhone, onRing, ringLatest, loadWriter, getSlot. acc.
  - unfold apiGetParams, getDeviceByPhone, readConst, apiSession, getSession, readSess. acc; first [apply acc_nextSerial|apply acc_send].
  - unfold apiPutParams, getDeviceByPhone, readConst, apiSession, getSession, readSess. acc; first [apply acc_nextSerial|apply acc_send].
  - acc.
Qed.
Lemma race_free e gs s sch : ~ In GList gs -> ~ In GCount gs -> ~ races_on guarded (fst (running e gs s sch)).
Proof.
  intros Hn Hn' (i & j & p & q & x & y & _ & Hp & Hq & Hx & Hy & Hg & Hc).
  assert (Hall : forall k u, nth_error (fst (running e gs s sch)) k = Some u -> all_acc disciplined u).
  { apply acc_steps. intros k u Hu. apply nth_error_In, in_map_iff in Hu. destruct Hu as (g & <- & Hin).
    apply acc_code; intros ->; contradiction. }
  pose proof (acc_accesses _ _ _ (Hall i p Hp) Hx) as Dx.
  pose proof (acc_accesses _ _ _ (Hall j q Hq) Hy) as Dy.
  rewrite (disciplined_conflict x y Dx Dy Hg) in Hc. discriminate.
Qed.
