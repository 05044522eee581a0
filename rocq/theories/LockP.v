(** Critical sections appear atomic; no deadlock *)
From stdpp Require Import gmap relations.
From Verif Require Import Base HexM TimeM HeaderM ParamsM GeoM MsgM PacketM FrameM ProgM ProgP RingM
  StateM ProcM ServerM ConcM LockM SpecState.
Local Open Scope N_scope.

(** ** Labels tell the truth: what an action does not lock it neither reads nor changes *)
Fixpoint honest {A} (p : sp A) : Prop :=
  match p with
  | Ret _ => True
  | Act a f k => (forall q s, ~ In (kind q) (locksOf a) -> f (put q s) = put q (f s) /\ k (put q s) = k s)
                 /\ forall s, honest (k s)
  end.
Lemma ho_bindR {A B} (p : sp A) (g : res A -> sp B) : honest p -> (forall r, honest (g r)) -> honest (pbindR p g).
Proof.
  induction p as [r|a f k IH]; cbn; [auto|]. intros (H1 & H2) Hg. split; [|auto].
  intros q s Hq. destruct (H1 q s Hq) as (E1 & E2). rewrite E2. auto.
Qed.
Lemma ho_bind {A B} (p : sp A) (g : A -> sp B) : honest p -> (forall r, honest (g r)) -> honest (pbind p g).
Proof. intros Hp Hg. apply ho_bindR; [exact Hp|]. intros [a|e|]; cbn; auto. Qed.
Lemma ho_zoom {T A} (get : st -> T) (pt : T -> st -> st) (p : prog T A) :
  (forall q s, get (put q s) = get s) -> (forall q x s, pt x (put q s) = put q (pt x s)) ->
  honest (zoom get pt p).
Proof.
  intros H1 H2. induction p as [r|a f k IH]; cbn; [exact Logic.I|]. split; [|auto].
  intros q s _. rewrite H1, H2. auto.
Qed.
Lemma ho_rd {A} a (g : st -> A) : (forall q s, ~ In (kind q) (locksOf a) -> g (put q s) = g s) -> honest (rd1 a g).
Proof. intros H. split; [|intros; exact Logic.I]. intros q s Hq. rewrite H by exact Hq. auto. Qed.
Lemma ho_wr a f : (forall q s, ~ In (kind q) (locksOf a) -> f (put q s) = put q (f s)) -> honest (wr1 a f).
Proof. intros H. split; [|intros; exact Logic.I]. auto. Qed.

Ltac inner q s Hq := destruct q, s; cbn in *; try (exfalso; apply Hq; left; reflexivity).
Lemma ho_getNow : honest getNow.
Proof. apply ho_rd. intros q s Hq. inner q s Hq; reflexivity. Qed.
Lemma ho_readConst l : honest (readConst l).
Proof.
  split; [|intros s; destruct (st_devs s !! l); exact Logic.I].
  intros q s Hq. inner q s Hq; auto.
Qed.
Lemma ho_readDev l : honest (readDev l).
Proof.
  split; [|intros s; destruct (st_devs s !! l); exact Logic.I].
  intros q s Hq. inner q s Hq; auto.
Qed.
Lemma ho_writeDev l f : honest (writeDev l f).
Proof. apply ho_wr. intros q s Hq. inner q s Hq; auto. Qed.
Lemma ho_allocDev d : honest (allocDev d).
Proof. split; [|intros; exact Logic.I]. intros q s Hq. inner q s Hq; auto. Qed.
Lemma ho_byPlate p : honest (getDeviceByPlate p).
Proof. apply ho_rd. intros q s Hq. inner q s Hq; auto. Qed.
Lemma ho_byPhone p : honest (getDeviceByPhone p).
Proof. apply ho_rd. intros q s Hq. inner q s Hq; auto. Qed.
Lemma ho_cacheDevice l : honest (cacheDevice l).
Proof.
  apply ho_wr. intros q s Hq. destruct q, s; cbn in *; try (exfalso; apply Hq; left; reflexivity);
    destruct (st_devs !! l); reflexivity.
Qed.
Lemma ho_delDevice p : honest (delDeviceByPhone p).
Proof.
  apply ho_wr. intros q s Hq. destruct q, s; cbn in *; try (exfalso; apply Hq; left; reflexivity);
    destruct (st_byPhone !! p) as [l|]; try reflexivity; destruct (st_devs !! l); reflexivity.
Qed.
Lemma ho_getRing p : honest (getGeoRingByPhone p).
Proof.
  split; [|intros; exact Logic.I]. intros q s Hq.
  destruct q, s; cbn in *; try (exfalso; apply Hq; left; reflexivity); destruct (st_geo !! p); auto.
Qed.
Lemma ho_onRing {A} l (p : prog (ring devgeo) A) : honest (onRing l p).
Proof. apply ho_zoom; intros []; reflexivity. Qed.
Lemma ho_delGeo p : honest (delGeoByPhone p).
Proof. apply ho_wr. intros q s Hq. inner q s Hq; auto. Qed.
Lemma ho_getParams p : honest (getDeviceParamsByPhone p).
Proof. apply ho_rd. intros q s Hq. inner q s Hq; auto. Qed.
Lemma ho_cacheParams d : honest (cacheDeviceParams d).
Proof. apply ho_wr. intros q s Hq. inner q s Hq; auto. Qed.
Lemma ho_cacheSegment x : honest (cacheSegment x).
Proof.
  split; [|intros s; destruct (st_segs s !! _); exact Logic.I].
  intros q s Hq. inner q s Hq; auto.
Qed.
Lemma ho_getSession i : honest (getSession i).
Proof. apply ho_rd. intros q s Hq. inner q s Hq; auto. Qed.
Lemma ho_storeSession i l : honest (storeSession i l).
Proof. apply ho_wr. intros q s Hq. inner q s Hq; auto. Qed.
Lemma ho_clearSession i : honest (clearSession i).
Proof. apply ho_wr. intros q s Hq. inner q s Hq; auto. Qed.
Lemma ho_readSess l : honest (readSess l).
Proof.
  split; [|intros s; destruct (st_sess s !! l); exact Logic.I].
  intros q s Hq. inner q s Hq; auto.
Qed.
Lemma ho_nextSerial l : honest (nextSerial l).
Proof. apply ho_zoom; intros []; reflexivity. Qed.
Lemma ho_timerAdd p : honest (timerAdd p).
Proof. apply ho_wr. intros q s Hq. inner q s Hq; auto. Qed.
Lemma ho_timerCancel p : honest (timerCancel p).
Proof. apply ho_wr. intros q s Hq. inner q s Hq; auto. Qed.
Lemma ho_connSend c b w : honest (connSend c b w).
Proof.
  split.
  - intros q s Hq. inner q s Hq; auto.
  - intros s. destruct (st_conns s !! c) as [x|]; [|exact Logic.I]. destruct (cn_open x), w as [[? ?]|]; exact Logic.I.
Qed.
Lemma ho_connClose c : honest (connClose c).
Proof. apply ho_wr. intros q s Hq. inner q s Hq; auto. Qed.
Lemma ho_lock m : honest (lock m).
Proof. apply ho_wr. auto. Qed.
Lemma ho_unlock m : honest (unlock m).
Proof. apply ho_wr. auto. Qed.

Ltac ho := repeat match goal with
  | |- honest (pbind _ _) => apply ho_bind; [|intros ?]
  | |- honest (pbindR _ _) => apply ho_bindR; [|intros ?]
  | |- honest (ret _) => exact Logic.I
  | |- honest (fail _) => exact Logic.I
  | |- honest panic => exact Logic.I
  | |- honest (lift _) => exact Logic.I
  | |- honest (Ret _) => exact Logic.I
  | |- honest (match ?x with _ => _ end) => destruct x
  | |- honest getNow => apply ho_getNow
  | |- honest (readConst _) => apply ho_readConst
  | |- honest (readDev _) => apply ho_readDev
  | |- honest (writeDev _ _) => apply ho_writeDev
  | |- honest (allocDev _) => apply ho_allocDev
  | |- honest (getDeviceByPlate _) => apply ho_byPlate
  | |- honest (getDeviceByPhone _) => apply ho_byPhone
  | |- honest (cacheDevice _) => apply ho_cacheDevice
  | |- honest (delDeviceByPhone _) => apply ho_delDevice
  | |- honest (getGeoRingByPhone _) => apply ho_getRing
  | |- honest (onRing _ _) => apply ho_onRing
  | |- honest (delGeoByPhone _) => apply ho_delGeo
  | |- honest (getDeviceParamsByPhone _) => apply ho_getParams
  | |- honest (cacheDeviceParams _) => apply ho_cacheParams
  | |- honest (cacheSegment _) => apply ho_cacheSegment
  | |- honest (getSession _) => apply ho_getSession
  | |- honest (storeSession _ _) => apply ho_storeSession
  | |- honest (clearSession _) => apply ho_clearSession
  | |- honest (readSess _) => apply ho_readSess
  | |- honest (nextSerial _) => apply ho_nextSerial
  | |- honest (timerAdd _) => apply ho_timerAdd
  | |- honest (timerCancel _) => apply ho_timerCancel
  | |- honest (connSend _ _ _) => apply ho_connSend
  | |- honest (connClose _) => apply ho_connClose
  | |- honest (lock _) => apply ho_lock
  | |- honest (unlock _) => apply ho_unlock
  end.
Lemma ho_process e sl p : honest (process e sl p).
Proof.
  unfold process, processSegment, process8001, process0002, process0003, process0100, process0102, process0200,
    process8100, process8103, process8104, process9205, timerRegister, hasPlate, hasPhone. ho.
Qed.
Lemma ho_serve e sl ins : honest (serveLoop e sl ins).
Proof.
  induction ins as [|[r w] t IH]; cbn [serveLoop]; [exact Logic.I|].
  unfold serveOne, remove, processConnRead, decodeP, processConnWrite. ho; first [apply ho_process|exact IH].
Qed.
Lemma ho_send e i m w : honest (serverSend e i m w).
Proof. unfold serverSend, remove, processConnWrite. ho. Qed.
Lemma ho_code e g : g <> GList -> g <> GCount -> honest (code e g).
Proof.
  intros Hg Hg'. destruct g as [c addr ins|sl ins|sl p|ph| |ph|ph w|ph bad ps w|now|]; cbn [code]; [..|contradiction| | | | |contradiction].
  - unfold opened, connThread, accept. ho; [| |apply ho_serve].
    + apply ho_wr. intros q s Hq. inner q s Hq; reflexivity.
    + split; [|intros; exact Logic.I]. intros q s Hq. inner q s Hq; auto.
  - ho. apply ho_serve.
  - ho. apply ho_process.
  - unfold checkKeepalive, shouldTurnOffline, shouldClear. ho.
  - unfold apiGeo, getGeoLatestByPhone. ho.
  - unfold apiGetParams, apiSession. ho. apply ho_send.
  - unfold apiPutParams, apiSession. ho. apply ho_send.
  - apply ho_wr. intros q s Hq. inner q s Hq; reflexivity.
Qed.

(** ** The order of the mutexes: that of the server first, then at most one of a cache *)
Definition quiet (a : list access) : Prop := locksOf a = [] /\ takes a = [] /\ gives a = [].
Fixpoint tidy {S A} (h h' : list mutex) (p : prog S A) : Prop :=
  match p with
  | Ret _ => h = h'
  | Act a f k =>
      (quiet a /\ forall s, tidy h h' (k s))
      \/ (exists m, locksOf a = [m] /\ takes a = [] /\ gives a = [] /\ m <> MServ /\ forall s, tidy h h' (k s))
      \/ (locksOf a = [] /\ takes a = [MServ] /\ gives a = [] /\ h = [] /\ forall s, tidy [MServ] h' (k s))
      \/ (locksOf a = [] /\ takes a = [] /\ gives a = [MServ] /\ h = [MServ] /\ forall s, tidy [] h' (k s))
  end.
Lemma ti_bindR {S A B} h h1 h2 (p : prog S A) (g : res A -> prog S B) :
  tidy h h1 p -> (forall r, tidy h1 h2 (g r)) -> tidy h h2 (pbindR p g).
Proof.
  revert h. induction p as [r|a f k IH]; cbn; intros h Hp Hg; [subst; apply Hg|].
  destruct Hp as [(Q & H)|[(m & Q1 & Q2 & Q3 & Q4 & H)|[(Q1 & Q2 & Q3 & Q4 & H)|(Q1 & Q2 & Q3 & Q4 & H)]]].
  - left. split; [exact Q|]. auto.
  - right. left. exists m. auto 10.
  - right. right. left. auto 10.
  - right. right. right. auto 10.
Qed.
Lemma ti_bind {S A B} h (p : prog S A) (g : A -> prog S B) : tidy h h p -> (forall a, tidy h h (g a)) -> tidy h h (pbind p g).
Proof. intros Hp Hg. eapply ti_bindR; [exact Hp|]. intros [a|e|]; cbn; auto. Qed.
Lemma ti_zoom {S T A} h h' (get : S -> T) pt (p : prog T A) : tidy h h' p -> tidy h h' (zoom get pt p).
Proof.
  revert h. induction p as [r|a f k IH]; cbn; [auto|]. intros h Hp.
  destruct Hp as [(Q & H)|[(m & Q1 & Q2 & Q3 & Q4 & H)|[(Q1 & Q2 & Q3 & Q4 & H)|(Q1 & Q2 & Q3 & Q4 & H)]]].
  - left. split; [exact Q|]. auto.
  - right. left. exists m. auto 10.
  - right. right. left. auto 10.
  - right. right. right. auto 10.
Qed.
Lemma ti_quiet {S A} h h' a (f : S -> S) (k : S -> prog S A) : quiet a -> (forall s, tidy h h' (k s)) -> tidy h h' (Act a f k).
Proof. intros H1 H2. left. auto. Qed.
Lemma ti_locked {S A} h h' c b m (f : S -> S) (k : S -> prog S A) : takes [mkAcc c b (Locked m)] = [] ->
  gives [mkAcc c b (Locked m)] = [] -> m <> MServ -> (forall s, tidy h h' (k s)) -> tidy h h' (Act [mkAcc c b (Locked m)] f k).
Proof. intros H1 H2 H3 H4. right. left. exists m. auto. Qed.
Ltac ti := repeat match goal with
  | |- tidy _ _ (pbind _ _) => apply ti_bind; [|intros ?]
  | |- tidy _ _ (pbindR _ _) => eapply ti_bindR; [|intros ?]
  | |- tidy _ _ (ret _) => reflexivity
  | |- tidy _ _ (fail _) => reflexivity
  | |- tidy _ _ panic => reflexivity
  | |- tidy _ _ (lift _) => reflexivity
  | |- tidy _ _ (Ret _) => reflexivity
  | |- tidy _ _ (zoom _ _ _) => apply ti_zoom
  | |- tidy _ _ (match ?x with _ => _ end) => destruct x
  | |- tidy _ _ (rd1 _ _) => unfold rd1
  | |- tidy _ _ (wr1 _ _) => unfold wr1
  | |- tidy _ _ (Act [mkAcc _ _ (Locked _)] _ _) => apply ti_locked; [reflexivity|reflexivity|discriminate|intros ?]
  | |- tidy _ _ (Act _ _ _) => apply ti_quiet; [repeat split|intros ?]
  end.
Lemma ti_nextSerial h l : tidy h h (nextSerial l).
Proof. unfold nextSerial, getNextSerialNum. ti. Qed.
Lemma ti_process e sl p : tidy [] [] (process e sl p).
Proof.
  unfold process, processSegment, process8001, process0002, process0003, process0100, process0102, process0200,
    process8100, process8103, process8104, process9205, timerRegister, hasPlate, hasPhone, getDeviceByPlate,
    getDeviceByPhone, getSession, readConst, readDev, writeDev, allocDev, cacheDevice, delDeviceByPhone, getNow,
    timerRegister, timerCancel, timerAdd, getGeoRingByPhone, onRing, ringWrite, loadWriter, setSlot, storeWriter,
    getDeviceParamsByPhone, cacheDeviceParams, readSess.
  ti; apply ti_nextSerial.
Qed.
Lemma ti_remove sl : tidy [] [] (remove sl).
Proof.
  unfold remove, lock, unlock, readSess, connClose, clearSession. unfold pbind at 1, wr1 at 1. cbn [pbindR].
  right. right. left. repeat (split; [reflexivity|]). intros s. unfold ret at 1. cbn [pbindR].
  apply (ti_bindR _ [MServ]); [ti|]. intros r. unfold pbind, wr1. cbn [pbindR].
  right. right. right. repeat (split; [reflexivity|]). intros s'. reflexivity.
Qed.
Lemma ti_accept c addr : tidy [] [] (accept c addr).
Proof.
  unfold accept, lock, unlock, storeSession, wr1. cbn.
  right. right. left. repeat (split; [reflexivity|]). intros s. left. split; [repeat split|]. intros s1.
  right. left. exists MSess. repeat (split; [reflexivity||discriminate|]). intros s2.
  right. right. right. repeat (split; [reflexivity|]). intros s'. reflexivity.
Qed.
Lemma ti_serve e sl ins : tidy [] [] (serveLoop e sl ins).
Proof.
  induction ins as [|[r w] t IH]; cbn [serveLoop]; [reflexivity|].
  unfold serveOne, processConnRead, decodeP, cacheSegment, processConnWrite, connSend, readSess.
  ti; first [apply ti_process|exact IH|apply ti_remove].
Qed.
Lemma ti_send e i m w : tidy [] [] (serverSend e i m w).
Proof.
  unfold serverSend, processConnWrite, connSend, readSess, getSession. ti; apply ti_remove.
Qed.
Lemma ti_code e g : tidy [] [] (code e g).
Proof.
  destruct g as [c addr ins|sl ins|sl p|ph| |ph|ph w|ph bad ps w|now|]; cbn [code].
  - unfold opened, connThread. ti; first [apply ti_accept|apply ti_serve].
  - ti. apply ti_serve.
  - ti. apply ti_process.
  - unfold checkKeepalive, shouldTurnOffline, shouldClear, getDeviceByPhone, timerCancel, getNow, readDev, readConst, writeDev, cacheDevice, connClose,
      delDeviceByPhone, delGeoByPhone. ti.
  - unfold apiList, listDevice. ti. 
  - unfold apiGeo, getDeviceByPhone, readDev, getGeoLatestByPhone, getGeoRingByPhone, onRing, ringLatest, loadWriter, getSlot. ti.
  - unfold apiGetParams, getDeviceByPhone, readConst, apiSession, getSession, readSess. ti; first [apply ti_nextSerial|apply ti_send].
  - unfold apiPutParams, getDeviceByPhone, readConst, apiSession, getSession, readSess. ti; first [apply ti_nextSerial|apply ti_send].
  - ti.
  - unfold countSession. ti.
Qed.

(** ** What owns of every reachable configuration *)
Definition ordered (t : thread) : Prop :=
  tidy (th_hold t) [] (th_prog t) /\ (th_hold t = [] \/ th_hold t = [MServ])
  /\ forall p, th_in t = Some p -> exists a f k, th_prog t = Act a f k /\ locksOf a = [kind p] /\ takes a = [] /\ gives a = [].
Definition excl (ts : list thread) : Prop :=
  forall i j ti tj m, ts !! i = Some ti -> ts !! j = Some tj -> owns ti m -> owns tj m -> i = j.
Definition linv (ts : list thread) : Prop := (forall i t, ts !! i = Some t -> ordered t) /\ excl ts.
Lemma kind_peek m s : kind (peek m s) = m.
Proof. destruct m; reflexivity. Qed.
Lemma put_peek m s : put (peek m s) s = s.
Proof. destruct m, s; reflexivity. Qed.
Lemma put_put p q s : kind q = kind p -> put p (put q s) = put p s.
Proof. destruct p, q; try discriminate; reflexivity. Qed.
Lemma put_comm p q s : kind q <> kind p -> put p (put q s) = put q (put p s).
Proof. destruct p, q; cbn; try congruence; reflexivity. Qed.

Lemma move_ordered fr t v t' v' : ordered t -> lmove fr t v t' v' ->
  ordered t' /\ forall m, owns t' m -> owns t m \/ fr m.
Proof.
  intros (Ti & Hh & Hin) M. destruct M as [h a f k v m L1 L2 L3 Fr|h p r v q Hq|h p a f k v|h a f k v L1 L2 L3|h a f k v m L1 L2 L3 Fr|h h' a f k v m L1 L2 L3 Eh].
  - cbn in *. split.
    + split; [exact Ti|]. split; [exact Hh|]. cbn. intros p [= <-]. rewrite kind_peek. eauto 10.
    + intros m' [H|(p & [= <-] & <-)]; [left; left; exact H|]. rewrite kind_peek. right. exact Fr.
  - split; [split; [exact Ti|split; [exact Hh|exact Hin]]|]. intros m H. left. exact H.
  - cbn in *. destruct (Hin p eq_refl) as (a' & f' & k' & [= <- <- <-] & L1 & L2 & L3). split.
    + split; [|split; [exact Hh|discriminate]]. cbn.
      destruct Ti as [(Q & H)|[(m & Q1 & Q2 & Q3 & Q4 & H)|[(Q1 & Q2 & Q3 & Q4 & H)|(Q1 & Q2 & Q3 & Q4 & H)]]]; [apply H|apply H|congruence|congruence].
    + intros m [H|(p' & H & _)]; [|discriminate]. left. left. exact H.
  - cbn in *. split.
    + split; [|split; [exact Hh|discriminate]]. cbn.
      destruct Ti as [(Q & H)|[(m & Q1 & Q2 & Q3 & Q4 & H)|[(Q1 & Q2 & Q3 & Q4 & H)|(Q1 & Q2 & Q3 & Q4 & H)]]]; [apply H|apply H|congruence|congruence].
    + intros m [H|(p' & H & _)]; [|discriminate]. left. left. exact H.
  - cbn in *. destruct Ti as [((Q1 & Q2 & Q3) & H)|[(m' & Q1 & Q2 & Q3 & Q4 & H)|[(Q1 & Q2 & Q3 & Q4 & H)|(Q1 & Q2 & Q3 & Q4 & H)]]]; try congruence.
    assert (m = MServ) as -> by congruence. subst h. split.
    + split; [apply H|]. split; [right; reflexivity|discriminate].
    + intros m [[<-|[]]|(p' & H' & _)]; [|discriminate]. right. exact Fr.
  - cbn in *. destruct Ti as [((Q1 & Q2 & Q3) & H)|[(m' & Q1 & Q2 & Q3 & Q4 & H)|[(Q1 & Q2 & Q3 & Q4 & H)|(Q1 & Q2 & Q3 & Q4 & H)]]]; try congruence.
    assert (m = MServ) as -> by congruence. rewrite Q4 in Eh. injection Eh as <-. split.
    + split; [apply H|]. split; [left; reflexivity|discriminate].
    + intros m [[]|(p' & H' & _)]. discriminate.
Qed.
Lemma step_inv c c' : linv (fst c) -> lstep c c' -> linv (fst c').
Proof.
  intros (Ho & He) (i & t & t' & Hi & M & ->). destruct (move_ordered _ _ _ _ _ (Ho i t Hi) M) as (Ho' & Hm).
  assert (Li : (i < length (fst c))%nat) by (eapply lookup_lt_Some; exact Hi).
  assert (K : forall j tj m, i <> j -> fst c !! j = Some tj -> owns t' m -> owns tj m -> False).
  { intros j tj m Hn Hj Ht Hj'. destruct (Hm m Ht) as [H|H]; [apply Hn; eapply He; eassumption|].
    apply (H tj); [|exact Hj']. apply elem_of_list_In. eapply elem_of_list_lookup_2. exact Hj. }
  split.
  - intros j tj Hj. destruct (decide (i = j)) as [<-|Hn].
    + rewrite list_lookup_insert in Hj by exact Li. injection Hj as <-. exact Ho'.
    + rewrite list_lookup_insert_ne in Hj by exact Hn. eauto.
  - intros j1 j2 t1 t2 m H1 H2 M1 M2. destruct (decide (i = j1)) as [E1|N1], (decide (i = j2)) as [E2|N2]; [congruence|..].
    + subst j1. rewrite list_lookup_insert in H1 by exact Li. rewrite list_lookup_insert_ne in H2 by exact N2.
      injection H1 as <-. destruct (K j2 t2 m N2 H2 M1 M2).
    + subst j2. rewrite list_lookup_insert in H2 by exact Li. rewrite list_lookup_insert_ne in H1 by exact N1.
      injection H2 as <-. destruct (K j1 t1 m N1 H1 M2 M1).
    + rewrite list_lookup_insert_ne in H1 by exact N1. rewrite list_lookup_insert_ne in H2 by exact N2. eapply He; eassumption.
Qed.
Lemma start_inv e gs : linv (lstart e gs).
Proof.
  unfold lstart. split.
  - intros i t H. apply list_lookup_fmap_Some in H as (g & _ & ->). split; [apply ti_code|]. split; [left; reflexivity|discriminate].
  - intros i j ti tj m H1 _ [H|(p & H & _)] _; apply list_lookup_fmap_Some in H1 as (g & _ & ->); [destruct H|discriminate].
Qed.
Lemma steps_inv c c' : rtc lstep c c' -> linv (fst c) -> linv (fst c').
Proof. induction 1; eauto using step_inv. Qed.

(** ** Atomicity *)
Lemma puts_put l p s : Forall (fun q => kind q <> kind p) l -> puts l (put p s) = put p (puts l s).
Proof.
  induction l as [|q l IH]; cbn; [reflexivity|]. intros H. apply Forall_cons_iff in H as (H1 & H2).
  rewrite IH by exact H2. apply put_comm. congruence.
Qed.
Lemma puts_mid o1 o2 p s : Forall (fun q => kind q <> kind p) (o1 ++ o2) -> puts (o1 ++ p :: o2) s = puts (o1 ++ o2) (put p s).
Proof.
  intros H. apply Forall_app in H as (_ & H). induction o1 as [|x o1 IH]; cbn [app puts]; [|rewrite IH; reflexivity].
  symmetry. apply puts_put. exact H.
Qed.
Lemma puts_through {A} a (f : st -> st) (k : st -> sp A) l s :
  (forall q s, ~ In (kind q) (locksOf a) -> f (put q s) = put q (f s) /\ k (put q s) = k s) ->
  Forall (fun q => ~ In (kind q) (locksOf a)) l -> f (puts l s) = puts l (f s) /\ k (puts l s) = k s.
Proof.
  intros H. induction l as [|q l IH]; cbn; [auto|]. intros Hl. apply Forall_cons_iff in Hl as (H1 & H2).
  destruct (IH H2) as (E1 & E2). destruct (H q (puts l s) H1) as (E3 & E4). rewrite E3, E4, E1, E2. auto.
Qed.
Definition inside (t : thread) : list part := match th_in t with Some p => [p] | None => [] end.
Lemma insides_at ts i t : ts !! i = Some t -> exists o1 o2, insides ts = o1 ++ inside t ++ o2
  /\ (forall t', insides (<[i := t']> ts) = o1 ++ inside t' ++ o2)
  /\ (forall q, In q (o1 ++ o2) -> exists j tj, i <> j /\ ts !! j = Some tj /\ th_in tj = Some q).
Proof.
  intros H. exists (insides (take i ts)), (insides (drop (S i) ts)).
  assert (Li : (i < length ts)%nat) by (eapply lookup_lt_Some; exact H). unfold insides.
  assert (O : forall x l, omap th_in (x :: l) = inside x ++ omap th_in l) by (intros x l; unfold inside; cbn; destruct (th_in x); reflexivity).
  split; [|split].
  - rewrite <- (take_drop_middle ts i t H) at 1. rewrite omap_app, O. reflexivity.
  - intros t'. rewrite insert_take_drop by exact Li. rewrite omap_app, O. reflexivity.
  - intros q Hq. apply in_app_or in Hq. destruct Hq as [Hq|Hq]; apply elem_of_list_In, elem_of_list_omap in Hq as (x & Hx & E);
      apply elem_of_list_lookup in Hx as (j & Hj).
    + apply lookup_take_Some in Hj as (Hj & Lj). exists j, x. split; [lia|]. auto.
    + rewrite lookup_drop in Hj. exists (S i + j)%nat, x. split; [lia|]. auto.
Qed.
Lemma nth_lookup {A} (l : list A) i : nth_error l i = l !! i.
Proof. revert i. induction l as [|x l IH]; intros [|i]; cbn; auto. Qed.
Lemma pstep_at (ts : list thread) i t t' a f k s : ts !! i = Some t -> th_prog t = Act a f k -> th_prog t' = k s ->
  pstep (List.map th_prog ts) s i = (List.map th_prog (<[i := t']> ts), f s).
Proof.
  intros Hi E E'. unfold pstep.
  assert (Hn : nth_error (List.map th_prog ts) i = Some (Act a f k)) by (rewrite nth_error_map, nth_lookup, Hi; cbn; congruence).
  rewrite Hn. f_equal. rewrite insert_take_drop by (eapply lookup_lt_Some; exact Hi).
  rewrite map_app. cbn. rewrite E', firstn_map, skipn_map. rewrite Nat.add_1_r. reflexivity.
Qed.
Lemma psteps_snoc {S A} (ps : list (prog S A)) s sch i :
  psteps ps s (sch ++ [i]) = pstep (fst (psteps ps s sch)) (snd (psteps ps s sch)) i.
Proof.
  revert ps s. induction sch as [|j t IH]; intros ps s; cbn; [destruct (pstep ps s i); reflexivity|].
  destruct (pstep ps s j) as [ps' s']. apply IH.
Qed.
(** a move inside sections is invisible, every other one is a step of ProgM.v *)
Lemma step_atomic c c' : linv (fst c) -> (forall i t, fst c !! i = Some t -> honest (th_prog t)) -> lstep c c' ->
  (forall i t, fst c' !! i = Some t -> honest (th_prog t))
  /\ let now := (List.map th_prog (fst c), settled (fst c) (snd c)) in
     let next := (List.map th_prog (fst c'), settled (fst c') (snd c')) in
     next = now \/ exists i, pstep (fst now) (snd now) i = next.
Proof.
  intros (Ho & He) Hh (i & t & t' & Hi & M & E). cbn [fst snd].
  assert (Li : (i < length (fst c))%nat) by (eapply lookup_lt_Some; exact Hi).
  assert (Same : th_prog t' = th_prog t -> List.map th_prog (fst c') = List.map th_prog (fst c)).
  { intros Ep. rewrite E. rewrite insert_take_drop by exact Li. rewrite <- (take_drop_middle _ _ _ Hi) at 3.
    rewrite !map_app. cbn. rewrite Ep. reflexivity. }
  assert (Hon : honest (th_prog t') -> forall j tj, fst c' !! j = Some tj -> honest (th_prog tj)).
  { intros Hp j tj Hj. rewrite E in Hj. destruct (decide (i = j)) as [<-|Hn].
    - rewrite list_lookup_insert in Hj by exact Li. injection Hj as <-. exact Hp.
    - rewrite list_lookup_insert_ne in Hj by exact Hn. eauto. }
  pose proof (Hh i t Hi) as Ht. pose proof (Ho i t Hi) as Hot.
  destruct (insides_at _ _ _ Hi) as (o1 & o2 & I1 & I2 & I3). specialize (I2 t'). rewrite <- E in I2.
  destruct c as [ts v], c' as [ts' v']. cbn [fst snd] in *.
  assert (Oth : forall m, owns t m \/ unheld ts m -> Forall (fun q => kind q <> m) (o1 ++ o2)).
  { intros m Hm. apply List.Forall_forall. intros q Hq Ek. destruct (I3 q Hq) as (j & tj & Hn & Hj & Ej).
    assert (Hq' : owns tj m) by (right; eauto). destruct Hm as [Hm|Hm]; [apply Hn; eapply He; eassumption|].
    apply (Hm tj); [|exact Hq']. apply elem_of_list_In. eapply elem_of_list_lookup_2. exact Hj. }
  unfold settled. rewrite I1, I2.
  destruct M as [h a f k v m L1 L2 L3 Fr|h p r v q Hq|h p a f k v|h a f k v L1 L2 L3|h a f k v m L1 L2 L3 Fr|h h' a f k v m L1 L2 L3 Eh];
    unfold inside in *; cbn [th_in th_prog th_hold app] in *.
  - split; [exact (Hon Ht)|]. left. rewrite Same by reflexivity. f_equal.
    rewrite puts_mid by (rewrite kind_peek; apply Oth; right; exact Fr). rewrite put_peek. reflexivity.
  - split; [exact (Hon Ht)|]. left. rewrite Same by reflexivity. f_equal.
    assert (F : Forall (fun x => kind x <> kind p) (o1 ++ o2)) by (apply Oth; left; right; eauto).
    rewrite !puts_mid by exact F. rewrite put_put by exact Hq. reflexivity.
  - destruct Ht as (Ht & Hk). split; [exact (Hon (Hk _))|]. right. exists i.
    assert (F : Forall (fun x => kind x <> kind p) (o1 ++ o2)) by (apply Oth; left; right; eauto).
    destruct Hot as (_ & _ & Hin). destruct (Hin p eq_refl) as (a' & f' & k' & [= <- <- <-] & L1 & _).
    rewrite puts_mid by exact F.
    assert (F' : Forall (fun x => ~ In (kind x) (locksOf a)) (o1 ++ o2)).
    { eapply Forall_impl; [|exact F]. intros x Hx. rewrite L1. intros [H|[]]. congruence. }
    destruct (puts_through a f k _ (put p v) Ht F') as (E1 & E2).
    rewrite E. rewrite (pstep_at ts i _ (mkTh h None (k (put p v))) a f k _ Hi eq_refl) by (cbn; congruence).
    rewrite E1. reflexivity.
  - destruct Ht as (Ht & Hk); split; [exact (Hon (Hk _))|]; right; exists i;
    assert (F' : Forall (fun x => ~ In (kind x) (locksOf a)) (o1 ++ o2)) by (apply List.Forall_forall; intros x _; rewrite L1; exact (fun H => H));
    destruct (puts_through a f k _ v Ht F') as (E1 & E2); rewrite E;
    rewrite (pstep_at ts i _ (mkTh h None (k v)) a f k _ Hi eq_refl) by (cbn; symmetry; exact E2);
    rewrite E1; reflexivity.
  - destruct Ht as (Ht & Hk); split; [exact (Hon (Hk _))|]; right; exists i;
    assert (F' : Forall (fun x => ~ In (kind x) (locksOf a)) (o1 ++ o2)) by (apply List.Forall_forall; intros x _; rewrite L1; exact (fun H => H));
    destruct (puts_through a f k _ v Ht F') as (E1 & E2); rewrite E;
    rewrite (pstep_at ts i _ (mkTh (m :: h) None (k v)) a f k _ Hi eq_refl) by (cbn; symmetry; exact E2);
    rewrite E1; reflexivity.
  - destruct Ht as (Ht & Hk); split; [exact (Hon (Hk _))|]; right; exists i;
    assert (F' : Forall (fun x => ~ In (kind x) (locksOf a)) (o1 ++ o2)) by (apply List.Forall_forall; intros x _; rewrite L1; exact (fun H => H));
    destruct (puts_through a f k _ v Ht F') as (E1 & E2); rewrite E;
    rewrite (pstep_at ts i _ (mkTh h' None (k v)) a f k _ Hi eq_refl) by (cbn; symmetry; exact E2);
    rewrite E1; reflexivity.
Qed.
Lemma settled_none ts s : (forall t, In t ts -> th_in t = None) -> settled ts s = s.
Proof.
  intros H. unfold settled, insides. induction ts as [|t ts IH]; [reflexivity|]. cbn.
  rewrite (H t (or_introl eq_refl)). apply IH. intros u Hu. apply H. right. exact Hu.
Qed.
Lemma sections_atomic e gs s ts v : ~ In GList gs -> ~ In GCount gs -> rtc lstep (lstart e gs, s) (ts, v) ->
  exists sch, running e gs s sch = (List.map th_prog ts, settled ts v).
Proof.
  intros N1 N2 H.
  assert (G : forall c, rtc lstep (lstart e gs, s) c -> (forall i t, fst c !! i = Some t -> honest (th_prog t))
     /\ exists sch, running e gs s sch = (List.map th_prog (fst c), settled (fst c) (snd c))).
  { clear H. apply rtc_ind_r.
    - split.
      + intros i t Hi. apply list_lookup_fmap_Some in Hi as (g & Hg & ->). apply ho_code; intros ->;
          [apply N1|apply N2]; apply elem_of_list_In; eapply elem_of_list_lookup_2; exact Hg.
      + exists []. unfold running. cbn [psteps fst snd]. f_equal.
        * unfold lstart. rewrite map_map. reflexivity.
        * symmetry. apply settled_none. intros t Ht. apply in_map_iff in Ht as (g & <- & _). reflexivity.
    - intros c c' H1 H2 (Hh & sch & E). destruct (step_atomic c c') as (Hh' & St); [|exact Hh|exact H2|].
      { eapply (steps_inv (lstart e gs, s)); [exact H1|]. apply start_inv. }
      split; [exact Hh'|]. cbn [fst snd] in St. destruct St as [St|(i & St)].
      + exists sch. rewrite E. symmetry. exact St.
      + exists (sch ++ [i]). unfold running in *. rewrite psteps_snoc, E. exact St. }
  apply (G (ts, v) H).
Qed.

(** ** No deadlock: whatever happened, all goroutines can still run to their end *)
(** one goroutine runs to its end while the others hold nothing *)
Lemma solo ts i h p s : ts !! i = Some (mkTh h None p) -> tidy h [] p -> h = [] \/ h = [MServ] ->
  (forall j t, ts !! j = Some t -> i <> j -> forall m, ~ owns t m) ->
  exists r s', rtc lstep (ts, s) (<[i := mkTh [] None (Ret r)]> ts, s').
Proof.
  revert ts h s. induction p as [r|a f k IH]; intros ts h s Hi Ti Hh Ho.
  - cbn in Ti. subst h. exists r, s. rewrite list_insert_id by exact Hi. constructor.
  - assert (Li : (i < length ts)%nat) by (eapply lookup_lt_Some; exact Hi).
    assert (Fr : forall m, ~ In m h -> unheld ts m).
    { intros m Hm t Ht Hw. apply elem_of_list_In, elem_of_list_lookup in Ht as (j & Hj). destruct (decide (i = j)) as [<-|Hn].
      - rewrite Hi in Hj. injection Hj as <-. destruct Hw as [Hw|(q & Hq & _)]; [exact (Hm Hw)|discriminate].
      - exact (Ho j t Hj Hn m Hw). }
    assert (Go : forall h' s0 s1 ts0, rtc lstep (ts, s) (ts0, s0) -> ts0 = <[i := mkTh h' None (k s1)]> ts -> tidy h' [] (k s1) -> h' = [] \/ h' = [MServ] ->
       exists r s', rtc lstep (ts, s) (<[i := mkTh [] None (Ret r)]> ts, s')).
    { intros h' s0 s1 ts0 St -> Ti' Hh'. destruct (IH s1 (<[i := mkTh h' None (k s1)]> ts) h' s0) as (r & s' & St').
      - apply list_lookup_insert. exact Li.
      - exact Ti'.
      - exact Hh'.
      - intros j t Hj Hn. rewrite list_lookup_insert_ne in Hj by exact Hn. eauto.
      - exists r, s'. rewrite list_insert_insert in St'. eapply rtc_transitive; eassumption. }
    destruct Ti as [((Q1 & Q2 & Q3) & H)|[(m & Q1 & Q2 & Q3 & Q4 & H)|[(Q1 & Q2 & Q3 & Q4 & H)|(Q1 & Q2 & Q3 & Q4 & H)]]].
    + eapply (Go h (f s) s); [|reflexivity|apply H|auto]. apply rtc_once. exists i, (mkTh h None (Act a f k)), (mkTh h None (k s)).
      cbn. split; [exact Hi|]. split; [|reflexivity]. apply l_plain; assumption.
    + eapply (Go h (f (put (peek m s) s)) (put (peek m s) s)); [|reflexivity|apply H|exact Hh].
      apply (rtc_l _ _ (<[i := mkTh h (Some (peek m s)) (Act a f k)]> ts, s)); [|apply rtc_once].
      * exists i, (mkTh h None (Act a f k)), (mkTh h (Some (peek m s)) (Act a f k)).
        split; [exact Hi|]. split; [|reflexivity]. cbn [fst snd]. apply l_enter; try assumption.
        apply Fr. destruct Hh as [->| ->]; [exact (fun x => x)|]. intros [E|[]]. congruence.
      * exists i, (mkTh h (Some (peek m s)) (Act a f k)), (mkTh h None (k (put (peek m s) s))). cbn [fst snd].
        split; [apply list_lookup_insert; exact Li|]. split; [apply l_leave|]. rewrite list_insert_insert. reflexivity.
    + subst h. eapply (Go [MServ] (f s) s); [|reflexivity|apply H|auto]. apply rtc_once. exists i, (mkTh [] None (Act a f k)), (mkTh [MServ] None (k s)).
      cbn. split; [exact Hi|]. split; [|reflexivity]. apply l_take; try assumption. apply Fr. exact (fun x => x).
    + subst h. eapply (Go [] (f s) s); [|reflexivity|apply H|auto]. apply rtc_once. exists i, (mkTh [MServ] None (Act a f k)), (mkTh [] None (k s)).
      cbn. split; [exact Hi|]. split; [|reflexivity]. eapply l_give; try eassumption. reflexivity.
Qed.
Lemma drain n ts s : linv ts -> exists ts' s', rtc lstep (ts, s) (ts', s') /\ linv ts'
  /\ forall j t, (j < n)%nat -> ts' !! j = Some t -> th_in t = None.
Proof.
  intros Hi. induction n as [|n (ts' & s' & St & Hi' & Hn)].
  - exists ts, s. split; [constructor|]. split; [exact Hi|]. intros j t H. lia.
  - destruct (ts' !! n) as [t|] eqn:Et.
    2:{ exists ts', s'. split; [exact St|]. split; [exact Hi'|]. intros j t Hj Ht.
        destruct (decide (j = n)) as [->|]; [congruence|]. eapply Hn; [|exact Ht]. lia. }
    destruct t as [h [p|] r].
    2:{ exists ts', s'. split; [exact St|]. split; [exact Hi'|]. intros j t Hj Ht.
        destruct (decide (j = n)) as [->|]; [rewrite Et in Ht; injection Ht as <-; reflexivity|]. eapply Hn; [|exact Ht]. lia. }
    destruct (proj1 Hi' n _ Et) as (_ & _ & Hin). destruct (Hin p eq_refl) as (a & f & k & Er & _). cbn in Er. subst r.
    assert (L : lstep (ts', s') (<[n := mkTh h None (k (put p s'))]> ts', f (put p s'))).
    { exists n, (mkTh h (Some p) (Act a f k)), (mkTh h None (k (put p s'))). split; [exact Et|]. split; [|reflexivity]. apply l_leave. }
    eexists _, _. split; [eapply rtc_r; [exact St|exact L]|]. split; [exact (step_inv (ts', s') (_, _) Hi' L)|].
    intros j t Hj Ht. destruct (decide (n = j)) as [<-|Hne].
    + rewrite list_lookup_insert in Ht by (eapply lookup_lt_Some; exact Et). injection Ht as <-. reflexivity.
    + rewrite list_lookup_insert_ne in Ht by exact Hne. eapply Hn; [|exact Ht]. lia.
Qed.
(** all goroutines outside sections, and only the [i]th may hold a mutex *)
Lemma clear_run n ts s : linv ts -> (forall j t, ts !! j = Some t -> forall m, ~ owns t m) ->
  exists ts' s', rtc lstep (ts, s) (ts', s') /\ linv ts' /\ (forall j t, ts' !! j = Some t -> forall m, ~ owns t m)
    /\ forall j t, (j < n)%nat -> ts' !! j = Some t -> finished t.
Proof.
  intros Hi Hf. induction n as [|n (ts' & s' & St & Hi' & Hf' & Hn)].
  - exists ts, s. split; [constructor|]. split; [exact Hi|]. split; [exact Hf|]. intros j t H. lia.
  - destruct (ts' !! n) as [[h q p]|] eqn:Et.
    2:{ exists ts', s'. split; [exact St|]. split; [exact Hi'|]. split; [exact Hf'|]. intros j t Hj Ht.
        destruct (decide (j = n)) as [->|]; [congruence|]. eapply Hn; [|exact Ht]. lia. }
    destruct (proj1 Hi' n _ Et) as (Ti & Hh & _). cbn in Ti, Hh. pose proof (Hf' n _ Et) as Ho.
    assert (h = []) as ->. { destruct Hh as [->| ->]; [reflexivity|]. destruct (Ho MServ). left. left. reflexivity. }
    assert (q = None) as ->. { destruct q as [q|]; [|reflexivity]. destruct (Ho (kind q)). right. eauto. }
    destruct (solo ts' n [] p s' Et Ti (or_introl eq_refl)) as (r & s2 & St2); [intros j t Hj _; exact (Hf' j t Hj)|].
    assert (Ln : (n < length ts')%nat) by (eapply lookup_lt_Some; exact Et).
    eexists _, _. split; [eapply rtc_transitive; [exact St|exact St2]|]. split; [exact (steps_inv (ts', s') (_, _) St2 Hi')|]. split.
    + intros j t Hj. destruct (decide (n = j)) as [<-|Hne].
      * rewrite list_lookup_insert in Hj by exact Ln. injection Hj as <-. intros m [[]|(x & Hx & _)]. discriminate.
      * rewrite list_lookup_insert_ne in Hj by exact Hne. exact (Hf' j t Hj).
    + intros j t Hj Ht. destruct (decide (n = j)) as [<-|Hne].
      * rewrite list_lookup_insert in Ht by exact Ln. injection Ht as <-. split; [reflexivity|]. split; [reflexivity|]. exists r. reflexivity.
      * rewrite list_lookup_insert_ne in Ht by exact Hne. eapply Hn; [|exact Ht]. lia.
Qed.
Lemma holder_dec (ts : list thread) : (exists i t, ts !! i = Some t /\ th_hold t <> []) \/ forall i t, ts !! i = Some t -> th_hold t = [].
Proof.
  induction ts as [|t ts IH]; [right; intros i t; rewrite lookup_nil; discriminate|].
  destruct (th_hold t) as [|m h] eqn:E; [|left; exists 0%nat, t; split; [reflexivity|congruence]].
  destruct IH as [(i & u & Hi & Hu)|IH]; [left; exists (S i), u; auto|].
  right. intros [|i] u; cbn; [congruence|]. apply IH.
Qed.
Lemma no_deadlock e gs s c : rtc lstep (lstart e gs, s) c ->
  exists c', rtc lstep c c' /\ forall t, In t (fst c') -> finished t.
Proof.
  intros H. destruct c as [ts v]. pose proof (steps_inv _ _ H (start_inv e gs)) as Hi. cbn in Hi.
  destruct (drain (length ts) ts v Hi) as (ts1 & s1 & St1 & Hi1 & Hn1).
  assert (Len : forall c1 c2, rtc lstep c1 c2 -> length (fst c2) = length (fst c1)).
  { clear. intros c1 c2 H. induction H as [|c1 c2 c3 (i & t & t' & _ & _ & E) _ IH]; [reflexivity|].
    rewrite IH, E. apply insert_length. }
  pose proof (Len _ _ St1) as L1. cbn in L1.
  assert (Out : forall j t, ts1 !! j = Some t -> th_in t = None).
  { intros j t Hj. eapply Hn1; [|exact Hj]. rewrite <- L1. eapply lookup_lt_Some. exact Hj. }
  (* the holder of the server's mutex, if any, goes first *)
  assert (Q : exists ts2 s2, rtc lstep (ts1, s1) (ts2, s2) /\ linv ts2 /\ forall j t, ts2 !! j = Some t -> forall m, ~ owns t m).
  { destruct (holder_dec ts1) as [(i & t & Ht & Hw)|No].
    - destruct t as [h q p]. cbn in Hw. pose proof (Out i _ Ht) as Eq. cbn in Eq. subst q.
      destruct (proj1 Hi1 i _ Ht) as (Ti & Hh & _). cbn in Ti, Hh. destruct Hh as [->| ->]; [contradiction|].
      assert (Oth : forall j u, ts1 !! j = Some u -> i <> j -> forall m, ~ owns u m).
      { intros j u Hj Hne m Hm. destruct (proj1 Hi1 j u Hj) as (_ & Hu & _).
        destruct Hm as [Hm|(x & Hx & _)]; [|rewrite (Out j u Hj) in Hx; discriminate].
        destruct Hu as [Eu|Eu]; [rewrite Eu in Hm; destruct Hm|]. apply Hne.
        apply (proj2 Hi1 i j _ u MServ Ht Hj); [left; left; reflexivity|]. left. rewrite Eu. left. reflexivity. }
      destruct (solo ts1 i [MServ] p s1 Ht Ti (or_intror eq_refl) Oth) as (r & s2 & St2).
      eexists _, _. split; [exact St2|]. split; [exact (steps_inv (ts1, s1) (_, _) St2 Hi1)|]. intros j u Hj.
      destruct (decide (i = j)) as [<-|Hne].
      + rewrite list_lookup_insert in Hj by (eapply lookup_lt_Some; exact Ht). injection Hj as <-. intros m [[]|(x & Hx & _)]. discriminate.
      + rewrite list_lookup_insert_ne in Hj by exact Hne. exact (Oth j u Hj Hne).
    - exists ts1, s1. split; [constructor|]. split; [exact Hi1|]. intros j u Hj m [Hm|(x & Hx & _)].
      + rewrite (No j u Hj) in Hm. exact Hm.
      + rewrite (Out j u Hj) in Hx. discriminate. }
  destruct Q as (ts2 & s2 & St2 & Hi2 & Hf2).
  destruct (clear_run (length ts2) ts2 s2 Hi2 Hf2) as (ts3 & s3 & St3 & _ & _ & Hn3).
  exists (ts3, s3). split; [eapply rtc_transitive; [exact St1|]; eapply rtc_transitive; [exact St2|exact St3]|].
  pose proof (Len _ _ St3) as L3. cbn in L3. intros t Ht. apply elem_of_list_In, elem_of_list_lookup in Ht as (j & Hj).
  eapply Hn3; [|exact Hj]. rewrite <- L3. eapply lookup_lt_Some. exact Hj.
Qed.
Lemma sections_ended e gs s ts v : ~ In GList gs -> ~ In GCount gs -> rtc lstep (lstart e gs, s) (ts, v) ->
  (forall t, In t ts -> th_in t = None) -> exists sch, running e gs s sch = (List.map th_prog ts, v).
Proof.
  intros N1 N2 H Hn. destruct (sections_atomic e gs s ts v N1 N2 H) as (sch & E). exists sch. rewrite E, settled_none by exact Hn. reflexivity.
Qed.
