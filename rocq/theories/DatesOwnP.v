(** The time of a device's last message when one goroutine handles the messages of its phone (C148) *)
From stdpp Require Import gmap.
From Verif Require Import Base HexM TimeM HeaderM ParamsM GeoM MsgM PacketM FrameM ProgM ProgP RingM StateM ProcM ServerM ConcM
  SpecCodec SpecState SpecConc SpecReg SpecOwn SpecHonest SpecDates StateP ProcP ServerP RegP LifeP RaceP ConcP OwnP HonestP LockP DatesP.
Local Open Scope Z_scope.

(** ** The goroutine that handles the messages *)
(** given that the record at [l] is not later than [b], no action makes it earlier, and what is written is not later than the
    last clock that was read *)
Section Rising.
Context (l : nat).
Fixpoint rising {A} (Q : Z -> A -> Prop) (b : Z) (p : sp A) : Prop :=
  match p with
  | Ret (Ok a) => Q b a
  | Ret _ => True
  | Act _ f k => forall s d, st_devs s !! l = Some d -> d_last d <= b -> no_later s ->
      exists d' b', st_devs (f s) !! l = Some d' /\ d_last d <= d_last d' <= b' /\ rising Q b' (k s)
  end.
Definition anyQ {A} : Z -> A -> Prop := fun _ _ => True.
Lemma rising_ret {A} (Q : Z -> A -> Prop) b a : Q b a -> rising Q b (ret a).
Proof. intros H. exact H. Qed.
Lemma rising_lift {A} (Q : Z -> A -> Prop) b (r : res A) : (forall a, r = Ok a -> Q b a) -> rising Q b (Ret r).
Proof. destruct r as [a|er|]; intros H; [apply H; reflexivity|exact Logic.I..]. Qed.
Lemma rising_impl {A} (Q Q' : Z -> A -> Prop) (p : sp A) : forall b, rising Q b p -> (forall b a, Q b a -> Q' b a) -> rising Q' b p.
Proof.
  induction p as [[a|er|]|x f k IH]; intros b H HQ; [apply HQ, H|exact Logic.I..|].
  intros s d H1 H2 H3. destruct (H s d H1 H2 H3) as (d' & b' & K1 & K2 & K3). exists d', b'. auto.
Qed.
Lemma rising_bindR {A B} (Q : Z -> B -> Prop) (p : sp A) : forall b (g : res A -> sp B), rising anyQ b p ->
  (forall b r, rising Q b (g r)) -> rising Q b (pbindR p g).
Proof.
  induction p as [r|x f k IH]; intros b g H Hg; cbn [pbindR]; [apply Hg|].
  intros s d H1 H2 H3. destruct (H s d H1 H2 H3) as (d' & b' & K1 & K2 & K3). exists d', b'. auto.
Qed.
Lemma rising_bind {A B} (Q : Z -> B -> Prop) (p : sp A) : forall b (g : A -> sp B), rising (fun b a => rising Q b (g a)) b p ->
  rising Q b (pbind p g).
Proof.
  unfold pbind. induction p as [[a|er|]|x f k IH]; intros b g H; cbn [pbindR]; [exact H|exact Logic.I..|].
  intros s d H1 H2 H3. destruct (H s d H1 H2 H3) as (d' & b' & K1 & K2 & K3). exists d', b'. auto.
Qed.
Lemma rising_now (Q : Z -> Z -> Prop) b : (forall now, Q now now) -> rising Q b getNow.
Proof. intros H s d H1 H2 H3. exists d, (st_clock s). split; [exact H1|]. split; [specialize (H3 l d H1); lia|]. apply H. Qed.
Lemma rising_quiet {A} (Q : Z -> A -> Prop) b x f (k : st -> sp A) : (forall s, st_devs (f s) = st_devs s) ->
  (forall s, rising Q b (k s)) -> rising Q b (Act x f k).
Proof. intros Hf Hk s d H1 H2 H3. exists d, b. rewrite Hf. split; [exact H1|]. split; [lia|apply Hk]. Qed.
Lemma rising_zoom {T A} (Q : Z -> A -> Prop) (get : st -> T) put (p : prog T A) : (forall t s, st_devs (put t s) = st_devs s) ->
  forall b, (forall a, Q b a) -> rising Q b (zoom get put p).
Proof.
  intros Hp b HQ. induction p as [[a|er|]|x f k IH]; cbn [zoom]; [apply HQ|exact Logic.I..|].
  apply rising_quiet; [intros s; apply Hp|]. intros s. apply IH.
Qed.
Lemma rising_write (Q : Z -> unit -> Prop) b l' f : (forall d, d_last (f d) = d_last d) -> Q b tt -> rising Q b (writeDev l' f).
Proof.
  intros Hf HQ s d H1 H2 H3. destruct (decide (l' = l)) as [->|Hn].
  - exists (f d), b. split; [cbn; rewrite lookup_alter, H1; reflexivity|]. rewrite Hf. split; [lia|exact HQ].
  - exists d, b. split; [cbn; rewrite lookup_alter_ne by exact Hn; exact H1|]. split; [lia|exact HQ].
Qed.
Lemma rising_last (Q : Z -> unit -> Prop) b l' : Q b tt -> rising Q b (writeDev l' (fun d => dset_last d b)).
Proof.
  intros HQ s d H1 H2 H3. destruct (decide (l' = l)) as [->|Hn].
  - exists (dset_last d b), b. split; [cbn; rewrite lookup_alter, H1; reflexivity|]. split; [cbn; lia|exact HQ].
  - exists d, b. split; [cbn; rewrite lookup_alter_ne by exact Hn; exact H1|]. split; [lia|exact HQ].
Qed.
Lemma rising_alloc (Q : Z -> nat -> Prop) b d0 : (forall n, Q b n) -> rising Q b (allocDev d0).
Proof.
  intros HQ s d H1 H2 H3. exists d, b. split; [|split; [lia|apply HQ]]. cbn. rewrite lookup_insert_ne; [exact H1|].
  intros E. pose proof (is_fresh (dom (st_devs s))) as F. rewrite E in F. apply F, elem_of_dom. eauto.
Qed.
End Rising.

Ltac noisy := intros ?s; repeat match goal with |- context [match ?x with _ => _ end] => destruct x end; reflexivity.
Ltac rs := repeat (cbv beta iota zeta; match goal with
  | |- rising _ _ _ (pbind _ _) => apply rising_bind
  | |- rising _ _ _ (pbindR _ _) => apply rising_bindR; [|intros ? ?]
  | |- rising _ _ _ (ret _) => apply rising_ret
  | |- rising _ _ _ (Ret _) => apply rising_lift; intros ? _
  | |- rising _ _ _ (fail _) => exact Logic.I
  | |- rising _ _ _ panic => exact Logic.I
  | |- rising _ _ _ (lift _) => apply rising_lift; intros ? _
  | |- rising _ _ _ getNow => apply rising_now; intros ?
  | |- rising _ _ _ (zoom _ _ _) => apply rising_zoom; [intros ? ?; reflexivity|intros ?]
  | |- rising _ _ _ (writeDev _ _) => first [apply rising_last|apply rising_write; [intros ?; reflexivity|]]
  | |- rising _ _ _ (allocDev _) => apply rising_alloc; intros ?
  | |- rising _ _ _ (match ?x with _ => _ end) => destruct x
  | |- rising _ _ _ (rd1 _ _) => apply rising_quiet; [intros ?; reflexivity|intros ?]
  | |- rising _ _ _ (wr1 _ _) => apply rising_quiet; [noisy|intros ?]
  | |- rising _ _ _ (Act _ _ _) => apply rising_quiet; [noisy|intros ?]
  | |- anyQ _ _ => exact Logic.I
  end).
Lemma rising_process l e sl p b : rising l anyQ b (process e sl p).
Proof.
  unfold process, processSegment, process8001, process0002, process0003, process0100, process0102, process0200,
    process8100, process8103, process8104, process9205, timerRegister, hasPlate, hasPhone, getDeviceByPlate,
    getDeviceByPhone, getSession, readConst, readDev, cacheDevice, delDeviceByPhone,
    timerRegister, timerCancel, timerAdd, getGeoRingByPhone, onRing, nextSerial,
    getDeviceParamsByPhone, cacheDeviceParams, readSess.
  rs.
Qed.
Lemma rising_process_any l e sl p b (Q : Z -> option msg -> Prop) : (forall b a, Q b a) -> rising l Q b (process e sl p).
Proof. intros H. eapply rising_impl; [apply rising_process|]. intros b' a _. apply H. Qed.
Lemma rising_serve l e sl ins : forall b, rising l anyQ b (serveLoop e sl ins).
Proof.
  induction ins as [|[r w] t IH]; intros b; cbn [serveLoop]; [exact Logic.I|].
  unfold serveOne, remove, lock, unlock, processConnRead, decodeP, cacheSegment, processConnWrite, connSend, connClose, clearSession, readSess.
  rs; first [apply IH|apply rising_process_any; intros ? ?; rs|idtac].
Qed.
Lemma rising_any {A} l (p : sp A) b (Q : Z -> A -> Prop) : rising l anyQ b p -> (forall b a, Q b a) -> rising l Q b p.
Proof. intros H HQ. eapply rising_impl; [exact H|]. intros b' a _. apply HQ. Qed.

(** ** The others *)
(** no action changes the time of the record at [l] *)
Fixpoint constant {A} (l : nat) (p : sp A) : Prop :=
  match p with
  | Ret _ => True
  | Act _ f k => (forall s d, st_devs s !! l = Some d -> exists d', st_devs (f s) !! l = Some d' /\ d_last d' = d_last d)
                 /\ forall s, constant l (k s)
  end.
Lemma constant_bindR {A B} l (p : sp A) (g : res A -> sp B) : constant l p -> (forall r, constant l (g r)) -> constant l (pbindR p g).
Proof. induction p as [r|x f k IH]; intros Hp Hg; cbn; [apply Hg|]. destruct Hp as (H1 & H2). split; auto. Qed.
Lemma constant_bind {A B} l (p : sp A) (g : A -> sp B) : constant l p -> (forall a, constant l (g a)) -> constant l (pbind p g).
Proof. intros H Hg. apply constant_bindR; [exact H|]. intros [a|er|]; [apply Hg|exact Logic.I..]. Qed.
Lemma constant_quiet {A} l x f (k : st -> sp A) : (forall s, st_devs (f s) = st_devs s) -> (forall s, constant l (k s)) -> constant l (Act x f k).
Proof. intros Hf Hk. split; [|exact Hk]. intros s d H. exists d. rewrite Hf. auto. Qed.
Lemma constant_zoom {T A} l (get : st -> T) put (p : prog T A) : (forall t s, st_devs (put t s) = st_devs s) -> constant l (zoom get put p).
Proof. intros Hp. induction p as [r|x f k IH]; cbn [zoom]; [exact Logic.I|]. apply constant_quiet; [intros s; apply Hp|]. intros s. apply IH. Qed.
Lemma constant_write l l' f : (forall d, d_last (f d) = d_last d) -> constant l (writeDev l' f).
Proof.
  intros Hf. split; [|intros; exact Logic.I]. intros s d H. destruct (decide (l' = l)) as [->|Hn].
  - exists (f d). split; [cbn; rewrite lookup_alter, H; reflexivity|apply Hf].
  - exists d. split; [cbn; rewrite lookup_alter_ne by exact Hn; exact H|reflexivity].
Qed.
Ltac cs := repeat match goal with
  | |- constant _ (pbind _ _) => apply constant_bind; [|intros ?]
  | |- constant _ (pbindR _ _) => apply constant_bindR; [|intros ?]
  | |- constant _ (ret _) => exact Logic.I
  | |- constant _ (fail _) => exact Logic.I
  | |- constant _ panic => exact Logic.I
  | |- constant _ (lift _) => exact Logic.I
  | |- constant _ (Ret _) => exact Logic.I
  | |- constant _ (zoom _ _ _) => apply constant_zoom; intros ? ?; reflexivity
  | |- constant _ (writeDev _ _) => apply constant_write; intros ?; reflexivity
  | |- constant _ (match ?x with _ => _ end) => destruct x
  | |- constant _ (rd1 _ _) => apply constant_quiet; [intros ?; reflexivity|intros ?; exact Logic.I]
  | |- constant _ (wr1 _ _) => apply constant_quiet; [noisy|intros ?; exact Logic.I]
  | |- constant _ (Act _ _ _) => apply constant_quiet; [noisy|intros ?]
  end.
Lemma constant_send l e i m w : constant l (serverSend e i m w).
Proof. unfold serverSend, remove, lock, unlock, processConnWrite, connSend, connClose, clearSession, readSess, getSession. cs. Qed.
(** a goroutine handles messages, or leaves all times alone *)
Definition listens (g : goroutine) : bool := match g with GConn _ _ _ | GServe _ _ | GMsg _ _ => true | _ => false end.
Lemma code_rising l e g b : listens g = true -> rising l anyQ b (code e g).
Proof.
  destruct g as [k addr ins|sl ins|sl p|ph| |ph|ph w|ph bad ps w|now|]; try discriminate; intros _; cbn [code].
  - unfold opened, connThread, accept, lock, unlock, storeSession. rs. apply rising_any; [apply rising_serve|]. intros; rs.
  - rs. apply rising_any; [apply rising_serve|]. intros; rs.
  - rs. apply rising_process_any. intros; rs.
Qed.
Lemma code_constant l e g : listens g = false -> constant l (code e g).
Proof.
  destruct g as [k addr ins|sl ins|sl p|ph| |ph|ph w|ph bad ps w|now|]; try discriminate; intros _; cbn [code].
  - unfold checkKeepalive, shouldTurnOffline, shouldClear, getDeviceByPhone, timerCancel, getNow, readDev, readConst, cacheDevice, connClose,
      delDeviceByPhone, delGeoByPhone. cs.
  - unfold apiList, listDevice. cs.
  - unfold apiGeo, getDeviceByPhone, readDev, getGeoLatestByPhone, getGeoRingByPhone, onRing. cs.
  - unfold apiGetParams, getDeviceByPhone, readConst, apiSession, getSession, readSess, nextSerial. cs. apply constant_send.
  - unfold apiPutParams, getDeviceByPhone, readConst, apiSession, getSession, readSess, nextSerial. cs. apply constant_send.
  - cs.
  - unfold countSession. cs.
Qed.

Lemma W_next Q t u a f (k : st -> sp unit) : W Q anyW t u (Act a f k) -> wi t u -> Forall (owns Q t u) a /\ grows t (f t).
Proof.
  intros H Wi. inversion H as [|? ? ? ? ? W1 _]; subst. destruct (W1 t u Wi (grows_refl t) (sub_refl u)) as (O & _ & G). auto.
Qed.
(** ** Any schedule *)
Section Schedule.
Context (e : env) (gs : list goroutine) (s : st) (ph : str) (i l : nat) (d0 : device).
Context (Hs : sane s) (Ho : own_rings s) (Hp : forall g, In g gs -> placed s g) (Hn : no_later s).
Context (Hl : st_devs s !! l = Some d0) (Hph : d_phone d0 = ph).
Context (Hone : forall j g, nth_error gs j = Some g -> serves_phone e g ph -> j = i).
Lemma prefix_forward a b : never_back e gs s (a ++ b) -> never_back e gs s a.
Proof.
  intros H k. destruct (Nat.le_gt_cases (S k) (length a)) as [Hk|Hk].
  - specialize (H k). rewrite !firstn_app in H. replace (k - length a)%nat with 0%nat in H by lia.
    replace (S k - length a)%nat with 0%nat in H by lia. rewrite !firstn_O, !app_nil_r in H. exact H.
  - rewrite !firstn_all2 by lia. lia.
Qed.
Lemma listens_serves g q : listens g = true -> acts e g q <-> serves_phone e g q.
Proof. destruct g; try discriminate; intros _; reflexivity. Qed.
Lemma one_rises sch : never_back e gs s sch ->
  exists d b, st_devs (snd (running e gs s sch)) !! l = Some d /\ d_phone d = ph /\ d_last d <= b
    /\ (forall g p, nth_error gs i = Some g -> listens g = true -> nth_error (fst (running e gs s sch)) i = Some p -> rising l anyQ b p)
    /\ (forall j g p, nth_error gs j = Some g -> listens g = false -> nth_error (fst (running e gs s sch)) j = Some p -> constant l p)
    /\ forall sch' j, sch = sch' ++ [j] -> forall d', st_devs (snd (running e gs s sch')) !! l = Some d' -> d_last d' <= d_last d.
Proof.
  induction sch as [|j sch IH] using rev_ind; intros Hb.
  - exists d0, (d_last d0). split; [exact Hl|]. split; [exact Hph|]. split; [lia|]. split; [|split].
    + intros g p Hg Hi Hq. unfold running in Hq. cbn [psteps fst] in Hq. rewrite nth_error_map, Hg in Hq. injection Hq as <-.
      apply code_rising, Hi.
    + intros j g p Hg Hi Hq. unfold running in Hq. cbn [psteps fst] in Hq. rewrite nth_error_map, Hg in Hq. injection Hq as <-.
      apply code_constant, Hi.
    + intros sch' j E. destruct sch'; discriminate.
  - pose proof (prefix_forward _ _ Hb) as Hb'. destruct (IH Hb') as (d & b & D1 & D2 & D3 & HR & HC & _). clear IH.
    pose proof (running_no_later e gs s sch Hb' Hn) as Nl.
    pose proof (running_honest e gs s sch) as Ho'.
    assert (Hw : exists u, wi (snd (running e gs s sch)) u /\ forall j p, nth_error (fst (running e gs s sch)) j = Some p ->
      W (nth_acts (acts e) gs j) anyW (snd (running e gs s sch)) u p).
    { destruct (W_steps (nth_acts (acts e) gs) sch (List.map (code e) gs) s _ (wi_start s Hs Ho)) as (u & K1 & _ & K3).
      - intros k p Hk. rewrite nth_error_map in Hk. destruct (nth_error gs k) as [g|] eqn:Eg; [|discriminate]. injection Hk as <-.
        apply W_code; [exact (wi_start s Hs Ho)|apply Hp; eapply nth_error_In; exact Eg|].
        intros q Hq. exists g. auto.
      - exists u. split; [exact K1|exact K3]. }
    destruct Hw as (u & Wi & HW).
    assert (L : length (fst (running e gs s sch)) = length gs) by (unfold running; rewrite psteps_length, map_length; reflexivity).
    rewrite (psteps_snoc (List.map (code e) gs) s sch j : running e gs s (sch ++ [j]) = pstep (fst (running e gs s sch)) (snd (running e gs s sch)) j).
    set (ps := fst (running e gs s sch)) in *. set (t := snd (running e gs s sch)) in *.
    assert (Last : forall d1, d_last d <= d_last d1 -> forall sch' k, sch ++ [j] = sch' ++ [k] -> forall d', st_devs (snd (running e gs s sch')) !! l = Some d' -> d_last d' <= d_last d1).
    { intros d1 Hd1 sch' k E d' H. apply app_inj_tail in E as (<- & _). fold t in H. rewrite D1 in H. injection H as <-. exact Hd1. }
    assert (Ep : nth_error ps j = None \/ exists g q, nth_error gs j = Some g /\ nth_error ps j = Some q).
    { destruct (nth_error ps j) as [q|] eqn:Ej; [right|left; reflexivity]. assert (Hj : (j < length gs)%nat).
      { rewrite <- L. apply nth_error_Some. rewrite Ej. discriminate. }
      apply nth_error_Some in Hj. destruct (nth_error gs j) as [g|] eqn:Eg; [eauto|contradiction]. }
    assert (Same : pstep ps t j = (ps, t) -> exists d1 b1, st_devs (snd (pstep ps t j)) !! l = Some d1 /\ d_phone d1 = ph /\ d_last d1 <= b1
      /\ (forall g p, nth_error gs i = Some g -> listens g = true -> nth_error (fst (pstep ps t j)) i = Some p -> rising l anyQ b1 p)
      /\ (forall j0 g p, nth_error gs j0 = Some g -> listens g = false -> nth_error (fst (pstep ps t j)) j0 = Some p -> constant l p)
      /\ forall sch' k, sch ++ [j] = sch' ++ [k] -> forall d', st_devs (snd (running e gs s sch')) !! l = Some d' -> d_last d' <= d_last d1).
    { intros E. rewrite E. cbn [fst snd]. exists d, b. split; [exact D1|]. split; [exact D2|]. split; [exact D3|].
      split; [exact HR|]. split; [exact HC|]. apply Last. lia. }
    destruct Ep as [Ej|(g & [r|a f k] & Eg & Ej)]; [apply Same; unfold pstep; rewrite Ej; reflexivity..|]. clear Same.
    destruct (W_next _ _ _ _ _ _ (HW j _ Ej) Wi) as (Own & Gr).
    destruct (gr_dev _ _ Gr l d D1) as (dn & Dn & Di). injection Di as _ _ Dp _ _ _ _ _.
    unfold pstep. rewrite Ej. cbn [fst snd].
    assert (HC' : forall j0 g0 p, nth_error gs j0 = Some g0 -> listens g0 = false ->
      nth_error (firstn j ps ++ k t :: skipn (j + 1) ps) j0 = Some p -> constant l p).
    { intros j0 g0 p H0 Hi Hq. rewrite (nth_error_upd ps j j0 (k t) _ Ej) in Hq. destruct (Nat.eqb_spec j j0) as [<-|]; [|eapply HC; eassumption].
      injection Hq as <-. rewrite Eg in H0. injection H0 as <-. apply (proj2 (HC j g _ Eg Hi Ej)). }
    (* the time of the record stays the same unless the goroutine is the one *)
    assert (Quiet : d_last dn = d_last d -> j <> i \/ listens g = false -> exists d1 b1, st_devs (f t) !! l = Some d1 /\ d_phone d1 = ph /\ d_last d1 <= b1
      /\ (forall g p, nth_error gs i = Some g -> listens g = true -> nth_error (firstn j ps ++ k t :: skipn (j + 1) ps) i = Some p -> rising l anyQ b1 p)
      /\ (forall j0 g p, nth_error gs j0 = Some g -> listens g = false -> nth_error (firstn j ps ++ k t :: skipn (j + 1) ps) j0 = Some p -> constant l p)
      /\ forall sch' k, sch ++ [j] = sch' ++ [k] -> forall d', st_devs (snd (running e gs s sch')) !! l = Some d' -> d_last d' <= d_last d1).
    { intros El Hne. exists dn, b. split; [exact Dn|]. split; [rewrite Dp; exact D2|]. split; [rewrite El; exact D3|]. split; [|split; [exact HC'|apply Last; lia]].
      intros g0 p H0 Hi Hq. rewrite (nth_error_upd ps j i (k t) _ Ej) in Hq. destruct (Nat.eqb_spec j i) as [->|]; [|eapply HR; eassumption].
      rewrite Eg in H0. injection H0 as <-. destruct Hne as [Hne|Hne]; [contradiction|congruence]. }
    destruct (listens g) eqn:Lg.
    + destruct (Nat.eq_dec j i) as [->|Hne].
      * pose proof (HR g _ Eg Lg Ej) as R. destruct (R t d D1 D3 Nl) as (d1 & b1 & R1 & R2 & R3). assert (d1 = dn) by congruence. subst d1.
        exists dn, b1. split; [exact Dn|]. split; [rewrite Dp; exact D2|]. split; [apply R2|]. split; [|split; [exact HC'|apply Last, R2]].
        intros g0 p _ _ Hq. rewrite (nth_error_upd ps i i (k t) _ Ej), Nat.eqb_refl in Hq. injection Hq as <-. exact R3.
      * apply Quiet; [|left; exact Hne]. destruct (Ho' j _ Ej (CDev l) Logic.I) as (_ & [Hw|Hk]).
        -- exfalso. destruct Hw as (x & Hx & Hcx & _). rewrite List.Forall_forall in Own. specialize (Own x Hx). unfold owns in Own. rewrite Hcx in Own.
           destruct Own as (d' & Hd' & g' & Eg' & Ha). rewrite Eg in Eg'. injection Eg' as <-. rewrite D1 in Hd'. injection Hd' as <-. rewrite D2 in Ha.
           apply (listens_serves g _ Lg) in Ha. exact (Hne (Hone j g Eg Ha)).
        -- specialize (Hk t (ex_intro _ d D1)). apply (f_equal (fun z => st_devs z !! l)) in Hk. cbn [with_cell] in Hk.
           change (patch with_fields l (st_devs (f t)) (st_devs t) !! l = st_devs t !! l) in Hk. unfold patch in Hk.
           rewrite lookup_alter, D1, Dn in Hk. cbn in Hk. injection Hk as Hk. apply (f_equal d_last) in Hk. exact Hk.
    + apply Quiet; [|right; reflexivity]. destruct (proj1 (HC j g _ Eg Lg Ej) t d D1) as (d1 & E1 & E2). congruence.
Qed.
Lemma one_never_back a b d d' : never_back e gs s (a ++ b) -> st_devs (snd (running e gs s a)) !! l = Some d ->
  st_devs (snd (running e gs s (a ++ b))) !! l = Some d' -> d_last d <= d_last d'.
Proof.
  revert d'. induction b as [|j b IH] using rev_ind; intros d' Hb H H'.
  - rewrite app_nil_r in H'. rewrite H in H'. injection H' as <-. lia.
  - rewrite app_assoc in Hb, H'. destruct (one_rises _ (prefix_forward _ _ Hb)) as (d1 & _ & E1 & _).
    destruct (one_rises _ Hb) as (d2 & _ & E2 & _ & _ & _ & _ & K). rewrite H' in E2. injection E2 as <-.
    specialize (K _ _ eq_refl d1 E1). specialize (IH d1 (prefix_forward _ _ Hb) H E1). lia.
Qed.
End Schedule.
