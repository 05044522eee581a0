(** How far the time of a device's last message can go back (C148) *)
From stdpp Require Import gmap.
From Verif Require Import Base HexM TimeM HeaderM ParamsM GeoM MsgM PacketM FrameM ProgM ProgP RingM StateM ProcM ServerM ConcM
  SpecState SpecReg SpecDates SpecConc SpecOwn StateP ProcP ServerP RegP LifeP RaceP DatesP.
Local Open Scope Z_scope.

Section since.
Context (T : Z) (l0 : nat).
(** the record has no time before [T] *)
Definition from (s : st) : Prop := forall d, st_devs s !! l0 = Some d -> T <= d_last d.
(** run at [T] or later, no action writes a time before [T] *)
Fixpoint late {A} (p : sp A) : Prop :=
  match p with
  | Ret _ => True
  | Act _ f k => forall s, T <= st_clock s -> (from s -> from (f s)) /\ st_clock (f s) = st_clock s /\ late (k s)
  end.
Lemma late_bindR {A B} (p : sp A) : forall (g : res A -> sp B), late p -> (forall r, late (g r)) -> late (pbindR p g).
Proof.
  induction p as [r|a f k IH]; intros g H Hg; cbn [pbindR]; [apply Hg|].
  intros s Hs. destruct (H s Hs) as (H1 & H2 & H3). split; [exact H1|]. split; [exact H2|]. apply IH; assumption.
Qed.
Lemma late_bind {A B} (p : sp A) (g : A -> sp B) : late p -> (forall a, late (g a)) -> late (pbind p g).
Proof. intros H Hg. apply late_bindR; [exact H|]. intros [a|er|]; [apply Hg|exact Logic.I..]. Qed.
Lemma late_now {B} (g : Z -> sp B) : (forall now, T <= now -> late (g now)) -> late (pbind getNow g).
Proof. intros Hg s Hs. split; [exact (fun x => x)|]. split; [reflexivity|]. apply Hg, Hs. Qed.
Lemma late_quiet {A} a f (k : st -> sp A) : (forall s, st_devs (f s) = st_devs s /\ st_clock (f s) = st_clock s) ->
  (forall s, late (k s)) -> late (Act a f k).
Proof.
  intros Hf Hk s Hs. destruct (Hf s) as (F1 & F2). split; [|split; [exact F2|apply Hk]]. unfold from. rewrite F1. exact (fun x => x).
Qed.
Lemma late_zoom {U A} (get : st -> U) put (p : prog U A) :
  (forall t s, st_devs (put t s) = st_devs s /\ st_clock (put t s) = st_clock s) -> late (zoom get put p).
Proof.
  intros Hp. induction p as [r|a f k IH]; cbn [zoom]; [exact Logic.I|].
  apply late_quiet; [intros s; apply Hp|]. intros s. apply IH.
Qed.
Lemma late_write l f : (forall d, T <= d_last d -> T <= d_last (f d)) -> late (writeDev l f).
Proof.
  intros Hf s Hs. split; [|split; [reflexivity|exact Logic.I]]. intros H d' H'. cbn in H'.
  apply lookup_alter_Some in H' as [(-> & d & Hd & ->)|(_ & Hd)]; [apply Hf, H, Hd|exact (H _ Hd)].
Qed.
Lemma late_alloc d : T <= d_last d -> late (allocDev d).
Proof.
  intros Hd s Hs. split; [|split; [reflexivity|exact Logic.I]]. intros H d' H'. cbn in H'.
  apply lookup_insert_Some in H' as [(_ & <-)|(_ & H')]; [exact Hd|exact (H _ H')].
Qed.
End since.

Ltac lt := repeat match goal with
  | |- late _ _ (pbind getNow _) => apply late_now; intros ? ?
  | |- late _ _ (pbind _ _) => apply late_bind; [|intros ?]
  | |- late _ _ (pbindR _ _) => apply late_bindR; [|intros ?]
  | |- late _ _ (ret _) => exact Logic.I
  | |- late _ _ (fail _) => exact Logic.I
  | |- late _ _ panic => exact Logic.I
  | |- late _ _ (lift _) => exact Logic.I
  | |- late _ _ (Ret _) => exact Logic.I
  | |- late _ _ (zoom _ _ _) => apply late_zoom; intros ? ?; split; reflexivity
  | |- late _ _ (writeDev _ _) => apply late_write; intros ? ?; cbn; lia
  | |- late _ _ (allocDev _) => apply late_alloc; cbn; lia
  | |- late _ _ (match ?x with _ => _ end) => destruct x
  | |- late _ _ (rd1 _ _) => apply late_quiet; [intros ?; split; reflexivity|intros ?; exact Logic.I]
  | |- late _ _ (wr1 _ _) => apply late_quiet; [quiet|intros ?; exact Logic.I]
  | |- late _ _ (Act _ _ _) => apply late_quiet; [quiet|intros ?]
  end.
Lemma late_serial T l0 l : late T l0 (nextSerial l).
Proof. unfold nextSerial. lt. Qed.
Lemma late_process T l0 e sl p : late T l0 (process e sl p).
Proof.
  unfold process, processSegment, process8001, process0002, process0003, process0100, process0102, process0200,
    process8100, process8103, process8104, process9205, timerRegister, hasPlate, hasPhone, getDeviceByPlate,
    getDeviceByPhone, getSession, readConst, readDev, cacheDevice, delDeviceByPhone,
    timerRegister, timerCancel, timerAdd, getGeoRingByPhone, onRing,
    getDeviceParamsByPhone, cacheDeviceParams, readSess.
  lt; try apply late_serial.
Qed.
Lemma late_serve T l0 e sl ins : late T l0 (serveLoop e sl ins).
Proof.
  induction ins as [|[r w] t IH]; cbn [serveLoop]; [exact Logic.I|].
  unfold serveOne, remove, lock, unlock, processConnRead, decodeP, cacheSegment, processConnWrite, connSend, connClose, clearSession, readSess.
  lt; first [apply late_process|apply IH|idtac].
Qed.
Lemma late_send T l0 e i m w : late T l0 (serverSend e i m w).
Proof. unfold serverSend, remove, lock, unlock, processConnWrite, connSend, connClose, clearSession, readSess, getSession. lt. Qed.
Lemma late_code T l0 e g : late T l0 (code e g) \/ exists t, code e g = wr1 [] (set_clock t).
Proof.
  destruct g as [k addr ins|sl ins|sl p|ph| |ph|ph w|ph bad ps w|now|]; cbn [code]; [left..|right; eauto|left].
  - unfold opened, connThread, accept, lock, unlock, storeSession. lt. apply late_serve.
  - lt. apply late_serve.
  - lt. apply late_process.
  - unfold checkKeepalive, shouldTurnOffline, shouldClear, getDeviceByPhone, timerCancel, readDev, readConst, cacheDevice, connClose,
      delDeviceByPhone, delGeoByPhone. lt.
  - unfold apiList, listDevice. lt.
  - unfold apiGeo, getDeviceByPhone, readDev, getGeoLatestByPhone, getGeoRingByPhone, onRing. lt.
  - unfold apiGetParams, getDeviceByPhone, readConst, apiSession, getSession, readSess. lt; first [apply late_serial|apply late_send].
  - unfold apiPutParams, getDeviceByPhone, readConst, apiSession, getSession, readSess. lt; first [apply late_serial|apply late_send].
  - unfold countSession. lt.
Qed.
Lemma conc_from T l0 sch : forall ps s,
  (forall j p, nth_error ps j = Some p -> late (A:=unit) T l0 p \/ exists t, p = wr1 [] (set_clock t)) ->
  T <= st_clock s -> from T l0 s ->
  (forall k, st_clock (snd (psteps ps s (firstn k sch))) <= st_clock (snd (psteps ps s (firstn (S k) sch)))) ->
  from T l0 (snd (psteps ps s sch)).
Proof.
  induction sch as [|i sch IH]; intros ps s Hp Ht Hn Hb; [exact Hn|].
  cbn [psteps]. destruct (pstep ps s i) as [ps' s'] eqn:E.
  assert (Hb' : forall k, st_clock (snd (psteps ps' s' (firstn k sch))) <= st_clock (snd (psteps ps' s' (firstn (S k) sch)))).
  { intros k. pose proof (Hb (S k)) as H. cbn [firstn psteps] in H. rewrite E in H. exact H. }
  pose proof (Hb 0%nat) as H0. cbn [firstn psteps] in H0. rewrite E in H0. cbn [snd] in H0.
  unfold pstep in E. destruct (nth_error ps i) as [[r|a f k]|] eqn:Ei.
  - injection E as <- <-. apply IH; assumption.
  - injection E as <- <-. destruct (Hp i _ Ei) as [Hd|(t & Et)].
    + destruct (Hd s Ht) as (H1 & H2 & H3). apply IH; [|lia|exact (H1 Hn)|exact Hb'].
      intros j p Hj. rewrite (nth_error_upd ps i j (k s) _ Ei) in Hj. destruct (Nat.eqb i j).
      * injection Hj as <-. left. exact H3.
      * exact (Hp j p Hj).
    + injection Et as -> -> ->. apply IH; [| |exact Hn|exact Hb'].
      * intros j p Hj. rewrite (nth_error_upd ps i j _ _ Ei) in Hj. destruct (Nat.eqb i j).
        -- injection Hj as <-. left. exact Logic.I.
        -- exact (Hp j p Hj).
      * exact (Z.le_trans _ _ _ Ht H0).
  - injection E as <- <-. apply IH; assumption.
Qed.
Lemma running_from T l0 e gs s sch : never_back e gs s sch -> T <= st_clock s -> from T l0 s -> from T l0 (snd (running e gs s sch)).
Proof.
  intros Hb Ht Hn. unfold running. apply conc_from; [|exact Ht|exact Hn|exact Hb].
  intros j p Hj. apply nth_error_In, in_map_iff in Hj. destruct Hj as (g & <- & _). apply late_code.
Qed.
Lemma since_start e gs s sch l d' : never_back e gs s sch -> no_later s -> st_devs (snd (running e gs s sch)) !! l = Some d' ->
  match st_devs s !! l with Some d => d_last d <= d_last d' | None => st_clock s <= d_last d' end.
Proof.
  intros Hb Hn H. destruct (st_devs s !! l) as [d|] eqn:E.
  - apply (running_from (d_last d) l e gs s sch Hb (Hn l d E)); [|exact H]. intros d1 H1. rewrite E in H1. injection H1 as <-. lia.
  - apply (running_from (st_clock s) l e gs s sch Hb ltac:(lia)); [|exact H]. intros d1 H1. rewrite E in H1. discriminate.
Qed.

(** * The device that a phone leads to *)
Section phone.
Context (T : Z) (ph : str) (O : nat -> Prop).
(** [O]: records of the phone that nothing leads to; nothing will, and the other ones of the phone have no time before [T] *)
Record apart (s : st) : Prop := {
  ap_clock : T <= st_clock s;
  ap_key : forall p l, st_byPhone s !! p = Some l -> exists d, st_devs s !! l = Some d /\ d_phone d = p;
  ap_out : forall p l, st_byPhone s !! p = Some l -> ~ O l;
  ap_there : forall l, O l -> is_Some (st_devs s !! l);
  ap_time : forall l d, st_devs s !! l = Some d -> d_phone d = ph -> ~ O l -> T <= d_last d
}.
Fixpoint clean {A} (P : A -> Prop) (p : sp A) : Prop :=
  match p with
  | Ret r => forall a, r = Ok a -> P a
  | Act _ f k => forall s, apart s -> apart (f s) /\ st_clock (f s) = st_clock s /\ clean P (k s)
  end.
Definition anyC {A} : A -> Prop := fun _ => True.
Definition outside (x : option nat) : Prop := forall l, x = Some l -> ~ O l.
Lemma clean_bindR {A B} P Q (p : sp A) : forall (g : res A -> sp B), clean P p ->
  (forall r, (forall a, r = Ok a -> P a) -> clean Q (g r)) -> clean Q (pbindR p g).
Proof.
  induction p as [r|a f k IH]; intros g H Hg; cbn [pbindR]; [apply Hg, H|].
  intros s Hs. destruct (H s Hs) as (H1 & H2 & H3). split; [exact H1|]. split; [exact H2|]. apply IH; assumption.
Qed.
Lemma clean_bind {A B} P Q (p : sp A) (g : A -> sp B) : clean P p -> (forall a, P a -> clean Q (g a)) -> clean Q (pbind p g).
Proof. intros H Hg. apply (clean_bindR P); [exact H|]. intros [a|er|] K; [apply Hg, K; reflexivity|intros ? ?; discriminate..]. Qed.
Lemma clean_any {A} P (p : sp A) : clean P p -> clean anyC p.
Proof. induction p as [r|a f k IH]; intros H; [intros a _; exact Logic.I|]. intros s Hs. destruct (H s Hs) as (H1 & H2 & H3). auto. Qed.
Lemma clean_anyR {A} (r : res A) : clean anyC (Ret r).
Proof. intros a _. exact Logic.I. Qed.
Lemma clean_now : clean (fun now => T <= now) getNow.
Proof. intros s Hs. split; [exact Hs|]. split; [reflexivity|]. intros a [= <-]. exact (ap_clock s Hs). Qed.
Lemma clean_byPhone q : clean outside (getDeviceByPhone q).
Proof. intros s Hs. split; [exact Hs|]. split; [reflexivity|]. intros a [= <-] l E. exact (ap_out s Hs _ _ E). Qed.
Lemma apart_same s s' : st_devs s' = st_devs s -> st_byPhone s' = st_byPhone s -> st_clock s' = st_clock s -> apart s -> apart s'.
Proof. intros E1 E2 E3 [H1 H2 H3 H4 H5]. constructor; rewrite ?E1, ?E2, ?E3; assumption. Qed.
Lemma clean_quiet {A} P a f (k : st -> sp A) :
  (forall s, st_devs (f s) = st_devs s /\ st_byPhone (f s) = st_byPhone s /\ st_clock (f s) = st_clock s) ->
  (forall s, clean P (k s)) -> clean P (Act a f k).
Proof.
  intros Hf Hk s Hs. destruct (Hf s) as (F1 & F2 & F3). split; [exact (apart_same s _ F1 F2 F3 Hs)|]. split; [exact F3|apply Hk].
Qed.
Lemma clean_zoom {U A} (get : st -> U) put (p : prog U A) :
  (forall t s, st_devs (put t s) = st_devs s /\ st_byPhone (put t s) = st_byPhone s /\ st_clock (put t s) = st_clock s) ->
  clean anyC (zoom get put p).
Proof.
  intros Hp. induction p as [r|a f k IH]; cbn [zoom]; [intros a _; exact Logic.I|].
  apply clean_quiet; [intros s; apply Hp|]. intros s. apply IH.
Qed.
Lemma clean_write l f : (forall d, d_phone (f d) = d_phone d) -> (forall d, T <= d_last d -> T <= d_last (f d)) -> clean anyC (writeDev l f).
Proof.
  intros Hf Hl s [H1 H2 H3 H4 H5]. split; [|split; [reflexivity|intros a _; exact Logic.I]]. constructor; cbn.
  - exact H1.
  - intros p l' E. destruct (H2 _ _ E) as (d & Hd & Ep). destruct (decide (l = l')) as [->|Hne].
    + exists (f d). rewrite lookup_alter, Hd. split; [reflexivity|]. rewrite Hf. exact Ep.
    + exists d. rewrite lookup_alter_ne by exact Hne. auto.
  - exact H3.
  - intros l' K. destruct (decide (l = l')) as [->|Hne].
    + rewrite lookup_alter. destruct (H4 _ K) as (d & ->). eauto.
    + rewrite lookup_alter_ne by exact Hne. exact (H4 _ K).
  - intros l' d' E Ep Ho. apply lookup_alter_Some in E as [(-> & d & Hd & ->)|(_ & Hd)]; [|exact (H5 _ _ Hd Ep Ho)].
    apply Hl. rewrite Hf in Ep. exact (H5 _ _ Hd Ep Ho).
Qed.
Lemma clean_alloc d : T <= d_last d -> clean (fun l => ~ O l) (allocDev d).
Proof.
  intros Hd s [H1 H2 H3 H4 H5].
  assert (F : st_devs s !! fresh (dom (st_devs s)) = None) by (apply not_elem_of_dom, is_fresh).
  split; [|split; [reflexivity|]]. 
  - constructor; cbn.
    + exact H1.
    + intros p l' E. destruct (H2 _ _ E) as (d0 & Hd0 & Ep). exists d0. rewrite lookup_insert_ne; [auto|]. intros K. rewrite K in F. congruence.
    + exact H3.
    + intros l' K. destruct (decide (fresh (dom (st_devs s)) = l')) as [<-|Hne]; [rewrite lookup_insert; eauto|].
      rewrite lookup_insert_ne by exact Hne. exact (H4 _ K).
    + intros l' d' E Ep Ho. apply lookup_insert_Some in E as [(_ & <-)|(_ & E)]; [exact Hd|exact (H5 _ _ E Ep Ho)].
  - intros l [= <-] K. destruct (H4 _ K) as (x & Hx). rewrite F in Hx. discriminate.
Qed.
Lemma clean_cache l : ~ O l -> clean anyC (cacheDevice l).
Proof.
  intros Hl s Hs. destruct Hs as [H1 H2 H3 H4 H5]. cbn. destruct (st_devs s !! l) as [d|] eqn:E.
  - split; [|split; [reflexivity|intros a _; exact Logic.I]]. constructor; cbn; try assumption.
    + intros p l' K. apply lookup_insert_Some in K as [(<- & <-)|(_ & K)]; [eauto|exact (H2 _ _ K)].
    + intros p l' K. apply lookup_insert_Some in K as [(<- & <-)|(_ & K)]; [exact Hl|exact (H3 _ _ K)].
  - split; [constructor; assumption|]. split; [reflexivity|intros a _; exact Logic.I].
Qed.
Lemma clean_del q : clean anyC (delDeviceByPhone q).
Proof.
  intros s Hs. destruct Hs as [H1 H2 H3 H4 H5]. cbn. destruct (st_byPhone s !! q) as [l|]; [destruct (st_devs s !! l) as [d|]|];
    (split; [|split; [reflexivity|intros a _; exact Logic.I]]); try (constructor; assumption).
  constructor; cbn; try assumption.
  - intros p l' K. apply lookup_delete_Some in K as (_ & K). exact (H2 _ _ K).
  - intros p l' K. apply lookup_delete_Some in K as (_ & K). exact (H3 _ _ K).
Qed.
End phone.
Ltac quiet3 := intros ?s; repeat match goal with |- context [match ?x with _ => _ end] => destruct x end; repeat split; reflexivity.
Ltac ct := repeat match goal with
  | |- clean _ _ _ _ (pbind getNow _) => eapply clean_bind; [apply clean_now|let H := fresh in intros ? H; cbv beta in H]
  | |- clean _ _ _ _ (pbind (getDeviceByPhone _) _) => eapply clean_bind; [apply clean_byPhone|intros ? ?]
  | |- clean _ _ _ _ (pbind (allocDev _) _) => eapply clean_bind; [apply clean_alloc; cbn; lia|let H := fresh in intros ? H; cbv beta in H]
  | |- clean _ _ _ _ (pbind _ _) => apply (clean_bind _ _ _ anyC); [|intros ? _]
  | |- clean _ _ _ _ (pbindR _ _) => apply (clean_bindR _ _ _ anyC); [|intros ? _]
  | |- clean _ _ _ anyC (ret _) => apply clean_anyR
  | |- clean _ _ _ anyC (fail _) => apply clean_anyR
  | |- clean _ _ _ anyC panic => apply clean_anyR
  | |- clean _ _ _ anyC (lift _) => apply clean_anyR
  | |- clean _ _ _ anyC (Ret _) => apply clean_anyR
  | |- clean _ _ _ _ (zoom _ _ _) => apply clean_zoom; intros ? ?; split; [reflexivity|split; reflexivity]
  | |- clean _ _ _ _ (writeDev _ _) => apply clean_write; [reflexivity|intros ? ?; cbn; lia]
  | H : outside _ (Some ?l) |- clean _ _ _ _ (cacheDevice ?l) => apply clean_cache, (H l eq_refl)
  | |- clean _ _ _ _ (cacheDevice _) => apply clean_cache; assumption
  | |- clean _ _ _ _ (delDeviceByPhone _) => apply clean_del
  | |- clean _ _ _ _ (match ?x with _ => _ end) => destruct x
  | |- clean _ _ _ _ (rd1 _ _) => apply clean_quiet; [intros ?; split; [reflexivity|split; reflexivity]|intros ?; apply clean_anyR]
  | |- clean _ _ _ _ (wr1 _ _) => apply clean_quiet; [quiet3|intros ?; apply clean_anyR]
  | |- clean _ _ _ _ (Act _ _ _) => apply clean_quiet; [quiet3|intros ?]
  end.
Section phone_code.
Context (T : Z) (ph : str) (O : nat -> Prop).
Notation cl := (clean T ph O anyC).
Lemma clean_serial l : cl (nextSerial l).
Proof. unfold nextSerial. ct. Qed.
Lemma clean_process e sl p : cl (process e sl p).
Proof.
  unfold process, processSegment, process8001, process0002, process0003, process0100, process0102, process0200,
    process8100, process8103, process8104, process9205, timerRegister, hasPlate, hasPhone, getDeviceByPlate,
    getSession, readConst, readDev, timerRegister, timerCancel, timerAdd, getGeoRingByPhone, onRing,
    getDeviceParamsByPhone, cacheDeviceParams, readSess.
  ct; try apply clean_serial.
Qed.
Lemma clean_serve e sl ins : cl (serveLoop e sl ins).
Proof.
  induction ins as [|[r w] t IH]; cbn [serveLoop]; [apply clean_anyR|].
  unfold serveOne, remove, lock, unlock, processConnRead, decodeP, cacheSegment, processConnWrite, connSend, connClose, clearSession, readSess.
  ct; first [apply clean_process|apply IH|idtac].
Qed.
Lemma clean_send e i m w : cl (serverSend e i m w).
Proof. unfold serverSend, remove, lock, unlock, processConnWrite, connSend, connClose, clearSession, readSess, getSession. ct. Qed.
Lemma clean_code e g : cl (code e g) \/ exists t, code e g = wr1 [] (set_clock t).
Proof.
  destruct g as [k addr ins|sl ins|sl p|q| |q|q w|q bad ps w|now|]; cbn [code]; [left..|right; eauto|left].
  - unfold opened, connThread, accept, lock, unlock, storeSession. ct. apply clean_serve.
  - ct. apply clean_serve.
  - ct. apply clean_process.
  - unfold checkKeepalive, shouldTurnOffline, shouldClear, timerCancel, readDev, readConst, connClose, delGeoByPhone. ct.
  - unfold apiList, listDevice. ct.
  - unfold apiGeo, readDev, getGeoLatestByPhone, getGeoRingByPhone, onRing. ct.
  - unfold apiGetParams, readConst, apiSession, getSession, readSess. ct; first [apply clean_serial|apply clean_send].
  - unfold apiPutParams, readConst, apiSession, getSession, readSess. ct; first [apply clean_serial|apply clean_send].
  - unfold countSession. ct.
Qed.
Lemma conc_apart sch : forall ps s,
  (forall j p, nth_error ps j = Some p -> clean (A:=unit) T ph O anyC p \/ exists t, p = wr1 [] (set_clock t)) -> apart T ph O s ->
  (forall k, st_clock (snd (psteps ps s (firstn k sch))) <= st_clock (snd (psteps ps s (firstn (S k) sch)))) ->
  apart T ph O (snd (psteps ps s sch)).
Proof.
  induction sch as [|i sch IH]; intros ps s Hp Hn Hb; [exact Hn|].
  cbn [psteps]. destruct (pstep ps s i) as [ps' s'] eqn:E.
  assert (Hb' : forall k, st_clock (snd (psteps ps' s' (firstn k sch))) <= st_clock (snd (psteps ps' s' (firstn (S k) sch)))).
  { intros k. pose proof (Hb (S k)) as H. cbn [firstn psteps] in H. rewrite E in H. exact H. }
  pose proof (Hb 0%nat) as H0. cbn [firstn psteps] in H0. rewrite E in H0. cbn [snd] in H0.
  unfold pstep in E. destruct (nth_error ps i) as [[r|a f k]|] eqn:Ei.
  - injection E as <- <-. apply IH; assumption.
  - injection E as <- <-. destruct (Hp i _ Ei) as [Hd|(t & Et)].
    + destruct (Hd s Hn) as (H1 & H2 & H3). apply IH; [|exact H1|exact Hb'].
      intros j p Hj. rewrite (nth_error_upd ps i j (k s) _ Ei) in Hj. destruct (Nat.eqb i j).
      * injection Hj as <-. left. exact H3.
      * exact (Hp j p Hj).
    + injection Et as -> -> ->. apply IH; [| |exact Hb'].
      * intros j p Hj. rewrite (nth_error_upd ps i j _ _ Ei) in Hj. destruct (Nat.eqb i j).
        -- injection Hj as <-. left. apply clean_anyR.
        -- exact (Hp j p Hj).
      * destruct Hn as [N1 N2 N3 N4 N5]. constructor; [exact (Z.le_trans _ _ _ N1 H0)|assumption..].
  - injection E as <- <-. apply IH; assumption.
Qed.
End phone_code.
Lemma since_start_phone e gs s sch ph d' : sane s -> never_back e gs s sch -> no_later s -> devAt (snd (running e gs s sch)) ph = Some d' ->
  match devAt s ph with Some d => d_last d <= d_last d' | None => st_clock s <= d_last d' end.
Proof.
  intros Hs Hb Hn H. set (T := match devAt s ph with Some d => d_last d | None => st_clock s end).
  assert (G : T <= d_last d'); [|unfold T in G; destruct (devAt s ph); exact G].
  set (O := fun l => (exists d, st_devs s !! l = Some d /\ d_phone d = ph) /\ st_byPhone s !! ph <> Some l).
  assert (A : apart T ph O (snd (running e gs s sch))).
  { unfold running. apply conc_apart; [| |exact Hb].
    - intros j p Hj. apply nth_error_In, in_map_iff in Hj. destruct Hj as (g & <- & _). apply clean_code.
    - constructor.
      + unfold T. destruct (devAt s ph) as [d|] eqn:E; [|lia]. unfold devAt in E. destruct (st_byPhone s !! ph) as [l|]; [|discriminate].
        exact (Hn _ _ E).
      + exact (sn_phone s Hs).
      + intros p l E ((d & Hd & Ep) & K). destruct (sn_phone s Hs _ _ E) as (d1 & Hd1 & Ep1). apply K. congruence.
      + intros l ((d & Hd & _) & _). eauto.
      + intros l d Hd Ep K. destruct (decide (st_byPhone s !! ph = Some l)) as [E|E].
        * unfold T, devAt. rewrite E, Hd. lia.
        * exfalso. apply K. split; [eauto|exact E]. }
  unfold devAt in H. destruct (st_byPhone (snd (running e gs s sch)) !! ph) as [l|] eqn:E; [|discriminate].
  destruct (ap_key _ _ _ _ A _ _ E) as (d1 & Hd1 & Ep). rewrite H in Hd1. injection Hd1 as <-.
  exact (ap_time _ _ _ _ A _ _ H Ep (ap_out _ _ _ _ A _ _ E)).
Qed.
