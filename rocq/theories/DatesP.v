(** The time of a device's last message (C148) *)
From stdpp Require Import gmap.
From Verif Require Import Base HexM TimeM HeaderM ParamsM GeoM MsgM PacketM FrameM ProgM ProgP RingM StateM ProcM ServerM ConcM
  SpecState SpecReg SpecDates StateP ProcP ServerP RegP LifeP RaceP.
Local Open Scope Z_scope.

(** started at the time [c] or later, every action leaves the clock alone and writes no time later than the clock *)
Fixpoint dated {A} (c : Z) (p : sp A) : Prop :=
  match p with
  | Ret _ => True
  | Act _ f k => forall s, c <= st_clock s -> no_later s ->
      no_later (f s) /\ st_clock (f s) = st_clock s /\ dated (st_clock s) (k s)
  end.
Lemma dated_mono {A} (p : sp A) : forall c c', dated c p -> c <= c' -> dated c' p.
Proof. destruct p as [r|a f k]; intros c c' H Hc; [exact Logic.I|]. intros s Hs. apply H. lia. Qed.
Lemma dated_bindR {A B} (p : sp A) : forall c (g : res A -> sp B), dated c p ->
  (forall c' r, c <= c' -> dated c' (g r)) -> dated c (pbindR p g).
Proof.
  induction p as [r|a f k IH]; intros c g H Hg; cbn [pbindR]; [apply Hg; lia|].
  intros s Hs Hn. destruct (H s Hs Hn) as (H1 & H2 & H3). split; [exact H1|]. split; [exact H2|].
  apply IH; [exact H3|]. intros c' r Hc. apply Hg. lia.
Qed.
Lemma dated_bind {A B} (p : sp A) c (g : A -> sp B) : dated c p ->
  (forall c' a, c <= c' -> dated c' (g a)) -> dated c (pbind p g).
Proof. intros H Hg. apply dated_bindR; [exact H|]. intros c' [a|er|] Hc; [apply Hg, Hc|exact Logic.I..]. Qed.
(** the time that is read is not later than the clock afterwards *)
Lemma dated_now {B} c (g : Z -> sp B) : (forall now, c <= now -> dated now (g now)) -> dated c (pbind getNow g).
Proof. intros Hg s Hs Hn. split; [exact Hn|]. split; [reflexivity|]. apply Hg, Hs. Qed.
Lemma dated_quiet {A} c a f (k : st -> sp A) : (forall s, st_devs (f s) = st_devs s /\ st_clock (f s) = st_clock s) ->
  (forall s c', c <= c' -> dated c' (k s)) -> dated c (Act a f k).
Proof.
  intros Hf Hk s Hs Hn. destruct (Hf s) as (F1 & F2). split; [|split; [exact F2|apply Hk, Hs]].
  intros l d. rewrite F1, F2. apply Hn.
Qed.
Lemma dated_zoom {T A} (get : st -> T) put (p : prog T A) :
  (forall t s, st_devs (put t s) = st_devs s /\ st_clock (put t s) = st_clock s) -> forall c, dated c (zoom get put p).
Proof.
  intros Hp. induction p as [r|a f k IH]; intros c; cbn [zoom]; [exact Logic.I|].
  apply dated_quiet; [intros s; apply Hp|]. intros s c' _. apply IH.
Qed.
Lemma dated_write c l f : (forall m d, c <= m -> d_last d <= m -> d_last (f d) <= m) -> dated c (writeDev l f).
Proof.
  intros Hf s Hs Hn. split; [|split; [reflexivity|exact Logic.I]]. intros l' d' H. cbn in H |- *.
  apply lookup_alter_Some in H as [(-> & d & Hd & ->)|(_ & Hd)]; [apply Hf; [exact Hs|]; exact (Hn _ _ Hd)|exact (Hn _ _ Hd)].
Qed.
Lemma dated_alloc c d : d_last d <= c -> dated c (allocDev d).
Proof.
  intros Hd s Hs Hn. split; [|split; [reflexivity|exact Logic.I]]. intros l' d' H. cbn in H |- *.
  apply lookup_insert_Some in H as [(_ & <-)|(_ & H)]; [lia|exact (Hn _ _ H)].
Qed.

Ltac quiet := intros ?s; repeat match goal with |- context [match ?x with _ => _ end] => destruct x end; split; reflexivity.
Ltac dt := repeat match goal with
  | |- dated _ (pbind getNow _) => apply dated_now; intros ? ?
  | |- dated _ (pbind _ _) => apply dated_bind; [|intros ? ? ?]
  | |- dated _ (pbindR _ _) => apply dated_bindR; [|intros ? ? ?]
  | |- dated _ (ret _) => exact Logic.I
  | |- dated _ (fail _) => exact Logic.I
  | |- dated _ panic => exact Logic.I
  | |- dated _ (lift _) => exact Logic.I
  | |- dated _ (Ret _) => exact Logic.I
  | |- dated _ (zoom _ _ _) => apply dated_zoom; intros ? ?; split; reflexivity
  | |- dated _ (writeDev _ _) => apply dated_write; intros ? ? ? ?; cbn; lia
  | |- dated _ (allocDev _) => apply dated_alloc; cbn; lia
  | |- dated _ (match ?x with _ => _ end) => destruct x
  | |- dated _ (rd1 _ _) => apply dated_quiet; [intros ?; split; reflexivity|intros ? ? ?; exact Logic.I]
  | |- dated _ (wr1 _ _) => apply dated_quiet; [quiet|intros ? ? ?; exact Logic.I]
  | |- dated _ (Act _ _ _) => apply dated_quiet; [quiet|intros ? ? ?]
  end.
Lemma dated_serial c l : dated c (nextSerial l).
Proof. unfold nextSerial. dt. Qed.
Lemma dated_process e sl p c : dated c (process e sl p).
Proof.
  unfold process, processSegment, process8001, process0002, process0003, process0100, process0102, process0200,
    process8100, process8103, process8104, process9205, timerRegister, hasPlate, hasPhone, getDeviceByPlate,
    getDeviceByPhone, getSession, readConst, readDev, cacheDevice, delDeviceByPhone,
    timerRegister, timerCancel, timerAdd, getGeoRingByPhone, onRing,
    getDeviceParamsByPhone, cacheDeviceParams, readSess.
  dt; try apply dated_serial.
Qed.
Lemma dated_serve e sl ins : forall c, dated c (serveLoop e sl ins).
Proof.
  induction ins as [|[r w] t IH]; intros c; cbn [serveLoop]; [exact Logic.I|].
  unfold serveOne, remove, lock, unlock, processConnRead, decodeP, cacheSegment, processConnWrite, connSend, connClose, clearSession, readSess.
  dt; first [apply dated_process|apply IH|idtac].
Qed.
Lemma dated_send e i m w c : dated c (serverSend e i m w).
Proof. unfold serverSend, remove, lock, unlock, processConnWrite, connSend, connClose, clearSession, readSess, getSession. dt. Qed.
Lemma dated_accept k addr c : dated c (accept k addr).
Proof. unfold accept, lock, unlock, storeSession. dt. Qed.
Lemma dated_check ph c : dated c (checkKeepalive ph).
Proof.
  unfold checkKeepalive, shouldTurnOffline, shouldClear, getDeviceByPhone, timerCancel, readDev, readConst, cacheDevice, connClose,
      delDeviceByPhone, delGeoByPhone. dt.
Qed.
Lemma dated_geo ph c : dated c (apiGeo ph).
Proof. unfold apiGeo, getDeviceByPhone, readDev, getGeoLatestByPhone, getGeoRingByPhone, onRing. dt. Qed.
Lemma dated_get e ph w c : dated c (apiGetParams e ph w).
Proof. unfold apiGetParams, getDeviceByPhone, readConst, apiSession, getSession, readSess. dt; first [apply dated_serial|apply dated_send]. Qed.
Lemma dated_put e ph bad ps w c : dated c (apiPutParams e ph bad ps w).
Proof. unfold apiPutParams, getDeviceByPhone, readConst, apiSession, getSession, readSess. dt; first [apply dated_serial|apply dated_send]. Qed.
Lemma dated_code e g c : dated c (code e g) \/ exists t, code e g = wr1 [] (set_clock t).
Proof.
  destruct g as [k addr ins|sl ins|sl p|ph| |ph|ph w|ph bad ps w|now|]; cbn [code]; [left..|right; eauto|left].
  - unfold opened, connThread. dt; [apply dated_accept|apply dated_serve].
  - dt. apply dated_serve.
  - dt. apply dated_process.
  - apply dated_check.
  - unfold apiList, listDevice. dt.
  - dt. apply dated_geo.
  - dt. apply dated_get.
  - dt. apply dated_put.
  - unfold countSession. dt.
Qed.

(** * Alone *)
Lemma run_dated {A} (p : sp A) : forall c s, dated c p -> c <= st_clock s -> no_later s ->
  no_later (snd (run p s)) /\ st_clock (snd (run p s)) = st_clock s.
Proof.
  induction p as [r|a f k IH]; intros c s H Hs Hn; cbn [run]; [split; [exact Hn|reflexivity]|].
  destruct (H s Hs Hn) as (H1 & H2 & H3). rewrite <- H2. apply (IH s (st_clock s)); [exact H3|lia|exact H1].
Qed.
Lemma step_no_later e w ev : no_later (w_st w) -> (forall t, ev = EClock t -> st_clock (w_st w) <= t) ->
  no_later (w_st (step e w ev)).
Proof.
  intros Hn Hf. unfold step. destruct (w_dead w); [exact Hn|]. set (s := w_st w) in *.
  assert (R : forall A (p : sp A) s0, (forall c, dated c p) -> no_later s0 -> no_later (snd (run p s0))).
  { intros A p s0 Hp H. apply (run_dated p (st_clock s0)); [apply Hp|lia|exact H]. }
  destruct ev as [c addr|sl r x|p| |p|p x|p bad ps x|t].
  - destruct (st_conns s !! c); [exact Hn|].
    pose proof (R _ (accept c addr) (set_conns (<[c:=mkConn true []]>) s) (fun c' => dated_accept c addr c') Hn) as H.
    destruct (run _ _) as [[a|er|] s']; exact H.
  - case_bool_decide; [|exact Hn]. pose proof (R _ (serveLoop e sl [(r, x)]) s (dated_serve e sl _) Hn) as H'.
    destruct (run _ _) as [[[|]|er|] s']; exact H'.
  - case_bool_decide; [|exact Hn]. pose proof (R _ (checkKeepalive p) s (dated_check p) Hn) as H'.
    destruct (run _ _) as [[a|er|] s']; exact H'.
  - exact Hn.
  - apply R; [apply dated_geo|exact Hn].
  - apply R; [apply dated_get|exact Hn].
  - apply R; [apply dated_put|exact Hn].
  - intros l d Hd. specialize (Hf t eq_refl). specialize (Hn l d Hd). cbn. lia.
Qed.
Lemma history_snoc e now evs ev : history e now (evs ++ [ev]) = step e (history e now evs) ev.
Proof. unfold history. rewrite fold_left_app. reflexivity. Qed.
Lemma world_forward e evs' : forall evs now, let w := history e now evs in
  forward (st_clock (w_st w)) evs' -> no_later (w_st w) ->
  no_later (w_st (history e now (evs ++ evs'))) /\ st_clock (w_st w) <= st_clock (w_st (history e now (evs ++ evs'))).
Proof.
  induction evs' as [|ev evs' IH]; intros evs now w Hf Hn; [rewrite app_nil_r; fold w; split; [exact Hn|lia]|].
  assert (Hc : st_clock (w_st (history e now (evs ++ [ev]))) = match ev with EClock t => t | _ => st_clock (w_st w) end).
  { rewrite history_snoc. apply (step_clock e _ ev (history_ok e now evs)). }
  assert (H : st_clock (w_st w) <= st_clock (w_st (history e now (evs ++ [ev])))
              /\ forward (st_clock (w_st (history e now (evs ++ [ev])))) evs' /\ forall t, ev = EClock t -> st_clock (w_st w) <= t).
  { rewrite Hc. destruct ev; cbn [forward] in Hf; try (split; [lia|split; [exact Hf|discriminate]]).
    split; [lia|]. split; [apply Hf|]. intros u [= <-]. lia. }
  destruct H as (H1 & H2 & H3). destruct (IH (evs ++ [ev]) now H2) as (I1 & I2).
  { rewrite history_snoc. apply step_no_later; assumption. }
  rewrite <- app_assoc in I1, I2. cbn [app] in I1, I2. split; [exact I1|lia].
Qed.
Lemma start_no_later e now : no_later (w_st (history e now [])).
Proof. intros l d H. cbn in H. rewrite lookup_empty in H. discriminate. Qed.
Lemma start_clock e now : st_clock (w_st (history e now [])) = now.
Proof. reflexivity. Qed.
Lemma never_later e now evs : forward now evs -> no_later (w_st (history e now evs)).
Proof. intros H. apply (world_forward e evs [] now); [exact H|apply start_no_later]. Qed.

(** the device of a phone is not older than before, even when it has registered anew *)
Lemma step_since e now evs ev ph t : let w := history e now evs in
  t <= st_clock (w_st w) -> (forall d, devAt (w_st w) ph = Some d -> t <= d_last d) ->
  forall d, devAt (w_st (step e w ev)) ph = Some d -> t <= d_last d.
Proof.
  intros w Ht Hd d H. pose proof (event_dev e now evs ev ph) as V. cbv zeta in V. fold w in V.
  destruct V as [E|[(_ & d1 & E1 & _ & E)|(sl & frm & wr & x & h & b & -> & _ & _ & Er & M)]].
  - rewrite E in H. exact (Hd d H).
  - rewrite E in H. destruct (d_status d1 =? Offline)%N; [discriminate|]. injection H as <-. exact (Hd d1 E1).
  - rewrite H in M. destruct M as [E|(_ & [E|[(d1 & st & E1 & E & _)|[(d1 & al & c & i & v & E1 & _ & _ & E)|(r & E1 & _ & E)]]])].
    + apply Hd. symmetry. exact E.
    + discriminate.
    + injection E as ->. exact Ht.
    + injection E as ->. exact Ht.
    + injection E as ->. exact Ht.
Qed.
Lemma since e evs' : forall evs now ph t, let w := history e now evs in
  forward (st_clock (w_st w)) evs' -> t <= st_clock (w_st w) -> (forall d, devAt (w_st w) ph = Some d -> t <= d_last d) ->
  forall d, devAt (w_st (history e now (evs ++ evs'))) ph = Some d -> t <= d_last d.
Proof.
  induction evs' as [|ev evs' IH]; intros evs now ph t w Hf Ht Hd; [rewrite app_nil_r; exact Hd|].
  assert (Hc : st_clock (w_st (history e now (evs ++ [ev]))) = match ev with EClock t => t | _ => st_clock (w_st w) end).
  { rewrite history_snoc. apply (step_clock e _ ev (history_ok e now evs)). }
  assert (H : st_clock (w_st w) <= st_clock (w_st (history e now (evs ++ [ev])))
              /\ forward (st_clock (w_st (history e now (evs ++ [ev])))) evs').
  { rewrite Hc. destruct ev; cbn [forward] in Hf; try (split; [lia|exact Hf]). split; apply Hf. }
  destruct H as (H1 & H2). intros d H. replace (evs ++ ev :: evs') with ((evs ++ [ev]) ++ evs') in H by (rewrite <- app_assoc; reflexivity).
  apply (IH (evs ++ [ev]) now ph t H2); [lia| |exact H]. rewrite history_snoc. apply step_since; assumption.
Qed.
Lemma forward_app a b : forall t, forward t (a ++ b) -> forward t a.
Proof. induction a as [|ev a IH]; intros t H; [exact Logic.I|]. destruct ev; cbn in *; try (apply IH; exact H). split; [apply H|apply IH, H]. Qed.
Lemma forward_rest e b : forall a now (x := history e now), forall evs, forward (st_clock (w_st (history e now evs))) (a ++ b) ->
  forward (st_clock (w_st (history e now (evs ++ a)))) b.
Proof.
  intros a now x. clear x. induction a as [|ev a IH]; intros evs H; [rewrite app_nil_r; exact H|].
  replace (evs ++ ev :: a) with ((evs ++ [ev]) ++ a) by (rewrite <- app_assoc; reflexivity). apply IH.
  rewrite history_snoc, (step_clock e _ ev (history_ok e now evs)). destruct ev; cbn in *; try exact H. apply H.
Qed.
Lemma never_goes_back e now evs evs' ph d d' : forward now (evs ++ evs') -> devAt (w_st (history e now evs)) ph = Some d ->
  devAt (w_st (history e now (evs ++ evs'))) ph = Some d' -> d_last d <= d_last d'.
Proof.
  intros Hf H H'. pose proof (never_later e now evs (forward_app _ _ _ Hf)) as Hn.
  pose proof (forward_rest e evs' evs now [] Hf) as Hr. cbn [app] in Hr.
  apply (since e evs' evs now ph (d_last d) Hr).
  - unfold devAt in H. destruct (st_byPhone _ !! ph) as [l|] eqn:El; [|discriminate]. exact (Hn l d H).
  - intros d0 H0. rewrite H in H0. injection H0 as <-. lia.
  - exact H'.
Qed.

(** * Under any schedule *)
Lemma conc_no_later sch : forall ps s,
  (forall j p, nth_error ps j = Some p -> dated (A:=unit) (st_clock s) p \/ exists t, p = wr1 [] (set_clock t)) ->
  no_later s -> (forall k, st_clock (snd (psteps ps s (firstn k sch))) <= st_clock (snd (psteps ps s (firstn (S k) sch)))) ->
  no_later (snd (psteps ps s sch)).
Proof.
  induction sch as [|i sch IH]; intros ps s Hp Hn Hb; [exact Hn|].
  cbn [psteps]. destruct (pstep ps s i) as [ps' s'] eqn:E.
  assert (Hb' : forall k, st_clock (snd (psteps ps' s' (firstn k sch))) <= st_clock (snd (psteps ps' s' (firstn (S k) sch)))).
  { intros k. pose proof (Hb (S k)) as H. cbn [firstn psteps] in H. rewrite E in H. exact H. }
  pose proof (Hb 0%nat) as H0. cbn [firstn psteps] in H0. rewrite E in H0. cbn [snd] in H0.
  unfold pstep in E. destruct (nth_error ps i) as [[r|a f k]|] eqn:Ei.
  - injection E as <- <-. apply IH; assumption.
  - injection E as <- <-. destruct (Hp i _ Ei) as [Hd|(t & Et)].
    + destruct (Hd s ltac:(lia) Hn) as (H1 & H2 & H3). apply IH; [|exact H1|exact Hb'].
      intros j p Hj. rewrite (nth_error_upd ps i j (k s) _ Ei) in Hj. rewrite H2. destruct (Nat.eqb i j).
      * injection Hj as <-. left. exact H3.
      * exact (Hp j p Hj).
    + injection Et as -> -> ->. apply IH; [| |exact Hb'].
      * intros j p Hj. rewrite (nth_error_upd ps i j _ _ Ei) in Hj. destruct (Nat.eqb i j).
        -- injection Hj as <-. left. exact Logic.I.
        -- destruct (Hp j p Hj) as [Hd|Ht]; [left; exact (dated_mono _ _ _ Hd H0)|right; exact Ht].
      * intros l d Hd. specialize (Hn l d Hd). change (d_last d <= t). change (st_clock s <= t) in H0. change (d_last d <= st_clock s) in Hn. lia.
  - injection E as <- <-. apply IH; assumption.
Qed.
Lemma running_no_later e gs s sch : never_back e gs s sch -> no_later s -> no_later (snd (running e gs s sch)).
Proof.
  intros Hb Hn. unfold running. apply conc_no_later; [|exact Hn|exact Hb].
  intros j p Hj. apply nth_error_In, in_map_iff in Hj. destruct Hj as (g & <- & _). apply dated_code.
Qed.
(** goroutines among which the clock is only ever set to [t] do not put it back *)
Lemma clock_to t sch : forall ps s,
  (forall j p, nth_error ps j = Some p -> dated (A:=unit) (st_clock s) p \/ p = wr1 [] (set_clock t)) ->
  no_later s -> st_clock s <= t ->
  forall k, st_clock (snd (psteps ps s (firstn k sch))) <= st_clock (snd (psteps ps s (firstn (S k) sch))).
Proof.
  induction sch as [|i sch IH]; intros ps s Hp Hn Ht k; [rewrite !firstn_nil; lia|].
  assert (H : let '(ps', s') := pstep ps s i in
    (forall j p, nth_error ps' j = Some p -> dated (A:=unit) (st_clock s') p \/ p = wr1 [] (set_clock t)) /\ no_later s'
    /\ st_clock s <= st_clock s' <= t).
  { unfold pstep. destruct (nth_error ps i) as [[r|a f c]|] eqn:Ei; [split; [exact Hp|split; [exact Hn|lia]]| |split; [exact Hp|split; [exact Hn|lia]]].
    destruct (Hp i _ Ei) as [Hd|Et].
    - destruct (Hd s ltac:(lia) Hn) as (H1 & H2 & H3). rewrite H2. split; [|split; [exact H1|lia]].
      intros j p Hj. rewrite (nth_error_upd ps i j (c s) _ Ei) in Hj. destruct (Nat.eqb i j); [|exact (Hp j p Hj)].
      injection Hj as <-. left. exact H3.
    - injection Et as -> -> ->. change (st_clock (set_clock t s)) with t. split; [|split; [|lia]].
      + intros j p Hj. rewrite (nth_error_upd ps i j _ _ Ei) in Hj. destruct (Nat.eqb i j).
        * injection Hj as <-. left. exact Logic.I.
        * destruct (Hp j p Hj) as [Hd|E]; [left; exact (dated_mono _ _ _ Hd Ht)|right; exact E].
      + intros l d Hd. specialize (Hn l d Hd). change (d_last d <= t). change (d_last d <= st_clock s) in Hn. lia. }
  destruct (pstep ps s i) as [ps' s'] eqn:E. destruct H as (H1 & H2 & H3).
  destruct k as [|k]; cbn [firstn psteps]; rewrite E; [exact (proj1 H3)|]. apply IH; [exact H1|exact H2|exact (proj2 H3)].
Qed.
