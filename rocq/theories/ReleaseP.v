(** Silent devices over whole histories, and data that is never released (C56, C114) *)
From stdpp Require Import gmap.
From Verif Require Import Base HexM TimeM HashM HeaderM ParamsM GeoM MsgM PacketM FrameM ProgM RingM SpecRing
  StateM ProcM ServerM ConcM SpecState SpecCodec SpecReg SpecRelease ProgP StateP ProcP ServerP EffectP CmdP RegP LifeP.
Local Open Scope N_scope.

Lemma quiet_step e now evs ev ph : let w := history e now evs in ~ speaks e ph w ev ->
  devAt (w_st (step e w ev)) ph =
  match devAt (w_st w) ph with
  | Some d => if match ev with
                 | ETick q => if decide (q = ph) then (d_last d + d_keep d <? st_clock (w_st w))%Z else false
                 | _ => false end
              then if d_status d =? Offline then None else Some (with_status d Offline)
              else Some d
  | None => None
  end.
Proof.
  intros w Hn. pose proof (history_ok e now evs) as W. fold w in W. pose proof (refinement e now evs) as R. fold w in R.
  pose proof (step_shows e w ev _ W R) as R'. set (pl := follow e (world0 now) evs no_data) in *.
  pose proof (shows_keyed _ pl (wo_ok _ W) R) as K. rewrite (proj1 (R' ph)).
  assert (Hsame : pf_dev pl !! ph = match devAt (w_st w) ph with Some d => Some d | None => None end)
    by (rewrite (proj1 (R ph)); destruct (pf_dev pl !! ph); reflexivity).
  destruct ev as [c addr|sl [frm|er|] x|p| |p|p x|p bad ps x|t]; cbn [advance]; try exact Hsame.
  - case_bool_decide as Hl; [|exact Hsame]. destruct (st_sess (w_st w) !! sl) as [y|]; [|exact Hsame].
    destruct (received e (w_st w) frm) as [[h b]|] eqn:Hr; [|exact Hsame].
    destruct (handle_dev (builtin e) (ss_id y) (ss_conn y) (st_clock (w_st w)) (e_civil e (st_clock (w_st w))) h b pl ph K) as [E|(Hh & _)].
    + rewrite E. exact Hsame.
    + destruct Hn. exists sl, frm, x, h, b. auto.
  - unfold check. destruct (decide (p = ph)) as [->|Hne].
    + rewrite (proj1 (R ph)). destruct (pf_dev pl !! ph) as [d|] eqn:Ed; [|exact Ed].
      rewrite Z.ltb_antisym. destruct (Z.leb_spec (st_clock (w_st w)) (d_last d + d_keep d)); cbn [negb]; [exact Ed|].
      destruct (d_status d =? Offline); cbn [forget strike enter pf_dev].
      * cbn. apply lookup_delete.
      * pose proof (K ph d Ed) as Hp. cbn. rewrite Hp. apply lookup_insert.
    + destruct (pf_dev pl !! p) as [d|] eqn:Ed; [|rewrite Hsame; destruct (devAt _ _); reflexivity].
      assert (E : forall r, r = pf_dev pl !! ph -> r = match devAt (w_st w) ph with Some d0 => Some d0 | None => None end) by (intros r ->; exact Hsame).
      apply E. destruct (st_clock (w_st w) <=? d_last d + d_keep d)%Z; [reflexivity|].
      pose proof (K p d Ed) as Hp. destruct (d_status d =? Offline); cbn [forget strike enter pf_dev].
      * cbn. apply lookup_delete_ne. exact Hne.
      * cbn. rewrite Hp. apply lookup_insert_ne. exact Hne.
Qed.
Lemma after_S d n : after_checks d (S n) =
  if d_status d =? Offline then None else match n with O => Some (with_status d Offline) | _ => None end.
Proof. unfold after_checks. destruct (d_status d =? Offline), n; reflexivity. Qed.
Lemma silent_none e ph evs' : forall now evs, let w := history e now evs in wordless e ph w evs' -> devAt (w_st w) ph = None ->
  devAt (w_st (fold_left (step e) evs' w)) ph = None.
Proof.
  induction evs' as [|ev evs' IH]; intros now evs w Hu Hd; [exact Hd|]. inversion Hu as [|? ? ? Hn Hu']; subst. cbn [fold_left].
  pose proof (quiet_step e now evs ev ph Hn) as E. fold w in E. rewrite Hd in E.
  pose proof (history_snoc e now evs ev) as Hs. fold w in Hs. rewrite <- Hs in *. apply IH; assumption.
Qed.
Theorem silent_history e ph evs' : forall now evs d, let w := history e now evs in
  devAt (w_st w) ph = Some d -> wordless e ph w evs' ->
  devAt (w_st (history e now (evs ++ evs'))) ph = after_checks d (overdue e ph (d_last d + d_keep d) w evs').
Proof.
  intros now evs d w Hd Hu. unfold history. rewrite fold_left_app. change (fold_left (step e) evs (world0 now)) with (history e now evs). fold w.
  revert evs d w Hd Hu. induction evs' as [|ev evs' IH]; intros evs d w Hd Hu; [exact Hd|].
  inversion Hu as [|? ? ? Hn Hu']; subst. cbn [fold_left overdue].
  pose proof (quiet_step e now evs ev ph Hn) as E. fold w in E. rewrite Hd in E.
  pose proof (history_snoc e now evs ev) as Hs. fold w in Hs. rewrite <- Hs in *.
  set (b := match ev with ETick q => if decide (q = ph) then (d_last d + d_keep d <? st_clock (w_st w))%Z else false | _ => false end) in E.
  assert (Hb : match ev with ETick q => if decide (q = ph) then if (d_last d + d_keep d <? st_clock (w_st w))%Z then 1%nat else O else O | _ => O end
               = if b then 1%nat else O) by (unfold b; destruct ev; try reflexivity; destruct (decide _); reflexivity).
  rewrite Hb. destruct b; cbn [Nat.add].
  - rewrite after_S. destruct (d_status d =? Offline) eqn:Eo.
    + apply silent_none; assumption.
    + rewrite (IH _ _ E Hu'). cbn [with_status d_last d_keep]. destruct (overdue _ _ _ _ _); [reflexivity|rewrite after_S; reflexivity].
  - exact (IH _ _ E Hu').
Qed.
(** an endless run in which the phone stays silent *)
Lemma first_S f n : first f (S n) = first f n ++ [f n].
Proof. unfold first. rewrite seq_S, map_app. reflexivity. Qed.
Lemma first_le f m n : (m <= n)%nat -> exists l, first f n = first f m ++ l.
Proof.
  intros H. induction H as [|n H (l & E)]; [exists []; rewrite app_nil_r; reflexivity|].
  exists (l ++ [f n]). rewrite first_S, E, app_assoc. reflexivity.
Qed.
Lemma overdue_app e ph t evs' : forall w evs, overdue e ph t w (evs ++ evs') = (overdue e ph t w evs + overdue e ph t (fold_left (step e) evs w) evs')%nat.
Proof. intros w evs. revert w. induction evs as [|ev evs IH]; intros w; [reflexivity|]. cbn [app overdue fold_left]. rewrite IH. lia. Qed.
Theorem silent_eventually e ph f : forall now evs d, let w := history e now evs in
  devAt (w_st w) ph = Some d -> (forall n, wordless e ph w (first f n)) ->
  (forall n t, exists m, (n <= m)%nat /\ f m = ETick ph /\ (t < st_clock (w_st (history e now (evs ++ first f m))))%Z) ->
  exists n, forall m, (n <= m)%nat -> devAt (w_st (history e now (evs ++ first f m))) ph = None.
Proof.
  intros now evs d w Hd Hu Hf.
  assert (Hstep : forall n, exists m, (n < m)%nat /\ (overdue e ph (d_last d + d_keep d) w (first f n) < overdue e ph (d_last d + d_keep d) w (first f m))%nat).
  { intros n. destruct (Hf n (d_last d + d_keep d)%Z) as (m & Hm & Et & Hc). exists (S m). split; [lia|].
    rewrite first_S, overdue_app. destruct (first_le f n m Hm) as (l & El). rewrite El at 1. rewrite overdue_app.
    cbn [overdue]. rewrite Et. rewrite decide_True by reflexivity.
    unfold history in Hc. rewrite fold_left_app in Hc. change (fold_left (step e) evs (world0 now)) with w in Hc.
    apply Z.ltb_lt in Hc. rewrite Hc. lia. }
  destruct (Hstep O) as (m1 & _ & H1). destruct (Hstep m1) as (m2 & _ & H2). exists m2. intros m Hm.
  rewrite (silent_history e ph (first f m) now evs d Hd (Hu m)). fold w.
  destruct (first_le f m2 m Hm) as (l & El).
  assert (2 <= overdue e ph (d_last d + d_keep d) w (first f m))%nat by (rewrite El, overdue_app; lia).
  destruct (overdue e ph (d_last d + d_keep d) w (first f m)) as [|[|k]]; [lia|lia|]. rewrite after_S. destruct (d_status d =? Offline); reflexivity.
Qed.

(** * Data that is never released *)
Section Mono.
Context (R : st -> st -> Prop) (Rrefl : forall s, R s s) (Rtrans : forall s t u, R s t -> R t u -> R s u).
Inductive mono {A} : sp A -> Prop :=
| mono_ret r : mono (Ret r)
| mono_act a f k : (forall s, R s (f s)) -> (forall s, mono (k s)) -> mono (Act a f k).
Lemma mono_bindR {A B} (p : sp A) (g : res A -> sp B) : mono p -> (forall r, mono (g r)) -> mono (pbindR p g).
Proof. intros H Hg. induction H as [r|a f k Hf _ IH]; cbn; [apply Hg|]. constructor; [exact Hf|exact IH]. Qed.
Lemma mono_bind {A B} (p : sp A) (g : A -> sp B) : mono p -> (forall a, mono (g a)) -> mono (pbind p g).
Proof. intros H Hg. apply mono_bindR; [exact H|]. intros [a|er|]; [apply Hg|constructor..]. Qed.
Lemma mono_zoom {B A} (get : st -> B) set (p : prog B A) : (forall r s, R s (set r s)) -> mono (zoom get set p).
Proof. intros H. induction p as [r|a f k IH]; cbn; [constructor|]. constructor; [intros s; apply H|intros s; apply IH]. Qed.
Lemma mono_run {A} (p : sp A) : mono p -> forall s, R s (snd (run p s)).
Proof. induction 1 as [r|a f k Hf _ IH]; intros s; cbn; [apply Rrefl|]. eapply Rtrans; [apply Hf|apply IH]. Qed.
Lemma mono_steps {A} sch : forall (ps : list (sp A)) s, Forall mono ps -> R s (snd (psteps ps s sch)).
Proof.
  induction sch as [|i sch IH]; intros ps s Hp; cbn [psteps]; [apply Rrefl|].
  unfold pstep. destruct (nth_error ps i) as [[r|a f k]|] eqn:Ei; try (apply IH; exact Hp). cbn [fst snd].
  pose proof (proj1 (List.Forall_forall _ _) Hp _ (nth_error_In _ _ Ei)) as Hi. inversion Hi as [|? ? ? Hf Hk]; subst.
  eapply Rtrans; [apply Hf|]. apply IH. apply Forall_app. split; [apply Forall_take; exact Hp|].
  constructor; [apply Hk|]. apply Forall_drop. exact Hp.
Qed.
End Mono.
Arguments mono_ret {R A}. Arguments mono_act {R A}.

Lemma retains_same s t : st_params t = st_params s -> st_segs t = st_segs s -> retains s t.
Proof.
  intros Hp Hs. split; [rewrite Hp; auto|]. intros key y H. exists y, []. rewrite Hs, app_nil_r. auto.
Qed.
Lemma retains_refl s : retains s s.
Proof. apply retains_same; reflexivity. Qed.
Lemma retains_trans s t u : retains s t -> retains t u -> retains s u.
Proof.
  intros [P1 S1] [P2 S2]. split; [auto|]. intros key y H. destruct (S1 key y H) as (y1 & m1 & H1 & D1 & T1).
  destruct (S2 key y1 H1) as (y2 & m2 & H2 & D2 & T2). exists y2, (m1 ++ m2). rewrite D2, D1, app_assoc. split_and!; congruence.
Qed.
Lemma retains_params s f : (forall ph, is_Some (st_params s !! ph) -> is_Some (f (st_params s) !! ph)) -> retains s (set_params f s).
Proof. intros H. split; [exact H|]. intros key y Hy. exists y, []. rewrite app_nil_r. auto. Qed.
Lemma retains_segment s x : let key := segKey (sg_phone x) (sg_id x) in
  retains s (set_segs (<[key := match st_segs s !! key with Some y => segMerge y x | None => x end]>) s).
Proof.
  intros key. split; [auto|]. intros k y Hy. cbn. destruct (decide (key = k)) as [<-|Hn].
  - rewrite lookup_insert, Hy. exists (segMerge y x), (sg_data x). auto.
  - rewrite lookup_insert_ne by exact Hn. exists y, []. rewrite app_nil_r. auto.
Qed.
Notation keeps := (mono retains).
Ltac same := intros ?; apply retains_same; repeat match goal with |- context [match ?x with _ => _ end] => destruct x end; reflexivity.
Ltac acts := repeat match goal with
  | |- keeps (Act _ _ _) => constructor; [first [same|idtac]|intros]
  | |- keeps (Ret _) => constructor
  | |- keeps (ret _) => constructor
  | |- keeps (fail _) => constructor
  | |- keeps panic => constructor
  | |- keeps (match ?x with _ => _ end) => destruct x
  end.
Lemma kp_getNow : keeps (getNow).
Proof. intros. unfold getNow, rd1, wr1. cbv zeta. acts. Qed.
Lemma kp_readConst : forall x, keeps (readConst x).
Proof. intros. unfold readConst, rd1, wr1. cbv zeta. acts. Qed.
Lemma kp_readDev : forall x, keeps (readDev x).
Proof. intros. unfold readDev, rd1, wr1. cbv zeta. acts. Qed.
Lemma kp_writeDev : forall x y, keeps (writeDev x y).
Proof. intros. unfold writeDev, rd1, wr1. cbv zeta. acts. Qed.
Lemma kp_allocDev : forall x, keeps (allocDev x).
Proof. intros. unfold allocDev, rd1, wr1. cbv zeta. acts. Qed.
Lemma kp_getDeviceByPlate : forall x, keeps (getDeviceByPlate x).
Proof. intros. unfold getDeviceByPlate, rd1, wr1. cbv zeta. acts. Qed.
Lemma kp_getDeviceByPhone : forall x, keeps (getDeviceByPhone x).
Proof. intros. unfold getDeviceByPhone, rd1, wr1. cbv zeta. acts. Qed.
Lemma kp_cacheDevice : forall x, keeps (cacheDevice x).
Proof. intros. unfold cacheDevice, rd1, wr1. cbv zeta. acts. Qed.
Lemma kp_delDeviceByPhone : forall x, keeps (delDeviceByPhone x).
Proof. intros. unfold delDeviceByPhone, rd1, wr1. cbv zeta. acts. Qed.
Lemma kp_getGeoRingByPhone : forall x, keeps (getGeoRingByPhone x).
Proof. intros. unfold getGeoRingByPhone, rd1, wr1. cbv zeta. acts. Qed.
Lemma kp_delGeoByPhone : forall x, keeps (delGeoByPhone x).
Proof. intros. unfold delGeoByPhone, rd1, wr1. cbv zeta. acts. Qed.
Lemma kp_getDeviceParamsByPhone : forall x, keeps (getDeviceParamsByPhone x).
Proof. intros. unfold getDeviceParamsByPhone, rd1, wr1. cbv zeta. acts. Qed.
Lemma kp_cacheDeviceParams : forall x, keeps (cacheDeviceParams x).
Proof. intros. unfold cacheDeviceParams, rd1, wr1. cbv zeta. acts. intros s. apply retains_params. intros ph Hp. destruct (decide (dp_phone x = ph)) as [<-|Hn]; [rewrite lookup_insert; eauto|]. rewrite lookup_insert_ne by exact Hn. exact Hp. Qed.
Lemma kp_cacheSegment : forall x, keeps (cacheSegment x).
Proof. intros. unfold cacheSegment, rd1, wr1. cbv zeta. acts. intros s. apply retains_segment. Qed.
Lemma kp_getSession : forall x, keeps (getSession x).
Proof. intros. unfold getSession, rd1, wr1. cbv zeta. acts. Qed.
Lemma kp_storeSession : forall x y, keeps (storeSession x y).
Proof. intros. unfold storeSession, rd1, wr1. cbv zeta. acts. Qed.
Lemma kp_clearSession : forall x, keeps (clearSession x).
Proof. intros. unfold clearSession, rd1, wr1. cbv zeta. acts. Qed.
Lemma kp_readSess : forall x, keeps (readSess x).
Proof. intros. unfold readSess, rd1, wr1. cbv zeta. acts. Qed.
Lemma kp_timerAdd : forall x, keeps (timerAdd x).
Proof. intros. unfold timerAdd, rd1, wr1. cbv zeta. acts. Qed.
Lemma kp_timerCancel : forall x, keeps (timerCancel x).
Proof. intros. unfold timerCancel, rd1, wr1. cbv zeta. acts. Qed.
Lemma kp_connClose : forall x, keeps (connClose x).
Proof. intros. unfold connClose, rd1, wr1. cbv zeta. acts. Qed.
Lemma kp_connSend : forall x y z, keeps (connSend x y z).
Proof. intros. unfold connSend, rd1, wr1. cbv zeta. acts. Qed.
Lemma kp_lock : forall x, keeps (lock x).
Proof. intros. unfold lock, rd1, wr1. cbv zeta. acts. Qed.
Lemma kp_unlock : forall x, keeps (unlock x).
Proof. intros. unfold unlock, rd1, wr1. cbv zeta. acts. Qed.
Lemma kp_listDevice : keeps (listDevice).
Proof. intros. unfold listDevice, rd1, wr1. cbv zeta. acts. Qed.
Lemma kp_countSession : keeps (countSession).
Proof. intros. unfold countSession, rd1, wr1. cbv zeta. acts. Qed.
Lemma kp_onRing {A} l (p : prog _ A) : keeps (onRing l p).
Proof. apply mono_zoom. intros r. same. Qed.
Lemma kp_nextSerial l : keeps (nextSerial l).
Proof. apply mono_zoom. intros r. same. Qed.
Ltac kps := repeat match goal with
  | |- keeps (pbind _ _) => apply mono_bind; [|intros]
  | |- keeps (pbindR _ _) => apply mono_bindR; [|intros]
  | |- keeps (lift _) => constructor
  | |- keeps (onRing _ _) => apply kp_onRing
  | |- keeps (nextSerial _) => apply kp_nextSerial
  | |- keeps getNow => apply kp_getNow
  | |- keeps (readConst _) => apply kp_readConst
  | |- keeps (readDev _) => apply kp_readDev
  | |- keeps (writeDev _ _) => apply kp_writeDev
  | |- keeps (allocDev _) => apply kp_allocDev
  | |- keeps (getDeviceByPlate _) => apply kp_getDeviceByPlate
  | |- keeps (getDeviceByPhone _) => apply kp_getDeviceByPhone
  | |- keeps (cacheDevice _) => apply kp_cacheDevice
  | |- keeps (delDeviceByPhone _) => apply kp_delDeviceByPhone
  | |- keeps (getGeoRingByPhone _) => apply kp_getGeoRingByPhone
  | |- keeps (delGeoByPhone _) => apply kp_delGeoByPhone
  | |- keeps (getDeviceParamsByPhone _) => apply kp_getDeviceParamsByPhone
  | |- keeps (cacheDeviceParams _) => apply kp_cacheDeviceParams
  | |- keeps (cacheSegment _) => apply kp_cacheSegment
  | |- keeps (getSession _) => apply kp_getSession
  | |- keeps (storeSession _ _) => apply kp_storeSession
  | |- keeps (clearSession _) => apply kp_clearSession
  | |- keeps (readSess _) => apply kp_readSess
  | |- keeps (timerAdd _) => apply kp_timerAdd
  | |- keeps (timerCancel _) => apply kp_timerCancel
  | |- keeps (connClose _) => apply kp_connClose
  | |- keeps (connSend _ _ _) => apply kp_connSend
  | |- keeps (lock _) => apply kp_lock
  | |- keeps (unlock _) => apply kp_unlock
  | |- keeps listDevice => apply kp_listDevice
  | |- keeps countSession => apply kp_countSession
  | |- keeps (hasPlate _) => unfold hasPlate
  | |- keeps (hasPhone _) => unfold hasPhone
  | |- keeps (timerRegister _) => unfold timerRegister
  | |- keeps (let _ := _ in _) => cbv zeta
  | |- keeps (Ret _) => constructor
  | |- keeps (ret _) => constructor
  | |- keeps (fail _) => constructor
  | |- keeps panic => constructor
  | |- keeps (match ?x with _ => _ end) => destruct x
  end.
Lemma kp_process e sl p : keeps (process e sl p).
Proof.
  unfold process. kps; unfold processSegment, process0002, process0003, process0100, process0102, process0200, process8001, process8100,
    process8103, process8104, process9205; kps.
Qed.
Lemma kp_decodeP e b : keeps (decodeP e b).
Proof. unfold decodeP. kps. Qed.
Lemma kp_remove sl : keeps (remove sl).
Proof. unfold remove. kps. Qed.
Lemma kp_write e c out w : keeps (processConnWrite e c out w).
Proof. unfold processConnWrite. kps. Qed.
Lemma kp_serve e sl ins : keeps (serveLoop e sl ins).
Proof.
  induction ins as [|[r w] ins IH]; cbn [serveLoop]; [constructor|]. apply mono_bindR.
  - unfold serveOne, processConnRead. kps; first [apply kp_decodeP|apply kp_process|apply kp_write|idtac].
  - intros [[]|er|]; [exact IH|..]; (apply mono_bind; [apply kp_remove|intros; constructor]).
Qed.
Lemma kp_accept c a : keeps (accept c a).
Proof. unfold accept. kps. acts. Qed.
Lemma kp_tick ph : keeps (checkKeepalive ph).
Proof. unfold checkKeepalive, shouldTurnOffline, shouldClear. kps. Qed.
Lemma kp_geo ph : keeps (apiGeo ph).
Proof. unfold apiGeo, getGeoLatestByPhone. kps. Qed.
Lemma kp_send e i m w : keeps (serverSend e i m w).
Proof. unfold serverSend. kps; first [apply kp_write|apply kp_remove|idtac]. Qed.
Lemma kp_getParams e ph w : keeps (apiGetParams e ph w).
Proof. unfold apiGetParams, apiSession. kps; apply kp_send. Qed.
Lemma kp_putParams e ph bad ps w : keeps (apiPutParams e ph bad ps w).
Proof. unfold apiPutParams, apiSession. kps; apply kp_send. Qed.
Lemma kp_code e g : keeps (code e g).
Proof.
  destruct g; cbn [code]; unfold opened, connThread, apiList, wr1; kps.
  all: match goal with
       | |- keeps (accept _ _) => apply kp_accept
       | |- keeps (serveLoop _ _ _) => apply kp_serve
       | |- keeps (process _ _ _) => apply kp_process
       | |- keeps (checkKeepalive _) => apply kp_tick
       | |- keeps (apiGeo _) => apply kp_geo
       | |- keeps (apiGetParams _ _ _) => apply kp_getParams
       | |- keeps (apiPutParams _ _ _ _ _) => apply kp_putParams
       | |- _ => acts
       end.
Qed.
Theorem retained e gs s sch : retains s (snd (running e gs s sch)).
Proof.
  unfold running. apply mono_steps; [exact retains_refl|exact retains_trans|]. apply List.Forall_forall. intros p Hp.
  apply in_map_iff in Hp as (g & <- & _). apply kp_code.
Qed.
Lemma retained_step e w ev : retains (w_st w) (w_st (step e w ev)).
Proof.
  assert (Hr : forall A (p : sp A), keeps p -> forall s, retains s (snd (run p s))) by (intros A p Hp s; apply mono_run; [exact retains_refl|exact retains_trans|exact Hp]).
  unfold step. destruct (w_dead w); [apply retains_refl|]. destruct ev as [c addr|sl r x|ph| |ph|ph x|ph bad ps x|t]; cbn [w_st].
  - destruct (st_conns (w_st w) !! c); [apply retains_refl|]. pose proof (Hr _ _ (kp_accept c addr) (set_conns (<[c := mkConn true []]>) (w_st w))) as H.
    destruct (run _ _) as [[]]; exact H.
  - case_bool_decide as Hin; [|apply retains_refl]. pose proof (Hr _ _ (kp_serve e sl [(r, x)]) (w_st w)) as H. destruct (run _ _) as [[[]|er|]]; exact H.
  - case_bool_decide as Hin; [|apply retains_refl]. pose proof (Hr _ _ (kp_tick ph) (w_st w)) as H. destruct (run _ _) as [[]]; exact H.
  - apply retains_refl.
  - apply Hr, kp_geo.
  - apply Hr, kp_getParams.
  - apply Hr, kp_putParams.
  - apply retains_same; reflexivity.
Qed.
Theorem retained_history e now evs evs' : retains (w_st (history e now evs)) (w_st (history e now (evs ++ evs'))).
Proof.
  unfold history. rewrite fold_left_app. set (w := fold_left (step e) evs (world0 now)). clearbody w. revert w.
  induction evs' as [|ev evs' IH]; intros w; [apply retains_refl|]. cbn [fold_left]. eapply retains_trans; [apply retained_step|apply IH].
Qed.

(** * What is bounded *)
Lemma vals_NoDup {K} `{Countable K} (m : gmap K nat) : (forall k k' l, m !! k = Some l -> m !! k' = Some l -> k = k') ->
  base.NoDup (map_to_list m).*2.
Proof.
  intros Hinj. apply NoDup_fmap_2_strong; [|apply NoDup_map_to_list]. intros [k l] [k' l'] Hx Hy E. cbn in E. subst l'.
  apply elem_of_map_to_list in Hx, Hy. f_equal. eapply Hinj; eassumption.
Qed.
Lemma vals_elem {K} `{Countable K} (m : gmap K nat) l : l ∈ (map_to_list m).*2 <-> exists k, m !! k = Some l.
Proof.
  rewrite elem_of_list_fmap. split.
  - intros ([k l'] & -> & Hx). apply elem_of_map_to_list in Hx. eauto.
  - intros (k & Hk). exists (k, l). split; [reflexivity|]. apply elem_of_map_to_list. exact Hk.
Qed.
Lemma inj_size {K} `{Countable K} (m m' : gmap K nat) :
  (forall k k' l, m !! k = Some l -> m !! k' = Some l -> k = k') -> (forall k k' l, m' !! k = Some l -> m' !! k' = Some l -> k = k') ->
  (forall l, (exists k, m !! k = Some l) <-> exists k, m' !! k = Some l) -> size m = size m'.
Proof.
  intros I1 I2 Hs. assert (P : (map_to_list m).*2 ≡ₚ (map_to_list m').*2).
  { apply NoDup_Permutation; [apply vals_NoDup; exact I1|apply vals_NoDup; exact I2|]. intros l. rewrite !vals_elem. apply Hs. }
  apply Permutation_length in P. rewrite !fmap_length in P. exact P.
Qed.
Theorem bounded e now evs : let w := history e now evs in let s := w_st w in
  size (st_byPlate s) = size (st_byPhone s) /\ length (st_jobs s) = size (st_byPhone s) /\ (size (st_byID s) <= size (w_live w))%nat
  /\ forall ph r, ringOf s ph = Some r -> length (rg_slots r) = 100%nat.
Proof.
  intros w s. pose proof (history_ok e now evs) as W. fold w in W. pose proof (wo_ok _ W) as C. fold s in C. split_and!.
  - apply inj_size.
    + intros q q' l H1 H2. destruct (cs_plate s C q l H1) as (d & A1 & A2 & _). destruct (cs_plate s C q' l H2) as (d' & B1 & B2 & _). congruence.
    + intros q q' l H1 H2. destruct (cs_phone s C q l H1) as (d & A1 & A2 & _). destruct (cs_phone s C q' l H2) as (d' & B1 & B2 & _). congruence.
    + intros l. split; intros (k & Hk).
      * destruct (cs_plate s C k l Hk) as (d & _ & _ & H). eauto.
      * destruct (cs_phone s C k l Hk) as (d & _ & _ & H). eauto.
  - rewrite <- (size_dom (D := gset str) (st_byPhone s)). rewrite <- (size_list_to_set (C := gset str)) by exact (cs_jobs1 s C).
    f_equal. apply set_eq. intros p. rewrite elem_of_list_to_set, elem_of_dom. apply (cs_jobs2 s C).
  - assert (I : forall k k' l, st_byID s !! k = Some l -> st_byID s !! k' = Some l -> k = k').
    { intros q q' l H1 H2. destruct (cs_sess s C q l H1) as (d & A1 & A2). destruct (cs_sess s C q' l H2) as (d' & B1 & B2). congruence. }
    assert (Hl : size (list_to_set (C := gset nat) (map_to_list (st_byID s)).*2) = size (st_byID s)).
    { rewrite size_list_to_set by (apply vals_NoDup; exact I). rewrite fmap_length. reflexivity. }
    rewrite <- Hl. apply subseteq_size. intros l Hx. apply elem_of_list_to_set, vals_elem in Hx as (i & Hi). exact (wo_reg _ W i l Hi).
  - intros ph r Hr. unfold ringOf in Hr. destruct (st_geo s !! ph) as [l|] eqn:El; [|discriminate Hr].
    destruct (cs_geo s C ph l El) as (r' & ws & H1 & H2 & _). rewrite H1 in Hr. injection Hr as ->.
    destruct H2 as (_ & H3 & _). unfold window in H3. destruct H3 as (H3 & _). exact H3.
Qed.
