(** A location request while reports come in (C149) *)
From stdpp Require Import gmap.
From Verif Require Import Base HexM TimeM HeaderM ParamsM GeoM MsgM PacketM FrameM ProgM ProgP RingM StateM ProcM ServerM ConcM
  SpecState SpecConc SpecLook StateP ProcP EffectP RaceP InterP.
Local Open Scope N_scope.

(** who the location buffers and the device records were made for *)
Record ghost : Type := mkGhost { gh_ring : nat -> str -> Prop; gh_dev : nat -> str -> Prop }.
Definition below (o u : ghost) : Prop :=
  (forall l p, gh_ring o l p -> gh_ring u l p) /\ (forall l p, gh_dev o l p -> gh_dev u l p).
Lemma below_refl o : below o o.
Proof. split; auto. Qed.
Lemma below_trans a b c : below a b -> below b c -> below a c.
Proof. intros (H1 & H2) (K1 & K2). split; auto. Qed.

Section look.
Context (S : str -> devgeo -> Prop).
Definition all_told (q : str) (r : ring devgeo) : Prop := forall g, In (Some g) (rg_slots r) -> S q g.
Record kept (s : st) (o : ghost) : Prop := {
  kp_fun : forall l p p', gh_ring o l p -> gh_ring o l p' -> p = p';
  kp_geo : forall p l, st_geo s !! p = Some l -> gh_ring o l p;
  kp_ring : forall l p, gh_ring o l p -> exists r, st_rings s !! l = Some r /\ all_told p r;
  kp_phone : forall p l, st_byPhone s !! p = Some l -> gh_dev o l p;
  kp_dev : forall l p, gh_dev o l p -> exists d, st_devs s !! l = Some d /\ d_phone d = p
}.
Fixpoint looks {A} (P : ghost -> A -> Prop) (o : ghost) (p : sp A) : Prop :=
  match p with
  | Ret r => forall a, r = Ok a -> P o a
  | Act _ f k => forall s u, below o u -> kept s u -> exists u', below u u' /\ kept (f s) u' /\ looks P u' (k s)
  end.
Definition anyL {A} : ghost -> A -> Prop := fun _ _ => True.
Definition stays {A} (P : ghost -> A -> Prop) : Prop := forall o u a, P o a -> below o u -> P u a.
Lemma looks_mono {A} P (p : sp A) o u : stays P -> looks P o p -> below o u -> looks P u p.
Proof.
  intros HP H Hb. destruct p as [r|a f k]; [intros a E; exact (HP _ _ _ (H a E) Hb)|].
  intros s u' Hu. apply H. exact (below_trans _ _ _ Hb Hu).
Qed.
Lemma stays_any {A} : stays (@anyL A).
Proof. intros o u a _ _. exact Logic.I. Qed.
Lemma looks_bindR {A B} P Q (p : sp A) : forall o (g : res A -> sp B), looks P o p ->
  (forall u r, below o u -> (forall a, r = Ok a -> P u a) -> looks Q u (g r)) -> looks Q o (pbindR p g).
Proof.
  induction p as [r|a f k IH]; intros o g H Hg; cbn [pbindR]; [apply Hg; [apply below_refl|exact H]|].
  intros s u Hu Hs. destruct (H s u Hu Hs) as (u' & H1 & H2 & H3). exists u'. split; [exact H1|]. split; [exact H2|].
  apply IH; [exact H3|]. intros v r Hv. apply Hg. exact (below_trans _ _ _ Hu (below_trans _ _ _ H1 Hv)).
Qed.
Lemma looks_bind {A B} P Q (p : sp A) o (g : A -> sp B) : looks P o p ->
  (forall u a, below o u -> P u a -> looks Q u (g a)) -> looks Q o (pbind p g).
Proof.
  intros H Hg. apply (looks_bindR P); [exact H|]. intros u [a|er|] Hu K; [apply Hg; [exact Hu|apply K; reflexivity]|intros ? ?; discriminate..].
Qed.
Lemma looks_ret {A} o (r : res A) : looks anyL o (Ret r).
Proof. intros a _. exact Logic.I. Qed.
Definition same (s s' : st) : Prop :=
  st_geo s' = st_geo s /\ st_rings s' = st_rings s /\ st_byPhone s' = st_byPhone s /\ st_devs s' = st_devs s.
Lemma looks_quiet {A} P o a f (k : st -> sp A) : (forall s, same s (f s)) -> (forall s u, below o u -> looks P u (k s)) -> looks P o (Act a f k).
Proof.
  intros Hf Hk s u Hu [H1 H2 H3 H4 H5]. destruct (Hf s) as (E1 & E2 & E3 & E4). exists u. split; [apply below_refl|]. split; [|apply Hk, Hu].
  constructor; rewrite ?E1, ?E2, ?E3, ?E4; assumption.
Qed.
Lemma looks_zoom {U A} (get : st -> U) put (p : prog U A) o : (forall t s, same s (put t s)) -> looks anyL o (zoom get put p).
Proof.
  intros Hp. revert o. induction p as [r|a f k IH]; intros o; cbn [zoom]; [apply looks_ret|].
  apply looks_quiet; [intros s; apply Hp|]. intros s u _. apply IH.
Qed.
Definition its_dev (q : str) (o : ghost) (x : option nat) : Prop := forall l, x = Some l -> gh_dev o l q.
Lemma looks_byPhone q o : looks (its_dev q) o (getDeviceByPhone q).
Proof.
  intros s u Hu Hs. exists u. split; [apply below_refl|]. split; [exact Hs|]. intros a [= <-] l E. exact (kp_phone _ _ Hs _ _ E).
Qed.
Lemma looks_const q o l : gh_dev o l q -> looks (fun _ d => d_phone d = q) o (readConst l).
Proof.
  intros Hl s u Hu Hs. exists u. split; [apply below_refl|]. split; [exact Hs|].
  destruct (kp_dev _ _ Hs _ _ (proj2 Hu _ _ Hl)) as (d & -> & E). intros a [= <-]. exact E.
Qed.
Lemma looks_write o l f : (forall d, d_phone (f d) = d_phone d) -> looks anyL o (writeDev l f).
Proof.
  intros Hf s u Hu [H1 H2 H3 H4 H5]. exists u. split; [apply below_refl|]. split; [|apply looks_ret]. constructor; cbn; try assumption.
  intros l' p K. destruct (H5 _ _ K) as (d & Hd & E). destruct (decide (l = l')) as [->|Hne].
  - exists (f d). rewrite lookup_alter, Hd. split; [reflexivity|]. rewrite Hf. exact E.
  - exists d. rewrite lookup_alter_ne by exact Hne. auto.
Qed.
Lemma looks_alloc o d : looks anyL o (allocDev d).
Proof.
  intros s u Hu [H1 H2 H3 H4 H5]. exists u. split; [apply below_refl|]. split; [|apply looks_ret]. constructor; cbn; try assumption.
  assert (F : st_devs s !! fresh (dom (st_devs s)) = None) by (apply not_elem_of_dom, is_fresh).
  intros l' p K. destruct (H5 _ _ K) as (d0 & Hd & E). exists d0. rewrite lookup_insert_ne; [auto|]. intros X. rewrite X in F. congruence.
Qed.
Lemma looks_cache o l : looks anyL o (cacheDevice l).
Proof.
  intros s u Hu Hs. destruct Hs as [H1 H2 H3 H4 H5]. cbn. destruct (st_devs s !! l) as [d|] eqn:E.
  - exists (mkGhost (gh_ring u) (fun m p => gh_dev u m p \/ (m = l /\ p = d_phone d))). split; [split; cbn; auto|]. split; [|apply looks_ret].
    constructor; cbn; try assumption.
    + intros p m K. apply lookup_insert_Some in K as [(<- & <-)|(_ & K)]; [right; auto|left; exact (H4 _ _ K)].
    + intros m p [K|(-> & ->)]; [exact (H5 _ _ K)|eauto].
  - exists u. split; [apply below_refl|]. split; [constructor; assumption|apply looks_ret].
Qed.
Lemma looks_del o q : looks anyL o (delDeviceByPhone q).
Proof.
  intros s u Hu Hs. destruct Hs as [H1 H2 H3 H4 H5]. exists u. split; [apply below_refl|]. split; [|apply looks_ret]. cbn.
  destruct (st_byPhone s !! q) as [l|]; [destruct (st_devs s !! l) as [d|]|]; try (constructor; assumption).
  constructor; cbn; try assumption. intros p m K. apply lookup_delete_Some in K as (_ & K). exact (H4 _ _ K).
Qed.
Lemma looks_delGeo o q : looks anyL o (delGeoByPhone q).
Proof.
  intros s u Hu Hs. destruct Hs as [H1 H2 H3 H4 H5]. exists u. split; [apply below_refl|]. split; [|apply looks_ret].
  constructor; cbn; try assumption. intros p m K. apply lookup_delete_Some in K as (_ & K). exact (H2 _ _ K).
Qed.
Lemma new_told q : all_told q (newRing ringCapacity).
Proof. intros g H. apply repeat_spec in H. discriminate. Qed.
Lemma looks_getRing o q : looks (fun u l => gh_ring u l q) o (getGeoRingByPhone q).
Proof.
  intros s u Hu Hs. destruct Hs as [H1 H2 H3 H4 H5]. cbn beta zeta. destruct (st_geo s !! q) as [l|] eqn:E.
  - exists u. split; [apply below_refl|]. split; [constructor; assumption|]. intros a [= <-]. exact (H2 _ _ E).
  - set (n := fresh (dom (st_rings s))).
    assert (F : st_rings s !! n = None) by (apply not_elem_of_dom, is_fresh).
    assert (N : forall p, ~ gh_ring u n p) by (intros p K; destruct (H3 _ _ K) as (r & Hr & _); congruence).
    exists (mkGhost (fun m p => gh_ring u m p \/ (m = n /\ p = q)) (gh_dev u)). split; [split; cbn; auto|]. split.
    + constructor; cbn; try assumption.
      * intros m p p' [K|(-> & ->)] [K'|(E' & ->)]; [exact (H1 _ _ _ K K')|subst m; destruct (N _ K)|destruct (N _ K')|reflexivity].
      * intros p m K. apply lookup_insert_Some in K as [(<- & <-)|(_ & K)]; [right; auto|left; exact (H2 _ _ K)].
      * intros m p [K|(-> & ->)].
        -- destruct (H3 _ _ K) as (r & Hr & Ht). exists r. rewrite lookup_insert_ne; [auto|]. intros X. subst m. exact (N _ K).
        -- exists (newRing ringCapacity). rewrite lookup_insert. split; [reflexivity|apply new_told].
    + intros a [= <-]. right. auto.
Qed.
(** calls on a ring buffer *)
Fixpoint keeps_told {A} (q : str) (P : A -> Prop) (p : prog (ring devgeo) A) : Prop :=
  match p with
  | Ret r => forall a, r = Ok a -> P a
  | Act _ f k => forall r, all_told q r -> all_told q (f r) /\ keeps_told q P (k r)
  end.
Lemma looks_onRing {A} o l q (P : A -> Prop) (p : prog (ring devgeo) A) : gh_ring o l q -> keeps_told q P p ->
  looks (fun _ => P) o (onRing l p).
Proof.
  unfold onRing. revert o. induction p as [r|a f k IH]; intros o Hl Hp; cbn [zoom]; [exact Hp|].
  intros s u Hu Hs. pose proof (proj1 Hu _ _ Hl) as Hl'. destruct (kp_ring _ _ Hs _ _ Hl') as (r & Hr & Ht).
  assert (E : ringAt l s = r) by (unfold ringAt; rewrite Hr; reflexivity).
  destruct (Hp r Ht) as (T1 & T2). exists u. split; [apply below_refl|]. rewrite E. split; [|apply IH; assumption].
  destruct Hs as [H1 H2 H3 H4 H5]. constructor; cbn; try assumption.
  intros m p K. destruct (decide (l = m)) as [->|Hne].
  - exists (f r). rewrite lookup_insert. split; [reflexivity|]. rewrite <- (H1 _ _ _ Hl' K). exact T1.
  - rewrite lookup_insert_ne by exact Hne. exact (H3 _ _ K).
Qed.
Definition anyR {A} : A -> Prop := fun _ => True.
Lemma keeps_bind {A B} q P Q (p : prog (ring devgeo) A) (g : A -> prog (ring devgeo) B) : keeps_told q P p ->
  (forall a, P a -> keeps_told q Q (g a)) -> keeps_told q Q (pbind p g).
Proof.
  intros H Hg. unfold pbind. induction p as [r|a f k IH]; cbn [pbindR].
  - destruct r as [a|er|]; [apply Hg, H; reflexivity|intros ? ?; discriminate..].
  - intros r Hr. destruct (H r Hr) as (H1 & H2). split; [exact H1|]. apply IH, H2.
Qed.
Lemma keeps_rd {A} q a (f : ring devgeo -> A) : keeps_told q anyR (rd1 a f).
Proof. intros r Hr. split; [exact Hr|]. intros ? _. exact Logic.I. Qed.
Lemma keeps_write q l g : S q g -> keeps_told q anyR (ringWrite l (Some g)).
Proof.
  intros Hg. unfold ringWrite. apply (keeps_bind q anyR); [apply keeps_rd|]. intros cur _.
  apply (keeps_bind q anyR); [|intros _ _; apply (keeps_bind q anyR); [apply keeps_rd|intros size _]].
  - intros r Hr. cbn beta. destruct (inRange cur (rg_slots r)); split; try exact Hr; try (intros ? ?; exact Logic.I).
    intros x H. cbn in H. apply in_app_or in H as [H|[[= <-]|H]]; [|exact Hg|].
    + apply Hr. rewrite <- (firstn_skipn (Z.to_nat cur)). apply in_or_app. left. exact H.
    + apply Hr. rewrite <- (firstn_skipn (Datatypes.S (Z.to_nat cur))). apply in_or_app. right. exact H.
  - intros r Hr. split; [exact Hr|]. intros ? _. exact Logic.I.
Qed.
Lemma keeps_latest q l : keeps_told q (fun x => forall g, x = Some g -> S q g) (ringLatest l).
Proof.
  unfold ringLatest. apply (keeps_bind q anyR); [apply keeps_rd|]. intros w _. destruct (w =? 0)%Z.
  { intros a [= <-] g. discriminate. }
  apply (keeps_bind q anyR); [apply keeps_rd|]. intros w' _. apply (keeps_bind q anyR); [apply keeps_rd|]. intros size _ r Hr.
  split; [exact Hr|]. destruct (inRange _ _) eqn:E; [|intros ? ?; discriminate]. intros a [= <-] g Hg. apply Hr. rewrite <- Hg. apply nth_In.
  unfold inRange in E. apply andb_prop in E as (E1 & E2). apply Z.leb_le in E1. apply Z.ltb_lt in E2. lia.
Qed.
End look.

Ltac quietL := intros ?s; repeat match goal with |- context [match ?x with _ => _ end] => destruct x end; repeat split; reflexivity.
Ltac lk := repeat match goal with
  | |- looks _ _ _ (pbind _ _) => apply (looks_bind _ anyL); [|intros ? ? ? _]
  | |- looks _ _ _ (pbindR _ _) => apply (looks_bindR _ anyL); [|intros ? ? ? _]
  | |- looks _ anyL _ (ret _) => apply looks_ret
  | |- looks _ anyL _ (fail _) => apply looks_ret
  | |- looks _ anyL _ panic => apply looks_ret
  | |- looks _ anyL _ (lift _) => apply looks_ret
  | |- looks _ anyL _ (Ret _) => apply looks_ret
  | |- looks _ _ _ (writeDev _ _) => apply looks_write; reflexivity
  | |- looks _ _ _ (allocDev _) => apply looks_alloc
  | |- looks _ _ _ (cacheDevice _) => apply looks_cache
  | |- looks _ _ _ (delDeviceByPhone _) => apply looks_del
  | |- looks _ _ _ (delGeoByPhone _) => apply looks_delGeo
  | |- looks _ _ _ (zoom _ _ _) => apply looks_zoom; intros ? ?; repeat split; reflexivity
  | |- looks _ _ _ (match ?x with _ => _ end) => destruct x
  | |- looks _ _ _ (rd1 _ _) => apply looks_quiet; [intros ?; repeat split; reflexivity|intros ? ? ?; apply looks_ret]
  | |- looks _ _ _ (wr1 _ _) => apply looks_quiet; [quietL|intros ? ? ?; apply looks_ret]
  | |- looks _ _ _ (Act _ _ _) => apply looks_quiet; [quietL|intros ? ? ?]
  end.
Lemma table_0200 id ok : lookupN optionTable id = Some (K0200, ok) -> id = 0x0200.
Proof.
  unfold optionTable. cbn [lookupN].
  repeat match goal with |- context [if ?a =? ?b then _ else _] => destruct (N.eqb_spec a b); [intros [= ]; congruence|] end. discriminate.
Qed.
Section handlers.
Context (S : str -> devgeo -> Prop).
Notation lo := (looks S anyL).
(** the reports of the packet are told *)
Definition tells (e : env) (p : packet) : Prop :=
  forall m now, report e p (h_phone (pk_hdr p)) m -> S (h_phone (pk_hdr p)) (geoOf now (h_phone (pk_hdr p)) m).
Lemma looks_serial o l : lo o (nextSerial l).
Proof. unfold nextSerial. lk. Qed.
Lemma looks_0200 e o inc m out : (forall now, S (h_phone (m_hdr inc)) (geoOf now (h_phone (m_hdr inc)) m)) -> lo o (process0200 e inc m out).
Proof.
  intros Hm. unfold process0200. eapply looks_bind; [apply looks_byPhone|]. intros o1 [l|] _ H1; [|apply looks_ret]. specialize (H1 l eq_refl).
  eapply looks_bind; [apply looks_const; exact H1|]. intros o2 dv _ ->.
  apply (looks_bind _ anyL); [unfold getNow; lk|]. intros o3 now _ _. cbv zeta.
  apply (looks_bind _ anyL); [unfold getNow; lk|]. intros o4 ? _ _.
  eapply looks_bind; [apply looks_getRing|]. intros o5 rl _ Hrl. apply (looks_bind _ anyL); [|intros; apply looks_ret].
  apply (looks_onRing _ _ _ _ anyR _ Hrl). apply keeps_write, Hm.
Qed.
Lemma looks_process e sl p o : tells e p -> lo o (process e sl p).
Proof.
  intros Hp. unfold process. destruct (lookupN _ _) as [[ik ok]|] eqn:El; [|apply looks_ret].
  destruct (_ && _); [unfold processSegment, getDeviceByPhone, readConst, getSession, readSess; lk; try apply looks_serial|].
  apply (looks_bind _ anyL); [unfold getNow; lk|]. intros o1 now _ _.
  apply (looks_bind _ (fun _ inc => msgDecode (e_o e) (e_civil e now) ik p = Ok inc)); [intros inc E; exact E|]. intros o2 inc _ E.
  destruct (msgDecode_ok _ _ _ _ _ E) as (Eh & Ek).
  destruct ok as [k|].
  - apply (looks_bind _ anyL); [unfold getNow; lk|]. intros o3 now' _ _.
    apply (looks_bind _ anyL); [apply looks_ret|]. intros o4 [out|] _ _; [|apply looks_ret].
    apply (looks_bind _ anyL); [|intros; apply looks_ret].
    assert (H0200 : forall m, m_body inc = B0200 m -> lo o4 (process0200 e inc m out)).
    { intros m Em. apply looks_0200. intros t. rewrite Eh. apply Hp. split; [reflexivity|].
      rewrite Em in Ek. cbn [kind_of] in Ek. subst ik. split; [exact (table_0200 _ _ El)|]. exists (e_civil e now). rewrite E.
      destruct inc as [h b]. cbn in Eh, Em. subst. reflexivity. }
    destruct (m_body inc) eqn:Em; try apply looks_ret; try (apply H0200; reflexivity);
      unfold process0002, process0003, process0100, process0102, process8100, process8103, process8104, process9205, timerRegister,
        hasPlate, hasPhone, getDeviceByPlate, getDeviceByPhone, getSession, readConst, readDev, timerRegister, timerCancel, timerAdd, getNow,
        getDeviceParamsByPhone, cacheDeviceParams, readSess; lk; try apply looks_serial.
  - destruct (m_body inc); try apply looks_ret. unfold process8001, getDeviceByPhone, readDev, getNow. lk.
Qed.
Lemma looks_serve e sl ins : (forall frm w p, In (Ok frm, w) ins -> decodePacket (e_o e) frm = Ok p -> tells e p) -> forall o, lo o (serveLoop e sl ins).
Proof.
  induction ins as [|[r w] t IH]; intros Hi o; cbn [serveLoop]; [apply looks_ret|].
  apply (looks_bindR _ anyL).
  - unfold serveOne, processConnRead. apply (looks_bind _ anyL); [unfold readSess; lk|]. intros o1 x _ _.
    apply (looks_bindR _ anyL); [|intros; lk].
    apply (looks_bind _ (fun _ b => r = Ok b)); [intros b E; exact E|]. intros o2 b _ ->.
    apply (looks_bind _ (fun _ p => tells e p)).
    + unfold decodeP. apply (looks_bind _ (fun _ p => decodePacket (e_o e) b = Ok p)); [intros p E; exact E|]. intros o3 p _ E.
      pose proof (Hi b w p (or_introl eq_refl) E) as Hp. destruct (isFragmented _); [|intros a [= <-]; exact Hp].
      destruct (h_frag _); [|intros ? ?; discriminate]. apply (looks_bind _ anyL); [unfold cacheSegment; lk|].
      intros o4 done _ _ a [= <-]. exact Hp.
    + intros o3 p _ Hp. apply (looks_bind _ anyL); [apply looks_process, Hp|]. intros o4 out _ _.
      unfold processConnWrite, connSend. lk.
  - intros o1 q _ _. destruct q as [[]|er|]; [apply IH; intros frm w' p Hin; apply (Hi frm w' p); right; exact Hin|
      unfold remove, lock, unlock, connClose, clearSession, readSess; lk..].
Qed.
Lemma looks_send e i m w o : lo o (serverSend e i m w).
Proof. unfold serverSend, remove, lock, unlock, processConnWrite, connSend, connClose, clearSession, readSess, getSession. lk. Qed.
(** what a location request answers *)
Definition answer (q : str) (a : list N * option devgeo) : Prop :=
  a = ([400], None) \/ a = ([], None) \/ exists g, a = ([200], Some g) /\ S q g.
Lemma looks_geo q o : looks S (fun _ => answer q) o (apiGeo q).
Proof.
  unfold apiGeo. eapply looks_bind; [apply looks_byPhone|]. intros o1 [l|] _ H1; [|intros a [= <-]; left; reflexivity].
  apply (looks_bind _ anyL); [unfold readDev; lk|]. intros o2 d _ _. unfold getGeoLatestByPhone.
  apply (looks_bind _ (fun _ x => forall g, x = Some g -> S q g)).
  - eapply looks_bind; [apply looks_getRing|]. intros o3 rl _ Hrl. apply (looks_onRing _ _ _ q _ _ Hrl). apply keeps_latest.
  - intros o3 [g|] _ Hg a [= <-]; [right; right; exists g; auto|right; left; reflexivity].
Qed.
Lemma looks_code e g o : (forall m now q, brings e g q m -> S q (geoOf now q m)) -> lo o (code e g).
Proof.
  intros Hg. destruct g as [k addr ins|sl ins|sl p|q| |q|q w|q bad ps w|now|]; cbn [code].
  - apply (looks_bind _ anyL); [unfold opened; lk|]. intros o1 ? _ _. apply (looks_bind _ anyL); [|intros; lk].
    unfold connThread. apply (looks_bind _ anyL); [unfold accept, lock, unlock, storeSession; lk|]. intros o2 sl _ _.
    apply looks_serve. intros frm w p Hin E m t Hr. apply Hg. exists frm, w, p. auto.
  - apply (looks_bind _ anyL); [|intros; lk]. apply looks_serve. intros frm w p Hin E m t Hr. apply Hg. exists frm, w, p. auto.
  - apply (looks_bind _ anyL); [|intros; lk]. apply looks_process. intros m t Hr. apply Hg. exact Hr.
  - unfold checkKeepalive, shouldTurnOffline, shouldClear, getDeviceByPhone, timerCancel, readDev, readConst, connClose, getNow. lk.
  - unfold apiList, listDevice. lk.
  - apply (looks_bind _ (fun _ => answer q)); [apply looks_geo|intros; lk].
  - unfold apiGetParams, getDeviceByPhone, readConst, apiSession, getSession, readSess. lk; first [apply looks_serial|apply looks_send].
  - unfold apiPutParams, getDeviceByPhone, readConst, apiSession, getSession, readSess. lk; first [apply looks_serial|apply looks_send].
  - lk.
  - unfold countSession. lk.
Qed.
Lemma conc_looks {A} (P : nat -> ghost -> A -> Prop) sch : (forall j, stays (P j)) -> forall ps s o,
  (forall j p, nth_error ps j = Some p -> looks S (P j) o p) -> kept S s o ->
  exists u, (forall j p, nth_error (fst (psteps ps s sch)) j = Some p -> looks S (P j) u p) /\ kept S (snd (psteps ps s sch)) u.
Proof.
  intros HP. induction sch as [|i sch IH]; intros ps s o Hp Hk; [exists o; split; assumption|].
  cbn [psteps]. destruct (pstep ps s i) as [ps' s'] eqn:E. unfold pstep in E. destruct (nth_error ps i) as [[r|a f k]|] eqn:Ei.
  - injection E as <- <-. exact (IH _ _ _ Hp Hk).
  - injection E as <- <-. destruct (Hp i _ Ei s o (below_refl o) Hk) as (u & H1 & H2 & H3). apply (IH _ _ u); [|exact H2].
    intros j p Hj. rewrite (nth_error_upd ps i j (k s) _ Ei) in Hj. destruct (Nat.eqb_spec i j) as [Eij|_].
    + injection Hj as <-. rewrite <- Eij. exact H3.
    + exact (looks_mono S _ _ _ _ (HP j) (Hp j p Hj) H1).
  - injection E as <- <-. exact (IH _ _ _ Hp Hk).
Qed.
End handlers.

Lemma request_told e gs s ph sch a : sane s -> own_rings s ->
  nth_error (fst (beside e (apiGeo ph) gs s sch)) 0 = Some (Ret (Ok (Some a))) ->
  a = ([400], None) \/ a = ([], None) \/ exists g, a = ([200], Some g) /\ told e gs s ph g.
Proof.
  intros Hs Ho H. set (S := told e gs s).
  destruct (conc_looks S (fun j (_ : ghost) (x : option (list N * option devgeo)) => forall y, x = Some y -> answer S ph y) sch
    (fun _ _ _ _ K _ => K) ((x <- apiGeo ph ;; ret (Some x))%prog :: List.map (fun g => (code e g ;;; ret None)%prog) gs) s
    (mkGhost (fun l p => st_geo s !! p = Some l) (fun l p => st_byPhone s !! p = Some l))) as (u & Hu & _).
  - intros j p Hj. destruct j as [|j]; cbn [nth_error] in Hj.
    + injection Hj as <-. apply (looks_bind _ (fun _ => answer S ph)); [apply looks_geo|]. intros o x _ Hx r [= <-] y [= <-]. exact Hx.
    + apply nth_error_In, in_map_iff in Hj. destruct Hj as (g & <- & Hg). apply (looks_bind _ anyL).
      * apply looks_code. intros m now q Hb. right. exists g, m. split; [exact Hg|]. split; [exact Hb|]. repeat split. exists now. reflexivity.
      * intros o x _ _ r [= <-] y. discriminate.
  - constructor; cbn.
    + intros l p p' K K'. exact (Ho p p' l K K').
    + auto.
    + intros l p K. destruct (sn_geo s Hs _ _ K) as (r & Hr). exists r. split; [exact Hr|]. intros g Hg. left. exists l, r. auto.
    + auto.
    + intros l p K. exact (sn_phone s Hs _ _ K).
  - exact (Hu 0%nat _ H (Some a) eq_refl a eq_refl).
Qed.

(** * A report that fills the buffer *)
Section same_ring.
Context (q : str) (n : nat).
Fixpoint leaves {A} (p : sp A) : Prop :=
  match p with
  | Ret _ => True
  | Act _ f k => (forall s, st_geo s !! q = Some n -> st_geo (f s) !! q = Some n) /\ forall s, leaves (k s)
  end.
Lemma leaves_bindR {A B} (p : sp A) (g : res A -> sp B) : leaves p -> (forall r, leaves (g r)) -> leaves (pbindR p g).
Proof. induction p as [r|a f k IH]; intros H Hg; cbn [pbindR]; [apply Hg|]. destruct H as (H1 & H2). split; [exact H1|]. intros s. apply IH; [apply H2|exact Hg]. Qed.
Lemma leaves_bind {A B} (p : sp A) (g : A -> sp B) : leaves p -> (forall a, leaves (g a)) -> leaves (pbind p g).
Proof. intros H Hg. apply leaves_bindR; [exact H|]. intros [a|er|]; [apply Hg|exact Logic.I..]. Qed.
Lemma leaves_quiet {A} a f (k : st -> sp A) : (forall s, st_geo (f s) = st_geo s) -> (forall s, leaves (k s)) -> leaves (Act a f k).
Proof. intros Hf Hk. split; [|exact Hk]. intros s. rewrite Hf. exact (fun x => x). Qed.
Lemma leaves_zoom {U A} (get : st -> U) put (p : prog U A) : (forall t s, st_geo (put t s) = st_geo s) -> leaves (zoom get put p).
Proof. intros Hp. induction p as [r|a f k IH]; cbn [zoom]; [exact Logic.I|]. apply leaves_quiet; [intros s; apply Hp|intros s; apply IH]. Qed.
Lemma leaves_ring p : leaves (getGeoRingByPhone p).
Proof.
  split; [|intros s; exact Logic.I]. intros s H. destruct (st_geo s !! p) as [l|] eqn:E; [exact H|].
  cbn. rewrite lookup_insert_ne; [exact H|]. intros X. subst p. congruence.
Qed.
Lemma leaves_run {A} (p : sp A) : forall s, leaves p -> st_geo s !! q = Some n -> st_geo (snd (run p s)) !! q = Some n.
Proof. induction p as [r|a f k IH]; intros s H Hs; [exact Hs|]. destruct H as (H1 & H2). cbn [run]. apply IH; [apply H2|apply H1, Hs]. Qed.
Lemma leaves_process e sl p : leaves (process e sl p).
Proof.
  unfold process, processSegment, process8001, process0002, process0003, process0100, process0102, process0200,
    process8100, process8103, process8104, process9205, timerRegister, hasPlate, hasPhone, getDeviceByPlate,
    getDeviceByPhone, getSession, readConst, readDev, cacheDevice, delDeviceByPhone, getNow, writeDev, allocDev, nextSerial,
    timerRegister, timerCancel, timerAdd, onRing, getDeviceParamsByPhone, cacheDeviceParams, readSess.
  repeat match goal with
  | |- leaves (getGeoRingByPhone _) => apply leaves_ring
  | |- leaves (pbind _ _) => apply leaves_bind; [|intros ?]
  | |- leaves (pbindR _ _) => apply leaves_bindR; [|intros ?]
  | |- leaves (zoom _ _ _) => apply leaves_zoom; reflexivity
  | |- leaves (ret _) => exact Logic.I
  | |- leaves (fail _) => exact Logic.I
  | |- leaves panic => exact Logic.I
  | |- leaves (lift _) => exact Logic.I
  | |- leaves (Ret _) => exact Logic.I
  | |- leaves (match ?x with _ => _ end) => destruct x
  | |- leaves (rd1 _ _) => apply leaves_quiet; [reflexivity|intros ?; exact Logic.I]
  | |- leaves (wr1 _ _) => apply leaves_quiet; [intros s; repeat match goal with |- context [match ?x with _ => _ end] => destruct x end; reflexivity|intros ?; exact Logic.I]
  | |- leaves (Act _ _ _) => apply leaves_quiet; [intros s; repeat match goal with |- context [match ?x with _ => _ end] => destruct x end; reflexivity|intros ?]
  end.
Qed.
End same_ring.

(** the request up to the second load of Writer *)
Definition second (q : str) (l : nat) : sp (option devgeo) :=
  onRing l (w' <- loadWriter l ;; size <- rd1 [] rg_size ;; getSlot l (Z.rem (w' - 1) size))%prog.
Definition geoTail (g : option devgeo) : sp (list N * option devgeo) :=
  match g with None => ret ([], None) | Some x => ret ([200], Some x) end.
Lemma moves_geo s q l d rl r : st_byPhone s !! q = Some l -> st_devs s !! l = Some d -> st_geo s !! q = Some rl ->
  st_rings s !! rl = Some r -> rg_writer r <> 0%Z ->
  moves (apiGeo q) s (pbind (second q rl) geoTail) s.
Proof.
  intros H1 H2 H3 H4 H5. unfold apiGeo.
  eapply moves_trans; [apply (moves_seq (getDeviceByPhone q) _ s (Some l) s); unfold getDeviceByPhone, rd1; cbn [run]; rewrite H1; reflexivity|].
  cbv beta iota. eapply moves_trans; [apply (moves_seq (readDev l) _ s d s); unfold readDev; cbn [run]; rewrite H2; reflexivity|].
  cbv beta. apply moves_bind. unfold getGeoLatestByPhone.
  eapply moves_trans; [apply (moves_seq (getGeoRingByPhone q) _ s rl s); unfold getGeoRingByPhone; cbn [run]; rewrite H3; reflexivity|].
  cbv beta. unfold onRing, ringLatest, second. unfold pbind at 1, rd1 at 1. cbn [pbindR zoom].
  eapply (mv_act _ _ _ _ _ _).
  assert (E : ringAt rl s = r) by (unfold ringAt; rewrite H4; reflexivity).
  replace (set_rings <[rl:=ringAt rl s]> s) with s.
  2:{ rewrite E. unfold set_rings. rewrite insert_id by exact H4. apply st_eta. }
  rewrite E. cbn [ret pbindR]. destruct (Z.eqb_spec (rg_writer r) 0) as [K|_]; [contradiction|]. apply mv_refl.
Qed.
Lemma second_panics s q l r : st_rings s !! l = Some r -> rg_writer r = 0%Z -> rg_size r = 100%Z ->
  exists s', run (second q l) s = (Panic, s').
Proof.
  intros H1 H2 H3. unfold second. rewrite (run_onRing _ _ _ r H1). cbn. rewrite H2, H3. cbn. eauto.
Qed.
Lemma request_panics e sl s p m d ws : consistent s -> carries e s p 0x0200 (B0200 m) ->
  devAt s (h_phone (pk_hdr p)) = Some d -> track s (h_phone (pk_hdr p)) ws -> (length ws mod 100 = 99)%nat ->
  exists sch, nth_error (fst (beside e (apiGeo (h_phone (pk_hdr p))) [GMsg sl p] s sch)) 0 = Some (Ret Panic).
Proof.
  intros C Hc Hd Ht Hl. set (ph := h_phone (pk_hdr p)) in *.
  destruct (location e sl s p m d ws C Hc Hd Ht) as (res & s' & g & R & C' & _ & Ht' & _). fold ph in Ht'.
  unfold devAt in Hd. destruct (st_byPhone s !! ph) as [l|] eqn:El; [|discriminate].
  unfold track, ringOf in Ht. destruct (st_geo s !! ph) as [rl|] eqn:Eg; [|subst ws; discriminate].
  destruct (st_rings s !! rl) as [r|] eqn:Er; [|subst ws; discriminate]. destruct Ht as (_ & _ & Hw & _).
  assert (M1 : moves (apiGeo ph) s (pbind (second ph rl) geoTail) s).
  { apply (moves_geo s ph l d rl r); try assumption. rewrite Hw, Hl. discriminate. }
  assert (Eg' : st_geo s' !! ph = Some rl).
  { pose proof (leaves_run ph rl _ s (leaves_process ph rl e sl p) Eg) as K. rewrite R in K. exact K. }
  unfold track, ringOf in Ht'. rewrite Eg' in Ht'. destruct (st_rings s' !! rl) as [r'|] eqn:Er'; [|destruct ws; discriminate].
  destruct Ht' as (Hs' & _ & Hw' & _).
  assert (Hw0 : rg_writer r' = 0%Z).
  { rewrite Hw', app_length. cbn [length]. pose proof (Nat.div_mod (length ws) 100 ltac:(lia)) as Dm. rewrite Hl in Dm.
    replace (length ws + 1)%nat with ((length ws / 100 + 1) * 100)%nat by lia. rewrite Nat.mod_mul by lia. reflexivity. }
  destruct (second_panics s' ph rl r' Er' Hw0 Hs') as (s2 & R2).
  assert (M2 : moves (x <- apiGeo ph ;; ret (Some x))%prog s (x <- pbind (second ph rl) geoTail ;; ret (Some x))%prog s)
    by exact (moves_bind _ _ _ _ _ M1).
  assert (M3 : exists y s'', moves (code e (GMsg sl p) ;;; ret (A:=option (list N * option devgeo)) None)%prog s y s'' /\ s'' = s').
  { eexists _, s'. split; [|reflexivity]. cbn [code]. apply moves_bind, moves_bind. apply moves_done. exact R. }
  destruct M3 as (y & s'' & M3 & ->).
  assert (M4 : moves (x <- pbind (second ph rl) geoTail ;; ret (Some x))%prog s' (Ret Panic) s2).
  { apply moves_done. rewrite !run_bind, R2. reflexivity. }
  destruct (reach_0 _ (code e (GMsg sl p) ;;; ret None)%prog _ _ _ M2) as (a & Sa).
  destruct (reach_1 (x <- pbind (second ph rl) geoTail ;; ret (Some x))%prog _ _ _ _ M3) as (b & Sb).
  destruct (reach_0 _ y _ _ _ M4) as (c & Sc).
  exists (a ++ b ++ c). unfold beside. cbn [List.map]. rewrite psteps_app, Sa. cbn [fst snd]. rewrite psteps_app, Sb. cbn [fst snd]. rewrite Sc. reflexivity.
Qed.
