(** A location request while no report of the phone comes in (C149) *)
From stdpp Require Import gmap.
From Verif Require Import Base HexM TimeM HeaderM ParamsM GeoM MsgM PacketM FrameM ProgM ProgP RingM StateM ProcM ServerM ConcM
  SpecRing SpecState SpecReg SpecConc SpecLook RingP StateP ProcP EffectP RaceP InterP ServerP.
From Verif Require LookP.
Local Open Scope N_scope.

(** who the location buffers and the device records were made for, and what is in the buffers of the phone *)
Record ghost : Type := mkGhost { gh_ring : nat -> str -> Prop; gh_dev : nat -> str -> Prop; gh_val : nat -> ring devgeo -> Prop }.
Definition below (o u : ghost) : Prop :=
  (forall l p, gh_ring o l p -> gh_ring u l p) /\ (forall l p, gh_dev o l p -> gh_dev u l p) /\ (forall l r, gh_val o l r -> gh_val u l r).
Lemma below_refl o : below o o.
Proof. repeat split; auto. Qed.
Lemma below_trans a b c : below a b -> below b c -> below a c.
Proof. intros (H1 & H2 & H3) (K1 & K2 & K3). repeat split; auto. Qed.

Section look.
Context (q : str) (V : ring devgeo -> Prop) (V0 : V (newRing ringCapacity)).
Record kept (s : st) (o : ghost) : Prop := {
  kp_fun : forall l p p', gh_ring o l p -> gh_ring o l p' -> p = p';
  kp_val : forall l r r', gh_val o l r -> gh_val o l r' -> r = r';
  kp_geo : forall p l, st_geo s !! p = Some l -> gh_ring o l p;
  kp_ring : forall l p, gh_ring o l p -> exists r, st_rings s !! l = Some r /\ (p = q -> V r /\ gh_val o l r);
  kp_all : forall l r, gh_val o l r -> is_Some (st_rings s !! l);
  kp_phone : forall p l, st_byPhone s !! p = Some l -> gh_dev o l p;
  kp_dev : forall l p, gh_dev o l p -> exists d, st_devs s !! l = Some d /\ d_phone d = p
}.
Fixpoint looks {A} (P : ghost -> res A -> Prop) (o : ghost) (p : sp A) : Prop :=
  match p with
  | Ret r => P o r
  | Act _ f k => forall s u, below o u -> kept s u -> exists u', below u u' /\ kept (f s) u' /\ looks P u' (k s)
  end.
Definition anyL {A} : ghost -> res A -> Prop := fun _ _ => True.
(** ends with a value of which [P] *)
Definition okL {A} (P : ghost -> A -> Prop) : ghost -> res A -> Prop := fun o r => exists a, r = Ok a /\ P o a.
(** a value, if there is one, has [P] *)
Definition mayL {A} (P : ghost -> A -> Prop) : ghost -> res A -> Prop := fun o r => forall a, r = Ok a -> P o a.
Definition stays {A} (P : ghost -> A -> Prop) : Prop := forall o u a, P o a -> below o u -> P u a.
Lemma looks_mono {A} P (p : sp A) o u : stays P -> looks P o p -> below o u -> looks P u p.
Proof.
  intros HP H Hb. destruct p as [r|a f k]; [exact (HP _ _ _ H Hb)|].
  intros s u' Hu. apply H. exact (below_trans _ _ _ Hb Hu).
Qed.
Lemma looks_bindR {A B} P Q (p : sp A) : forall o (g : res A -> sp B), looks P o p ->
  (forall u r, below o u -> P u r -> looks Q u (g r)) -> looks Q o (pbindR p g).
Proof.
  induction p as [r|a f k IH]; intros o g H Hg; cbn [pbindR]; [apply Hg; [apply below_refl|exact H]|].
  intros s u Hu Hs. destruct (H s u Hu Hs) as (u' & H1 & H2 & H3). exists u'. split; [exact H1|]. split; [exact H2|].
  apply IH; [exact H3|]. intros v r Hv. apply Hg. exact (below_trans _ _ _ Hu (below_trans _ _ _ H1 Hv)).
Qed.
Lemma looks_bind {A B} P (p : sp A) o (g : A -> sp B) : looks (mayL P) o p ->
  (forall u a, below o u -> P u a -> looks anyL u (g a)) -> looks anyL o (pbind p g).
Proof.
  intros H Hg. apply (looks_bindR (mayL P)); [exact H|]. intros u [a|er|] Hu K; [apply Hg; [exact Hu|apply K; reflexivity]|exact Logic.I..].
Qed.
Lemma looks_then {A B} P Q (p : sp A) o (g : A -> sp B) : looks (okL P) o p ->
  (forall u a, below o u -> P u a -> looks Q u (g a)) -> looks Q o (pbind p g).
Proof.
  intros H Hg. apply (looks_bindR (okL P)); [exact H|]. intros u r Hu (a & -> & K). apply Hg; assumption.
Qed.
Lemma looks_weak {A} (P Q : ghost -> res A -> Prop) (p : sp A) : (forall u r, P u r -> Q u r) -> forall o, looks P o p -> looks Q o p.
Proof.
  intros H. induction p as [r|a f k IH]; intros o K; [apply H, K|]. intros s u Hu Hs. destruct (K s u Hu Hs) as (u' & K1 & K2 & K3).
  exists u'. split; [exact K1|]. split; [exact K2|]. apply IH, K3.
Qed.
Lemma looks_ret {A} o (r : res A) : looks anyL o (Ret r).
Proof. exact Logic.I. Qed.
Definition same (s s' : st) : Prop :=
  st_geo s' = st_geo s /\ st_rings s' = st_rings s /\ st_byPhone s' = st_byPhone s /\ st_devs s' = st_devs s.
Lemma looks_quiet {A} P o a f (k : st -> sp A) : (forall s, same s (f s)) -> (forall s u, below o u -> looks P u (k s)) -> looks P o (Act a f k).
Proof.
  intros Hf Hk s u Hu [H1 H0 H2 H3 H6 H4 H5]. destruct (Hf s) as (E1 & E2 & E3 & E4). exists u. split; [apply below_refl|]. split; [|apply Hk, Hu].
  constructor; rewrite ?E1, ?E2, ?E3, ?E4; assumption.
Qed.
Lemma looks_zoom {U A} (get : st -> U) put (p : prog U A) o : (forall t s, same s (put t s)) -> looks anyL o (zoom get put p).
Proof.
  intros Hp. revert o. induction p as [r|a f k IH]; intros o; cbn [zoom]; [apply looks_ret|].
  apply looks_quiet; [intros s; apply Hp|]. intros s u _. apply IH.
Qed.
Definition its_dev (p : str) (o : ghost) (x : option nat) : Prop := forall l, x = Some l -> gh_dev o l p.
Lemma looks_byPhone p o : looks (okL (its_dev p)) o (getDeviceByPhone p).
Proof.
  intros s u Hu Hs. exists u. split; [apply below_refl|]. split; [exact Hs|]. eexists. split; [reflexivity|]. intros l E. exact (kp_phone _ _ Hs _ _ E).
Qed.
Lemma looks_const p o l : gh_dev o l p -> looks (okL (fun _ d => d_phone d = p)) o (readConst l).
Proof.
  intros Hl s u Hu Hs. exists u. split; [apply below_refl|]. split; [exact Hs|].
  destruct (kp_dev _ _ Hs _ _ (proj1 (proj2 Hu) _ _ Hl)) as (d & -> & E). exists d. split; [reflexivity|exact E].
Qed.
Lemma looks_read p o l : gh_dev o l p -> looks (okL (fun _ d => d_phone d = p)) o (readDev l).
Proof.
  intros Hl s u Hu Hs. exists u. split; [apply below_refl|]. split; [exact Hs|].
  destruct (kp_dev _ _ Hs _ _ (proj1 (proj2 Hu) _ _ Hl)) as (d & -> & E). exists d. split; [reflexivity|exact E].
Qed.
Lemma looks_write o l f : (forall d, d_phone (f d) = d_phone d) -> looks anyL o (writeDev l f).
Proof.
  intros Hf s u Hu [H1 H0 H2 H3 H6 H4 H5]. exists u. split; [apply below_refl|]. split; [|apply looks_ret]. constructor; cbn; try assumption.
  intros l' p K. destruct (H5 _ _ K) as (d & Hd & E). destruct (decide (l = l')) as [->|Hne].
  - exists (f d). rewrite lookup_alter, Hd. split; [reflexivity|]. rewrite Hf. exact E.
  - exists d. rewrite lookup_alter_ne by exact Hne. auto.
Qed.
Lemma looks_alloc o d : looks anyL o (allocDev d).
Proof.
  intros s u Hu [H1 H0 H2 H3 H6 H4 H5]. exists u. split; [apply below_refl|]. split; [|apply looks_ret]. constructor; cbn; try assumption.
  assert (F : st_devs s !! fresh (dom (st_devs s)) = None) by (apply not_elem_of_dom, is_fresh).
  intros l' p K. destruct (H5 _ _ K) as (d0 & Hd & E). exists d0. rewrite lookup_insert_ne; [auto|]. intros X. rewrite X in F. congruence.
Qed.
Lemma looks_cache o l : looks anyL o (cacheDevice l).
Proof.
  intros s u Hu Hs. destruct Hs as [H1 H0 H2 H3 H6 H4 H5]. cbn. destruct (st_devs s !! l) as [d|] eqn:E.
  - exists (mkGhost (gh_ring u) (fun m p => gh_dev u m p \/ (m = l /\ p = d_phone d)) (gh_val u)). split; [repeat split; cbn; auto|]. split; [|apply looks_ret].
    constructor; cbn; try assumption.
    + intros p m K. apply lookup_insert_Some in K as [(<- & <-)|(_ & K)]; [right; auto|left; exact (H4 _ _ K)].
    + intros m p [K|(-> & ->)]; [exact (H5 _ _ K)|eauto].
  - exists u. split; [apply below_refl|]. split; [constructor; assumption|apply looks_ret].
Qed.
Lemma looks_del o p : looks anyL o (delDeviceByPhone p).
Proof.
  intros s u Hu Hs. destruct Hs as [H1 H0 H2 H3 H6 H4 H5]. exists u. split; [apply below_refl|]. split; [|apply looks_ret]. cbn.
  destruct (st_byPhone s !! p) as [l|]; [destruct (st_devs s !! l) as [d|]|]; try (constructor; assumption).
  constructor; cbn; try assumption. intros p' m K. apply lookup_delete_Some in K as (_ & K). exact (H4 _ _ K).
Qed.
Lemma looks_delGeo o p : looks anyL o (delGeoByPhone p).
Proof.
  intros s u Hu Hs. destruct Hs as [H1 H0 H2 H3 H6 H4 H5]. exists u. split; [apply below_refl|]. split; [|apply looks_ret].
  constructor; cbn; try assumption. intros p' m K. apply lookup_delete_Some in K as (_ & K). exact (H2 _ _ K).
Qed.
(** the buffer of [p]; if [p] is the phone, with what is and stays in it *)
Definition its_ring (p : str) (o : ghost) (l : nat) : Prop := gh_ring o l p /\ (p = q -> exists r, V r /\ gh_val o l r).
Lemma looks_getRing o p : looks (okL (its_ring p)) o (getGeoRingByPhone p).
Proof.
  intros s u Hu Hs. destruct Hs as [H1 H0 H2 H3 H6 H4 H5]. cbn beta zeta. destruct (st_geo s !! p) as [l|] eqn:E.
  - exists u. split; [apply below_refl|]. split; [constructor; assumption|]. exists l. split; [reflexivity|]. split; [exact (H2 _ _ E)|].
    intros Ep. destruct (H3 _ _ (H2 _ _ E)) as (r & _ & K). exists r. exact (K Ep).
  - set (n := fresh (dom (st_rings s))).
    assert (F : st_rings s !! n = None) by (apply not_elem_of_dom, is_fresh).
    assert (N : forall p', ~ gh_ring u n p') by (intros p' K; destruct (H3 _ _ K) as (r & Hr & _); congruence).
    assert (N' : forall r, ~ gh_val u n r) by (intros r K; destruct (H6 _ _ K) as (r' & Hr'); congruence).
    exists (mkGhost (fun m p' => gh_ring u m p' \/ (m = n /\ p' = p)) (gh_dev u) (fun m r => gh_val u m r \/ (m = n /\ r = newRing ringCapacity))).
    split; [repeat split; cbn; auto|]. split.
    + constructor; cbn; try assumption.
      * intros m p1 p2 [K|(-> & ->)] [K'|(E' & ->)]; [exact (H1 _ _ _ K K')|subst m; destruct (N _ K)|destruct (N _ K')|reflexivity].
      * intros m r1 r2 [K|(-> & ->)] [K'|(E' & ->)]; [exact (H0 _ _ _ K K')|subst m; destruct (N' _ K)|destruct (N' _ K')|reflexivity].
      * intros p' m K. apply lookup_insert_Some in K as [(<- & <-)|(_ & K)]; [right; auto|left; exact (H2 _ _ K)].
      * intros m p' [K|(-> & ->)].
        -- destruct (H3 _ _ K) as (r & Hr & Ht). exists r. rewrite lookup_insert_ne; [split; [exact Hr|]; intros X; destruct (Ht X); auto|].
           intros X. subst m. exact (N _ K).
        -- exists (newRing ringCapacity). rewrite lookup_insert. split; [reflexivity|]. auto.
      * intros m r [K|(-> & ->)]; [|rewrite lookup_insert; eauto]. rewrite lookup_insert_ne; [exact (H6 _ _ K)|]. intros X. subst m. exact (N' _ K).
    + exists n. split; [reflexivity|]. split; cbn; [right; auto|]. intros _. exists (newRing ringCapacity). auto.
Qed.
(** calls on the buffer of another phone *)
Lemma looks_onRing {A} o l p (pr : prog (ring devgeo) A) : gh_ring o l p -> p <> q -> looks anyL o (onRing l pr).
Proof.
  intros Hl Hp. unfold onRing. revert o Hl. induction pr as [r|a f k IH]; intros o Hl; cbn [zoom]; [apply looks_ret|].
  intros s u Hu Hs. pose proof (proj1 Hu _ _ Hl) as Hl'. exists u. split; [apply below_refl|]. split; [|apply IH, Hl'].
  destruct Hs as [H1 H0 H2 H3 H6 H4 H5]. constructor; cbn; try assumption.
  - intros m p' K. destruct (decide (l = m)) as [->|Hne].
    + rewrite lookup_insert. eexists. split; [reflexivity|]. intros ->. destruct (Hp (H1 _ _ _ Hl' K)).
    + rewrite lookup_insert_ne by exact Hne. exact (H3 _ _ K).
  - intros m r K. destruct (decide (l = m)) as [->|Hne]; [rewrite lookup_insert; eauto|]. rewrite lookup_insert_ne by exact Hne. exact (H6 _ _ K).
Qed.
(** reading the buffer of the phone *)
Fixpoint reads {A} (p : prog (ring devgeo) A) : Prop :=
  match p with Ret _ => True | Act _ f k => forall r, f r = r /\ reads (k r) end.
Lemma looks_fixed {A} o l r (pr : prog (ring devgeo) A) : gh_ring o l q -> gh_val o l r -> reads pr ->
  looks (fun _ x => x = fst (run pr r)) o (onRing l pr).
Proof.
  intros Hl Hr. unfold onRing. revert o Hl Hr. induction pr as [x|a f k IH]; intros o Hl Hr Hp; cbn [zoom run]; [reflexivity|].
  intros s u Hu Hs. pose proof (proj1 Hu _ _ Hl) as Hl'. pose proof (proj2 (proj2 Hu) _ _ Hr) as Hr'.
  destruct (kp_ring _ _ Hs _ _ Hl') as (r' & Er & Hv). destruct (Hv eq_refl) as (_ & Hv'). rewrite (kp_val _ _ Hs _ _ _ Hv' Hr') in Er.
  assert (E : ringAt l s = r) by (unfold ringAt; rewrite Er; reflexivity). destruct (Hp r) as (Ef & Hk).
  exists u. split; [apply below_refl|]. rewrite E, Ef. split; [|exact (IH r u Hl' Hr' Hk)].
  rewrite (set_rings_id s l r Er). exact Hs.
Qed.
Lemma reads_latest l : reads (ringLatest (A:=devgeo) l).
Proof.
  unfold ringLatest, loadWriter, rd1, getSlot, pbind. cbn. intros r. split; [reflexivity|]. destruct (_ =? 0)%Z; cbn; [exact Logic.I|].
  intros r1. split; [reflexivity|]. intros r2. split; [reflexivity|]. intros r3. split; [reflexivity|]. destruct (inRange _ _); exact Logic.I.
Qed.
End look.

Ltac quietL := intros ?s; repeat match goal with |- context [match ?x with _ => _ end] => destruct x end; repeat split; reflexivity.
Ltac lk := repeat match goal with
  | |- looks _ _ _ _ (pbind _ _) => apply (looks_bindR _ _ anyL); [|intros ? [?|?|] ? _; [|apply looks_ret..]]
  | |- looks _ _ _ _ (pbindR _ _) => apply (looks_bindR _ _ anyL); [|intros ? ? ? _]
  | |- looks _ _ anyL _ (ret _) => apply looks_ret
  | |- looks _ _ anyL _ (fail _) => apply looks_ret
  | |- looks _ _ anyL _ panic => apply looks_ret
  | |- looks _ _ anyL _ (lift _) => apply looks_ret
  | |- looks _ _ anyL _ (Ret _) => apply looks_ret
  | |- looks _ _ _ _ (writeDev _ _) => apply looks_write; reflexivity
  | |- looks _ _ _ _ (allocDev _) => apply looks_alloc
  | |- looks _ _ _ _ (cacheDevice _) => apply looks_cache
  | |- looks _ _ _ _ (delDeviceByPhone _) => apply looks_del
  | |- looks _ _ _ _ (delGeoByPhone _) => apply looks_delGeo
  | |- looks _ _ _ _ (zoom _ _ _) => apply looks_zoom; intros ? ?; repeat split; reflexivity
  | |- looks _ _ _ _ (match ?x with _ => _ end) => destruct x
  | |- looks _ _ _ _ (rd1 _ _) => apply looks_quiet; [intros ?; repeat split; reflexivity|intros ? ? ?; apply looks_ret]
  | |- looks _ _ _ _ (wr1 _ _) => apply looks_quiet; [quietL|intros ? ? ?; apply looks_ret]
  | |- looks _ _ _ _ (Act _ _ _) => apply looks_quiet; [quietL|intros ? ? ?]
  end.
Section handlers.
Context (q : str) (V : ring devgeo -> Prop) (V0 : V (newRing ringCapacity)).
Notation lo := (looks q V anyL).
(** the packet is no report of the phone *)
Definition silent (e : env) (p : packet) : Prop := forall m, ~ report e p q m.
Lemma looks_serial o l : lo o (nextSerial l).
Proof. unfold nextSerial. lk. Qed.
Lemma looks_0200 e o inc m out : h_phone (m_hdr inc) <> q -> lo o (process0200 e inc m out).
Proof.
  intros Hm. unfold process0200. eapply looks_then; [apply looks_byPhone|]. intros o1 [l|] _ H1; [|apply looks_ret]. specialize (H1 l eq_refl).
  eapply looks_then; [apply looks_const; exact H1|]. intros o2 dv _ ->.
  apply (looks_bind _ _ (fun _ _ => True)); [intros s u Hu Hs; exists u; split; [apply below_refl|]; split; [exact Hs|]; intros ? ?; exact Logic.I|]. intros o3 now _ _. cbv zeta.
  apply (looks_bindR _ _ anyL); [unfold getNow; lk|]. intros o4 [?|?|] _ _; [|apply looks_ret..].
  eapply looks_then; [apply looks_getRing, V0|]. intros o5 rl _ (Hrl & _). apply (looks_bindR _ _ anyL); [|intros ? [?|?|] ? _; apply looks_ret].
  exact (looks_onRing _ _ _ _ _ _ Hrl Hm).
Qed.
Lemma looks_lift {A B} (r : res A) o (g : A -> sp B) : (forall u a, r = Ok a -> lo u (g a)) -> lo o (pbind (lift r) g).
Proof. intros H. destruct r as [a|er|]; [exact (H o a eq_refl)|apply looks_ret..]. Qed.
Ltac next := apply (looks_bindR _ _ anyL); [|intros ? [?|?|] ? _; [|apply looks_ret..]].
Lemma looks_process e sl p o : silent e p -> lo o (process e sl p).
Proof.
  intros Hp. unfold process. destruct (lookupN _ _) as [[ik ok]|] eqn:El; [|apply looks_ret].
  destruct (_ && _); [unfold processSegment, getDeviceByPhone, readConst, getSession, readSess; lk; try apply looks_serial|].
  apply (looks_bindR _ _ anyL); [unfold getNow; lk|]. intros o1 [now|?|] _ _; [|apply looks_ret..].
  apply looks_lift. intros o2 inc E.
  destruct (msgDecode_ok _ _ _ _ _ E) as (Eh & Ek).
  destruct ok as [k|].
  - next; [unfold getNow; lk|]. next; [apply looks_ret|]. match goal with |- lo _ (match ?x with _ => _ end) => destruct x as [out|] end; [|apply looks_ret].
    next; [|apply looks_ret].
    match goal with |- lo ?o4 _ => assert (H0200 : forall m, m_body inc = B0200 m -> lo o4 (process0200 e inc m out)) end.
    { intros m Em. apply looks_0200. intros Eq. rewrite Eh in Eq. apply (Hp m). split; [exact Eq|].
      rewrite Em in Ek. cbn [kind_of] in Ek. subst ik. split; [exact (LookP.table_0200 _ _ El)|]. exists (e_civil e now). rewrite E.
      destruct inc as [h b]. cbn in Eh, Em. subst. reflexivity. }
    destruct (m_body inc) eqn:Em; try apply looks_ret; try (apply H0200; reflexivity);
      unfold process0002, process0003, process0100, process0102, process8100, process8103, process8104, process9205, timerRegister,
        hasPlate, hasPhone, getDeviceByPlate, getDeviceByPhone, getSession, readConst, readDev, timerRegister, timerCancel, timerAdd, getNow,
        getDeviceParamsByPhone, cacheDeviceParams, readSess; lk; try apply looks_serial.
  - destruct (m_body inc); try apply looks_ret. unfold process8001, getDeviceByPhone, readDev, getNow. lk.
Qed.
Lemma looks_serve e sl ins : (forall frm w p, In (Ok frm, w) ins -> decodePacket (e_o e) frm = Ok p -> silent e p) -> forall o, lo o (serveLoop e sl ins).
Proof.
  induction ins as [|[r w] t IH]; intros Hi o; cbn [serveLoop]; [apply looks_ret|].
  apply (looks_bindR _ _ anyL).
  - unfold serveOne, processConnRead. next; [unfold readSess; lk|].
    apply (looks_bindR _ _ anyL); [|intros; lk].
    apply looks_lift. intros o2 b ->.
    apply (looks_bind _ _ (fun _ p => silent e p)).
    + unfold decodeP. destruct (decodePacket (e_o e) b) as [p|er|] eqn:E; [|intros ? ?; discriminate..].
      pose proof (Hi b w p (or_introl eq_refl) E) as Hp. unfold lift, pbind at 1. cbn [pbindR]. destruct (isFragmented _); [|intros pk0 [= <-]; exact Hp].
      destruct (h_frag _); [|intros ? ?; discriminate]. apply (looks_bindR _ _ anyL); [unfold cacheSegment; lk|].
      intros o4 [done|?|] _ _; [intros pk0 [= <-]; exact Hp|intros ? ?; discriminate..].
    + intros o3 p _ Hp. next; [apply looks_process, Hp|]. unfold processConnWrite, connSend. lk.
  - intros o1 x _ _. destruct x as [[]|er|]; [apply IH; intros frm w' p Hin; apply (Hi frm w' p); right; exact Hin|
      unfold remove, lock, unlock, connClose, clearSession, readSess; lk..].
Qed.
Lemma looks_send e i m w o : lo o (serverSend e i m w).
Proof. unfold serverSend, remove, lock, unlock, processConnWrite, connSend, connClose, clearSession, readSess, getSession. lk. Qed.
(** what a location request answers *)
Definition answer (a : list N * option devgeo) : Prop :=
  a = ([400], None) \/ exists l r, V r /\ (fst (run (ringLatest l) r) = Ok None /\ a = ([], None)
    \/ exists g, fst (run (ringLatest l) r) = Ok (Some g) /\ a = ([200], Some g)).
Lemma looks_geo o : (forall l r, V r -> exists x, fst (run (ringLatest l) r) = Ok x) -> looks q V (okL (fun _ => answer)) o (apiGeo q).
Proof.
  intros Hv. unfold apiGeo. eapply looks_then; [apply looks_byPhone|]. intros o1 [l|] _ H1; [|eexists; split; [reflexivity|left; reflexivity]].
  eapply looks_then; [apply looks_read, H1; reflexivity|]. intros o2 d _ _. unfold getGeoLatestByPhone.
  apply (looks_then _ _ (fun _ x => exists l r, V r /\ fst (run (ringLatest l) r) = Ok x)).
  - eapply looks_then; [apply looks_getRing, V0|]. intros o3 rl _ (Hrl & K). destruct (K eq_refl) as (r & Hr & Hval).
    apply (looks_weak _ _ (fun _ x => x = fst (run (ringLatest rl) r))); [|exact (looks_fixed _ _ _ _ _ _ Hrl Hval (reads_latest rl))].
    intros u x ->. destruct (Hv rl r Hr) as (y & Ey). exists y. eauto.
  - intros o3 [g|] _ (rl & r & Hr & E); eexists; (split; [reflexivity|]); right; exists rl, r; eauto.
Qed.
Lemma looks_code e g o : (forall l r, V r -> exists x, fst (run (ringLatest l) r) = Ok x) -> (forall m, ~ brings e g q m) -> lo o (code e g).
Proof.
  intros Hv Hg. destruct g as [k addr ins|sl ins|sl p|q'| |q'|q' w|q' bad ps w|now|]; cbn [code].
  - next; [unfold opened; lk|]. next; [|lk].
    unfold connThread. next; [unfold accept, lock, unlock, storeSession; lk|].
    apply looks_serve. intros frm w p Hin E m Hr. apply (Hg m). exists frm, w, p. auto.
  - next; [|lk]. apply looks_serve. intros frm w p Hin E m Hr. apply (Hg m). exists frm, w, p. auto.
  - next; [|lk]. apply looks_process. intros m Hr. apply (Hg m). exact Hr.
  - unfold checkKeepalive, shouldTurnOffline, shouldClear, getDeviceByPhone, timerCancel, readDev, readConst, connClose, getNow. lk.
  - unfold apiList, listDevice. lk.
  - next; [|lk]. unfold apiGeo. next; [unfold getDeviceByPhone; lk|]. lk; try (unfold readDev; lk).
    unfold getGeoLatestByPhone. eapply looks_then; [apply looks_getRing, V0|]. intros o3 rl _ (Hrl & K). destruct (decide (q' = q)) as [->|Hne].
    + destruct (K eq_refl) as (r & Hr & Hval). apply (looks_weak _ _ (fun _ x => x = fst (run (ringLatest rl) r))); [intros; exact Logic.I|].
      exact (looks_fixed _ _ _ _ _ _ Hrl Hval (reads_latest rl)).
    + exact (looks_onRing _ _ _ _ _ _ Hrl Hne).
  - unfold apiGetParams, getDeviceByPhone, readConst, apiSession, getSession, readSess. lk; first [apply looks_serial|apply looks_send].
  - unfold apiPutParams, getDeviceByPhone, readConst, apiSession, getSession, readSess. lk; first [apply looks_serial|apply looks_send].
  - lk.
  - unfold countSession. lk.
Qed.
Lemma conc_looks {A} (P : nat -> ghost -> res A -> Prop) sch : (forall j, stays (P j)) -> forall ps s o,
  (forall j p, nth_error ps j = Some p -> looks q V (P j) o p) -> kept q V s o ->
  exists u, (forall j p, nth_error (fst (psteps ps s sch)) j = Some p -> looks q V (P j) u p) /\ kept q V (snd (psteps ps s sch)) u.
Proof.
  intros HP. induction sch as [|i sch IH]; intros ps s o Hp Hk; [exists o; split; assumption|].
  cbn [psteps]. destruct (pstep ps s i) as [ps' s'] eqn:E. unfold pstep in E. destruct (nth_error ps i) as [[r|a f k]|] eqn:Ei.
  - injection E as <- <-. exact (IH _ _ _ Hp Hk).
  - injection E as <- <-. destruct (Hp i _ Ei s o (below_refl o) Hk) as (u & H1 & H2 & H3). apply (IH _ _ u); [|exact H2].
    intros j p Hj. rewrite (nth_error_upd ps i j (k s) _ Ei) in Hj. destruct (Nat.eqb_spec i j) as [Eij|_].
    + injection Hj as <-. rewrite <- Eij. exact H3.
    + exact (looks_mono q V _ _ _ _ (HP j) (Hp j p Hj) H1).
  - injection E as <- <-. exact (IH _ _ _ Hp Hk).
Qed.
End handlers.

Lemma latest_of l ws r : holds 100 ws r ->
  fst (run (ringLatest (A:=devgeo) l) r) = Ok (if (length ws mod 100 =? 0)%nat then None else last_of ws).
Proof.
  intros Hh. rewrite (run_latest l r (holds_ok 100 ws r ltac:(lia) Hh)). cbn [fst].
  destruct Hh as (Hs & (Hsl & Hw1 & Hw2) & Hwr & Hrd). rewrite Hwr.
  replace (Z.of_nat (length ws mod 100) =? 0)%Z with (length ws mod 100 =? 0)%nat.
  2:{ destruct (length ws mod 100 =? 0)%nat eqn:E0, (Z.of_nat (length ws mod 100) =? 0)%Z eqn:E1; try reflexivity.
      - apply Nat.eqb_eq in E0. apply Z.eqb_neq in E1. lia.
      - apply Nat.eqb_neq in E0. apply Z.eqb_eq in E1. lia. }
  destruct (length ws mod 100 =? 0)%nat eqn:E0; [reflexivity|].
  apply Nat.eqb_neq in E0.
  unfold last_of. destruct ws as [|w ws _] using rev_ind; [cbn in E0; lia|].
  rewrite rev_app_distr. cbn [rev app].
  assert (Hn : nth_error (rg_slots r) (length ws mod 100) = Some (Some w)).
  { apply (Hw1 (length ws) w).
    - rewrite nth_error_app2 by lia. rewrite Nat.sub_diag. reflexivity.
    - rewrite app_length. cbn. lia. }
  replace (Z.to_nat (Z.of_nat (length (ws ++ [w]) mod 100) - 1)) with (length ws mod 100)%nat.
  2:{ rewrite app_length in *. cbn [length] in *.
      pose proof (Nat.div_mod (length ws) 100). pose proof (Nat.div_mod (length ws + 1) 100).
      pose proof (Nat.mod_upper_bound (length ws) 100). pose proof (Nat.mod_upper_bound (length ws + 1) 100).
      lia. }
  rewrite (nth_error_nth _ _ None Hn). reflexivity.
Qed.
Lemma request_answered e gs s ph sch ws r : consistent s -> track s ph ws -> (forall g m, In g gs -> ~ brings e g ph m) ->
  nth_error (fst (beside e (apiGeo ph) gs s sch)) 0 = Some (Ret r) ->
  r = Ok (Some ([400], None)) \/ r = Ok (Some ([], None))
  \/ exists g, last_of ws = Some g /\ r = Ok (Some ([200], Some g)).
Proof.
  intros C Ht Hg H. set (V := fun r0 => holds 100 [] r0 \/ holds 100 ws r0).
  assert (V0 : V (newRing ringCapacity)).
  { left. apply holds_new. }
  assert (Hv : forall l r0, V r0 -> exists x, fst (run (ringLatest (A:=devgeo) l) r0) = Ok x).
  { intros l r0 [K|K]; rewrite (latest_of l _ _ K); eauto. }
  destruct (conc_looks ph V (fun j => match j with O => okL (fun _ x => exists y, x = Some y /\ answer V y) | _ => anyL end) sch) with
    (ps := (x <- apiGeo ph ;; ret (Some x))%prog :: List.map (fun g => (code e g ;;; ret (A:=option (list N * option devgeo)) None)%prog) gs) (s := s)
    (o := mkGhost (fun l p => st_geo s !! p = Some l) (fun l p => st_byPhone s !! p = Some l) (fun l r0 => st_geo s !! ph = Some l /\ st_rings s !! l = Some r0)) as (u & Hu & _).
  - intros [|j] o u x K _; exact K.
  - intros j p Hj. destruct j as [|j]; cbn [nth_error] in Hj.
    + injection Hj as <-. eapply looks_then; [apply (looks_geo ph V V0 _ Hv)|]. intros o x _ Hx. eexists. split; [reflexivity|]. exists x. auto.
    + apply nth_error_In, in_map_iff in Hj. destruct Hj as (g & <- & Hin). apply (looks_bindR _ _ anyL); [|intros ? [?|?|] ? _; exact Logic.I].
      apply (looks_code ph V V0 e g _ Hv). intros m. exact (Hg g m Hin).
  - constructor; cbn.
    + intros l p p' K K'. exact (cs_geo_inj s C p p' l K K').
    + intros l r1 r2 (_ & K) (_ & K'). congruence.
    + auto.
    + intros l p K. destruct (cs_geo s C _ _ K) as (r0 & ws' & Hr & Hh & _). exists r0. split; [exact Hr|]. intros ->.
      split; [|auto]. unfold track, ringOf in Ht. rewrite K, Hr in Ht. right. exact Ht.
    + intros l r0 (_ & K). eauto.
    + auto.
    + intros l p K. destruct (cs_phone s C _ _ K) as (d & K1 & K2 & _). eauto.
  - destruct (Hu 0%nat _ H) as (x & -> & y & -> & [->|(l & r0 & Hr & K)]); [auto|].
    assert (E : exists ws', fst (run (ringLatest l) r0) = Ok (if (length ws' mod 100 =? 0)%nat then None else last_of ws') /\ (ws' = [] \/ ws' = ws)).
    { destruct Hr as [Hr|Hr]; [exists []|exists ws]; (split; [exact (latest_of l _ _ Hr)|auto]). }
    destruct E as (ws' & E & Hw). right. destruct K as [(K & ->)|(g & K & ->)]; [auto|]. right. exists g. split; [|reflexivity].
    rewrite E in K. destruct (_ =? 0)%nat; [discriminate|]. injection K as K. destruct Hw as [-> | ->]; [discriminate|exact K].
Qed.
