(** What every schedule of every number of goroutines keeps *)
From stdpp Require Import gmap.
From Verif Require Import Base HexM TimeM HeaderM ParamsM GeoM MsgM PacketM FrameM ProgM ProgP RingM SpecRing RingP
  StateM ProcM ServerM ConcM SpecState SpecConc StateP ProcP ServerP EffectP.
Local Open Scope N_scope.

(** goroutines with a postcondition each *)
Section SafeI.
Context {S : Type} (I : S -> Prop) (G : S -> S -> Prop).
Hypothesis Grefl : forall s, G s s.
Hypothesis Gtrans : forall a b c, G a b -> G b c -> G a c.
Lemma pstep_safe_i {A} (Q : nat -> S -> res A -> Prop) ps s i :
  I s -> (forall j p, nth_error ps j = Some p -> safe I G (Q j) s p) ->
  I (snd (pstep ps s i)) /\ G s (snd (pstep ps s i))
  /\ forall j p, nth_error (fst (pstep ps s i)) j = Some p -> safe I G (Q j) (snd (pstep ps s i)) p.
Proof.
  intros Hi Hs. unfold pstep. destruct (nth_error ps i) as [[r|a f k]|] eqn:E; cbn; auto.
  pose proof (Hs i _ E) as H. inversion H as [|? ? ? ? Hk Hk']; subst.
  destruct (Hk s Hi (Grefl s)) as (H1 & H2). pose proof (Hk' s Hi (Grefl s)) as H3. repeat split; [assumption..|].
  intros j p Hj. rewrite (nth_error_upd ps i j (k s) _ E) in Hj.
  destruct (Nat.eqb_spec i j) as [<-|]; [congruence|]. eapply safe_mono; [exact Gtrans|eapply Hs; eassumption|exact H2].
Qed.
Lemma psteps_safe_i {A} (Q : nat -> S -> res A -> Prop) sch : forall ps s,
  I s -> (forall j p, nth_error ps j = Some p -> safe I G (Q j) s p) ->
  I (snd (psteps ps s sch)) /\ G s (snd (psteps ps s sch))
  /\ forall j p, nth_error (fst (psteps ps s sch)) j = Some p ->
       safe I G (Q j) (snd (psteps ps s sch)) p.
Proof.
  induction sch as [|i t IH]; intros ps s Hi Hs; cbn; [auto|].
  destruct (pstep_safe_i Q ps s i Hi Hs) as (H1 & H2 & H3).
  destruct (pstep ps s i) as [ps' s'] eqn:E. cbn in *.
  destruct (IH ps' s' H1 H3) as (G1 & G2 & G3). repeat split; [exact G1| |exact G3].
  eapply Gtrans; eassumption.
Qed.
End SafeI.

Lemma grows_refl s : grows s s.
Proof. constructor; eauto. Qed.
Lemma grows_trans a b c : grows a b -> grows b c -> grows a c.
Proof.
  intros [D1 S1 C1 R1] [D2 S2 C2 R2]. constructor; auto.
  - intros l d H. destruct (D1 l d H) as (d' & H' & E'). destruct (D2 l d' H') as (d'' & H'' & E''). exists d''. split; [exact H''|]. congruence.
  - intros l x H. destruct (S1 l x H) as (x' & H' & E1 & E2). destruct (S2 l x' H') as (x'' & H'' & E3 & E4). exists x''. split_and!; congruence.
Qed.

(** no panic when [np], and [P] of the result *)
Definition post {A} (np : bool) (P : st -> A -> Prop) : st -> res A -> Prop :=
  fun t r => match r with Ok a => P t a | Err _ => True | Panic => np = false end.
Notation SF np P s p := (safe sane grows (post np P) s p).
(** predicates that later states keep *)
Definition stable {A} (P : st -> A -> Prop) : Prop := forall t u a, P t a -> grows t u -> P u a.
Definition any {A} : st -> A -> Prop := fun _ _ => True.

Section Rules.
Context (np : bool).
Lemma sf_bind {A B} (P : st -> A -> Prop) (P' : st -> B -> Prop) s (p : sp A) g :
  sane s -> SF np P s p -> (forall t a, grows s t -> sane t -> P t a -> SF np P' t (g a)) -> SF np P' s (pbind p g).
Proof.
  intros Hs Hp Hg. unfold pbind. eapply safe_bindR; [exact grows_refl|exact grows_trans|exact Hp| |exact Hs].
  intros t [a|er|] Ht Hi HQ; [apply Hg; assumption|constructor; intros; exact Logic.I|constructor; intros; exact HQ].
Qed.
Lemma sf_ret {A} (P : st -> A -> Prop) s a : stable P -> P s a -> SF np P s (ret a).
Proof. intros Hst Hp. constructor. intros s' _ Hg. exact (Hst s s' a Hp Hg). Qed.
Lemma sf_any {A} s (a : A) : SF np any s (ret a).
Proof. constructor. intros. exact Logic.I. Qed.
Lemma sf_fail {A} (P : st -> A -> Prop) s e : SF np P s (fail e).
Proof. constructor. intros. exact Logic.I. Qed.
Lemma sf_weak {A} (P P' : st -> A -> Prop) s p : (forall t a, P t a -> P' t a) -> SF np P s p -> SF np P' s p.
Proof.
  intros H Hp. eapply safe_post; [exact grows_trans|exact Hp|].
  intros t [a|er|] _ _; cbn; auto.
Qed.
Lemma sf_act {A} (P : st -> A -> Prop) s a f k :
  (forall t, grows s t -> sane t -> sane (f t) /\ grows t (f t)) ->
  (forall t, grows s t -> sane t -> sane (f t) -> grows t (f t) -> SF np P (f t) (k t)) -> SF np P s (Act a f k).
Proof.
  intros H1 H2. constructor; [auto|]. intros t Hi Hg. destruct (H1 t Hg Hi). apply H2; assumption.
Qed.
Lemma sf_read {A} (P : st -> A -> Prop) s a g : stable P -> (forall t, grows s t -> sane t -> P t (g t)) ->
  SF np P s (rd1 a g).
Proof.
  intros Hst H. apply sf_act; [intros; split; [assumption|apply grows_refl]|].
  intros t Hg Hi _ _. apply sf_ret; auto.
Qed.
Lemma sf_write s a f : (forall t, grows s t -> sane t -> sane (f t) /\ grows t (f t)) -> SF np any s (wr1 a f).
Proof. intros H. apply sf_act; [exact H|]. intros. apply sf_any. Qed.

Lemma sf_lock s m : SF np any s (lock m).
Proof. apply sf_write. intros t _ Ht. split; [exact Ht|apply grows_refl]. Qed.
Lemma sf_unlock s m : SF np any s (unlock m).
Proof. apply sf_write. intros t _ Ht. split; [exact Ht|apply grows_refl]. Qed.

(** ** The pieces *)
Definition dev (s : st) (l : nat) : Prop := is_Some (st_devs s !! l).
Definition sess (s : st) (l : nat) : Prop := is_Some (st_sess s !! l).
Lemma stable_dev : stable dev.
Proof. intros t u l (d & H) [D _ _ _]. destruct (D l d H) as (d' & H' & _). exists d'. exact H'. Qed.
Lemma stable_sess : stable sess.
Proof. intros t u l (d & H) [_ D _ _]. destruct (D l d H) as (d' & H' & _). exists d'. exact H'. Qed.
Definition opt {A} (P : st -> A -> Prop) : st -> option A -> Prop :=
  fun s o => match o with Some a => P s a | None => True end.
Lemma stable_opt {A} (P : st -> A -> Prop) : stable P -> stable (opt P).
Proof. intros H t u [a|] Hp Hg; cbn in *; eauto. Qed.

Lemma sf_getNow s : SF np any s getNow.
Proof. apply sf_read; [intros ? ? ? _ _; exact Logic.I|]. intros. exact Logic.I. Qed.
Lemma sf_byPhone s ph : SF np (opt dev) s (getDeviceByPhone ph).
Proof.
  apply sf_read; [apply stable_opt, stable_dev|]. intros t _ Hi.
  destruct (st_byPhone t !! ph) as [l|] eqn:E; [|exact Logic.I]. destruct (sn_phone t Hi _ _ E) as (d & H & _).
  exists d. exact H.
Qed.
Lemma sf_byPlate s q : SF np (opt dev) s (getDeviceByPlate q).
Proof.
  apply sf_read; [apply stable_opt, stable_dev|]. intros t _ Hi.
  destruct (st_byPlate t !! q) as [l|] eqn:E; [|exact Logic.I]. destruct (sn_plate t Hi _ _ E) as (d & H & _).
  exists d. exact H.
Qed.
Lemma sf_getSession s i : SF np (opt sess) s (getSession i).
Proof.
  apply sf_read; [apply stable_opt, stable_sess|]. intros t _ Hi.
  destruct (st_byID t !! i) as [l|] eqn:E; [|exact Logic.I]. destruct (sn_byID t Hi _ _ E) as (d & H & _).
  exists d. exact H.
Qed.
Lemma sf_readConst s l : dev s l -> SF np any s (readConst l).
Proof.
  intros H. apply sf_act; [intros; split; [assumption|apply grows_refl]|]. intros t Hg _ _ _.
  destruct (stable_dev _ _ _ H Hg) as (d & Hd). rewrite Hd. apply sf_any.
Qed.
Lemma sf_readDev s l : dev s l -> SF np any s (readDev l).
Proof.
  intros H. apply sf_act; [intros; split; [assumption|apply grows_refl]|]. intros t Hg _ _ _.
  destruct (stable_dev _ _ _ H Hg) as (d & Hd). rewrite Hd. apply sf_any.
Qed.
Definition who (d : device) := (d_id d, d_plate d, d_phone d, d_sid d, d_conn d, d_keep d, d_ver d, d_proto d).
Lemma sf_writeDev s l f : (forall d, who (f d) = who d) -> SF np any s (writeDev l f).
Proof.
  intros Hf. apply sf_write. intros t _ [P Q Ge Ri Pa By Co]. split.
  - constructor; cbn; auto.
    + intros p l' H. destruct (P p l' H) as (d & Hd & Hp). destruct (decide (l = l')) as [->|Hn].
      * exists (f d). rewrite lookup_alter, Hd. split; [reflexivity|]. specialize (Hf d). unfold who in Hf. congruence.
      * exists d. rewrite lookup_alter_ne by exact Hn. auto.
    + intros p l' H. destruct (Q p l' H) as (d & Hd & Hp). destruct (decide (l = l')) as [->|Hn].
      * exists (f d). rewrite lookup_alter, Hd. split; [reflexivity|]. specialize (Hf d). unfold who in Hf. congruence.
      * exists d. rewrite lookup_alter_ne by exact Hn. auto.
  - constructor; cbn; eauto. intros l' d Hd. destruct (decide (l = l')) as [->|Hn].
    + exists (f d). rewrite lookup_alter, Hd. split; [reflexivity|]. apply Hf.
    + exists d. rewrite lookup_alter_ne by exact Hn. auto.
Qed.
Lemma sf_allocDev s d : SF np dev s (allocDev d).
Proof.
  assert (F : forall t, st_devs t !! fresh (dom (st_devs t)) = None) by (intros t; apply not_elem_of_dom, is_fresh).
  apply sf_act.
  - intros t _ [P Q Ge Ri Pa By Co]. split.
    + constructor; cbn; auto.
      * intros p l H. destruct (P p l H) as (d' & Hd & Hp). exists d'.
        rewrite lookup_insert_ne; [auto|]. intros <-. rewrite F in Hd. discriminate.
      * intros p l H. destruct (Q p l H) as (d' & Hd & Hp). exists d'.
        rewrite lookup_insert_ne; [auto|]. intros <-. rewrite F in Hd. discriminate.
    + constructor; cbn; eauto. intros l d' Hd. exists d'.
      rewrite lookup_insert_ne; [auto|]. intros <-. rewrite F in Hd. discriminate.
  - intros t _ _ _ _. apply sf_ret; [exact stable_dev|]. unfold dev. cbn. rewrite lookup_insert. eauto.
Qed.
Lemma sf_cacheDevice s l : SF np any s (cacheDevice l).
Proof.
  apply sf_write. intros t _ Hi. destruct (st_devs t !! l) as [d|] eqn:E; [|split; [exact Hi|apply grows_refl]].
  destruct Hi as [P Q Ge Ri Pa By Co]. split; [|constructor; cbn; eauto].
  constructor; cbn; auto.
  - intros p l'. destruct (decide (p = d_phone d)) as [->|Hn].
    + rewrite lookup_insert. intros [= <-]. eauto.
    + rewrite lookup_insert_ne by congruence. apply P.
  - intros p l'. destruct (decide (p = d_plate d)) as [->|Hn].
    + rewrite lookup_insert. intros [= <-]. eauto.
    + rewrite lookup_insert_ne by congruence. apply Q.
Qed.
Lemma sf_delDevice s ph : SF np any s (delDeviceByPhone ph).
Proof.
  apply sf_write. intros t _ Hi.
  destruct (st_byPhone t !! ph) as [l|]; [|split; [exact Hi|apply grows_refl]].
  destruct (st_devs t !! l) as [d|]; [|split; [exact Hi|apply grows_refl]].
  destruct Hi as [P Q Ge Ri Pa By Co]. split; [|constructor; cbn; eauto].
  constructor; cbn; auto; intros p l' H; apply lookup_delete_Some in H; destruct H as (_ & H); eauto.
Qed.
Lemma sf_jobs s a f : SF np any s (wr1 a (set_jobs f)).
Proof. apply sf_write. intros t _ [P Q Ge Ri Pa By Co]. split; constructor; cbn; eauto. Qed.
Lemma sf_register s ph : sane s -> SF np any s (timerRegister ph).
Proof.
  intros Hs. apply (sf_bind (opt dev)); [exact Hs|apply sf_byPhone|]. intros t [l|] _ _ _; [apply sf_jobs|apply sf_any].
Qed.
Definition ringp (s : st) (l : nat) : Prop := is_Some (st_rings s !! l).
Lemma stable_ringp : stable ringp.
Proof. intros t u l H [_ _ _ R]. apply R. exact H. Qed.
Lemma new_ok : ring_ok (newRing ringCapacity : ring devgeo) /\ rg_size (newRing ringCapacity : ring devgeo) = 100%Z.
Proof.
  split; [|reflexivity]. pose proof (rinv_ok (A := devgeo) _ _ _ _ (rinv_new 100 ltac:(lia))) as H. exact H.
Qed.
Lemma sf_getRing s ph : SF np ringp s (getGeoRingByPhone ph).
Proof.
  assert (F : forall t, st_rings t !! fresh (dom (st_rings t)) = None) by (intros t; apply not_elem_of_dom, is_fresh).
  apply sf_act.
  - intros t _ Hi. destruct (st_geo t !! ph) as [l|] eqn:E; [split; [exact Hi|apply grows_refl]|].
    destruct Hi as [P Q Ge Ri Pa By Co]. split; constructor; cbn; eauto.
    + intros p l. destruct (decide (p = ph)) as [->|Hn].
      * rewrite lookup_insert. intros [= <-]. rewrite lookup_insert. eauto.
      * rewrite lookup_insert_ne by congruence. intros H. rewrite lookup_insert_is_Some'. right. eapply Ge; eassumption.
    + intros l r. destruct (decide (fresh (dom (st_rings t)) = l)) as [<-|Hn].
      * rewrite lookup_insert. intros [= <-]. apply new_ok.
      * rewrite lookup_insert_ne by exact Hn. apply Ri.
    + intros l H. rewrite lookup_insert_is_Some'. right. exact H.
  - intros t _ Hi _ _. apply sf_ret; [exact stable_ringp|]. unfold ringp.
    destruct (st_geo t !! ph) as [l|] eqn:E; [eapply sn_geo; eassumption|]. cbn. rewrite lookup_insert. eauto.
Qed.
Lemma sf_delGeo s ph : SF np any s (delGeoByPhone ph).
Proof.
  apply sf_write. intros t _ [P Q Ge Ri Pa By Co]. split; constructor; cbn; eauto.
  intros p l H. apply lookup_delete_Some in H. destruct H as (_ & H). eauto.
Qed.
Lemma sf_onRing {A} l (p : prog (ring devgeo) A) : forall s r0, ringp s l ->
  safe (rok 100) gtrue (fun _ x => np = true -> x <> Panic) r0 p -> SF np any s (onRing l p).
Proof.
  unfold onRing. induction p as [x|a f k IH]; intros s r0 Hs Hp; cbn [zoom].
  - constructor. intros t Hi Hg. inversion Hp as [? ? Hq|]; subst. destruct x; cbn; try exact Logic.I.
    destruct np; [|reflexivity]. exfalso.
    destruct (stable_ringp _ _ _ Hs Hg) as (r & Hr). apply (Hq r (sn_rings t Hi l r Hr) Logic.I eq_refl eq_refl).
  - inversion Hp as [|? ? ? ? Hk Hk']; subst.
    assert (Hat : forall t, grows s t -> sane t -> exists r, st_rings t !! l = Some r /\ ringAt l t = r /\ rok 100 r).
    { intros t Hg Hi. destruct (stable_ringp _ _ _ Hs Hg) as (r & Hr). exists r. split; [exact Hr|].
      split; [unfold ringAt; rewrite Hr; reflexivity|]. exact (sn_rings t Hi l r Hr). }
    apply sf_act.
    + intros t Hg Hi. destruct (Hat t Hg Hi) as (r & Hr & -> & Hok). destruct (Hk r Hok Logic.I) as (Hf & _).
      destruct Hi as [P Q Ge Ri Pa By Co]. split; constructor; cbn; eauto.
      * intros q l' H. rewrite lookup_insert_is_Some'. right. eapply Ge; eassumption.
      * intros l' r'. destruct (decide (l = l')) as [<-|Hn].
        -- rewrite lookup_insert. intros [= <-]. exact Hf.
        -- rewrite lookup_insert_ne by exact Hn. apply Ri.
      * intros l' H. rewrite lookup_insert_is_Some'. right. exact H.
    + intros t Hg Hi _ _. destruct (Hat t Hg Hi) as (r & Hr & -> & Hok). apply (IH r _ (f r)).
      * unfold ringp. cbn. rewrite lookup_insert. eauto.
      * apply Hk'; [exact Hok|exact Logic.I].
Qed.
Lemma sf_ringWrite s l v : ringp s l -> SF np any s (onRing l (ringWrite l v)).
Proof.
  intros H. apply (sf_onRing l _ s (newRing 0)); [exact H|].
  eapply safe_post; [unfold gtrue; auto|apply (safe_ringCall 100 l (CWrite v)); discriminate|]. cbn. auto.
Qed.
Lemma sf_params s d : SF np any s (cacheDeviceParams d).
Proof.
  apply sf_write. intros t _ [P Q Ge Ri Pa By Co]. split; constructor; cbn; eauto.
  intros p d'. destruct (decide (dp_phone d = p)) as [<-|Hn].
  - rewrite lookup_insert. intros [= <-]. reflexivity.
  - rewrite lookup_insert_ne by exact Hn. apply Pa.
Qed.
Lemma stable_any {A} : stable (@any A).
Proof. intros ? ? ? _ _. exact Logic.I. Qed.
Lemma sf_getParams s ph : SF np any s (getDeviceParamsByPhone ph).
Proof. apply sf_read; [exact stable_any|]. intros. exact Logic.I. Qed.
Lemma sf_readSess s l : sess s l -> SF np (fun t x => is_Some (st_conns t !! ss_conn x)) s (readSess l).
Proof.
  intros H. apply sf_act; [intros; split; [assumption|apply grows_refl]|]. intros t Hg Hi _ _.
  destruct (stable_sess _ _ _ H Hg) as (x & Hx). rewrite Hx. apply sf_ret.
  - intros u v y Hy [_ _ C _]. apply C. exact Hy.
  - exact (sn_conn t Hi _ _ Hx).
Qed.
Lemma sf_alterSn t l n : sane t -> sane (set_sess (alter (fun x => sset_sn x n) l) t)
  /\ grows t (set_sess (alter (fun x => sset_sn x n) l) t).
Proof.
  intros [P Q Ge Ri Pa By Co]. split; constructor; cbn; eauto.
  - intros i l' H. destruct (By i l' H) as (x & Hx & Hi). destruct (decide (l = l')) as [->|Hn].
    + exists (sset_sn x n). rewrite lookup_alter, Hx. auto.
    + exists x. rewrite lookup_alter_ne by exact Hn. auto.
  - intros l' x. destruct (decide (l = l')) as [->|Hn].
    + rewrite lookup_alter. destruct (st_sess t !! l') as [y|] eqn:E; [|discriminate]. cbn. intros [= <-]. exact (Co l' y E).
    + rewrite lookup_alter_ne by exact Hn. apply Co.
  - intros l' x Hx. destruct (decide (l = l')) as [->|Hn].
    + exists (sset_sn x n). rewrite lookup_alter, Hx. auto.
    + exists x. rewrite lookup_alter_ne by exact Hn. auto.
Qed.
Lemma sf_nextSerial s l : SF np any s (nextSerial l).
Proof.
  unfold nextSerial, getNextSerialNum. cbn [zoom]. apply sf_act; [intros; apply sf_alterSn; assumption|].
  intros t _ _ _ _. cbn zeta. destruct (_ <=? _); cbn; [apply sf_any|].
  apply sf_act; [intros; apply sf_alterSn; assumption|]. intros u _ _ _ _.
  apply sf_act; [intros; apply sf_alterSn; assumption|]. intros v _ _ _ _. apply sf_any.
Qed.
Lemma sf_lift {A} s (r : res A) : (np = true -> r <> Panic) -> SF np any s (lift r).
Proof.
  intros H. constructor. intros t _ _. destruct r; cbn; try exact Logic.I. destruct np; [|reflexivity].
  exfalso. apply H; reflexivity.
Qed.
Lemma sf_alterConn t c g : sane t -> sane (set_conns (alter g c) t) /\ grows t (set_conns (alter g c) t).
Proof.
  assert (H : forall c', is_Some (st_conns t !! c') -> is_Some (alter g c (st_conns t) !! c')).
  { intros c' Hc. destruct (decide (c = c')) as [->|Hn]; [rewrite lookup_alter, fmap_is_Some|rewrite lookup_alter_ne by exact Hn]; exact Hc. }
  intros [P Q Ge Ri Pa By Co]. split; constructor; cbn; eauto.
Qed.
Lemma sf_connSend s c b w : is_Some (st_conns s !! c) -> SF np any s (connSend c b w).
Proof.
  intros H. apply sf_act; [intros; apply sf_alterConn; assumption|]. intros t Hg _ _ _.
  destruct (gr_conn _ _ Hg c H) as (k & Hk). rewrite Hk. destruct (cn_open k); [|apply sf_fail].
  destruct w as [[? ?]|]; [apply sf_fail|apply sf_any].
Qed.
Lemma sf_connClose s c : SF np any s (connClose c).
Proof. apply sf_write. intros. apply sf_alterConn. assumption. Qed.
Lemma sf_clear s i : SF np any s (clearSession i).
Proof.
  apply sf_write. intros t _ [P Q Ge Ri Pa By Co]. split; constructor; cbn; eauto.
  intros p l H. apply lookup_delete_Some in H. destruct H as (_ & H). eauto.
Qed.
End Rules.
Lemma sf_panic {A} (P : st -> A -> Prop) s : SF false P s panic.
Proof. constructor. intros. reflexivity. Qed.
Lemma sf_cacheSegment s x : SF false any s (cacheSegment x).
Proof.
  unfold cacheSegment. apply sf_act.
  - intros t _ [P Q Ge Ri Pa By Co]. split; constructor; cbn; eauto.
  - intros t _ _ _ _. destruct (st_segs t !! _); [apply sf_any|apply sf_panic].
Qed.
Lemma sf_latest s l : ringp s l -> SF false any s (onRing l (ringLatest l)).
Proof.
  intros H. apply (sf_onRing false l _ s (newRing 0)); [exact H|].
  assert (R : forall r : ring devgeo, rok 100 r -> rok 100 r /\ gtrue r r) by (split; [assumption|exact Logic.I]).
  unfold ringLatest, loadWriter, rd1. cbn. constructor; [auto|]. intros r _ _. cbn.
  destruct (_ =? _)%Z; [constructor; discriminate|]. constructor; [auto|]. intros r1 _ _. cbn. constructor; [auto|].
  intros r2 _ _. cbn. constructor; [auto|]. intros r3 _ _. destruct (inRange _ _); constructor; discriminate.
Qed.

(** ** Handlers *)
Ltac bd P := eapply (sf_bind _ P); [assumption|..].
Tactic Notation "nx" ident(t) ident(a) ident(g) ident(i) ident(h) := intros t a g i h.
Lemma sf_hasPlate np s q : sane s -> SF np any s (hasPlate q).
Proof. intros Hs. bd (opt dev); [apply sf_byPlate|]. intros. apply sf_any. Qed.
Lemma sf_hasPhone np s q : sane s -> SF np any s (hasPhone q).
Proof. intros Hs. bd (opt dev); [apply sf_byPhone|]. intros. apply sf_any. Qed.
Lemma sf_0002 np s inc out : sane s -> SF np any s (process0002 inc out).
Proof.
  intros Hs. bd (opt dev); [apply sf_byPhone|]. nx t d g1 i1 h1. destruct d as [l|]; [|apply sf_fail].
  bd (@any Z); [apply sf_getNow|]. nx t2 now g2 i2 h2.
  bd (@any unit); [apply sf_writeDev; reflexivity|]. nx t3 u3 g3 i3 h3.
  bd (@any unit); [apply sf_cacheDevice|]. nx t4 u4 g4 i4 h4. apply sf_any.
Qed.
Lemma sf_0003 np s inc out : sane s -> SF np any s (process0003 inc out).
Proof.
  intros Hs. bd (opt dev); [apply sf_byPhone|]. nx t d g1 i1 h1. destruct d as [l|]; [|apply sf_fail].
  bd (@any device); [apply sf_readConst; exact h1|]. nx t2 dv g2 i2 h2.
  bd (@any unit); [apply sf_jobs|]. nx t3 u3 g3 i3 h3.
  bd (@any unit); [apply sf_delDevice|]. nx t4 u4 g4 i4 h4. apply sf_any.
Qed.
Lemma sf_0100 np s sl inc r out : sane s -> sess s sl -> SF np any s (process0100 sl inc r out).
Proof.
  intros Hs Hx. bd (@any bool); [apply sf_hasPlate; exact Hs|]. nx t b g1 i1 h1. destruct b; [apply sf_any|].
  bd (@any bool); [apply sf_hasPhone; exact i1|]. nx t2 b g2 i2 h2. destruct b; [apply sf_any|].
  eapply sf_bind; [exact i2|apply sf_readSess; eapply stable_sess; [|exact g2]; eapply stable_sess; eassumption|].
  nx t3 x g3 i3 h3. bd (@any Z); [apply sf_getNow|]. nx t4 now g4 i4 h4. cbv zeta.
  bd dev; [apply sf_allocDev|]. nx t5 l g5 i5 h5. bd (@any unit); [apply sf_cacheDevice|]. nx t6 u6 g6 i6 h6.
  bd (@any unit); [apply sf_register; exact i6|]. nx t7 u7 g7 i7 h7. apply sf_any.
Qed.
Lemma sf_0102 np s inc code imei sw out : sane s -> SF np any s (process0102 inc code imei sw out).
Proof.
  intros Hs. bd (opt dev); [apply sf_byPhone|]. nx t d g1 i1 h1. destruct d as [l|]; [|apply sf_fail].
  bd (@any device); [apply sf_readConst; exact h1|]. nx t2 dv g2 i2 h2. destruct (bool_decide _).
  - bd (@any unit); [apply sf_writeDev; reflexivity|]. nx t3 u3 g3 i3 h3.
    bd (@any Z); [apply sf_getNow|]. nx t4 now g4 i4 h4.
    bd (@any unit); [apply sf_writeDev; reflexivity|]. nx t5 u5 g5 i5 h5.
    bd (@any unit); [apply sf_writeDev; reflexivity|]. nx t6 u6 g6 i6 h6.
    bd (@any unit); [apply sf_cacheDevice|]. nx t7 u7 g7 i7 h7. apply sf_any.
  - bd (@any unit); [apply sf_jobs|]. nx t3 u3 g3 i3 h3.
    bd (@any unit); [apply sf_delDevice|]. nx t4 u4 g4 i4 h4. apply sf_any.
Qed.
Lemma sf_0200 np e s inc m out : sane s -> SF np any s (process0200 e inc m out).
Proof.
  intros Hs. bd (opt dev); [apply sf_byPhone|]. nx t d g1 i1 h1. destruct d as [l|]; [|apply sf_fail].
  bd (@any device); [apply sf_readConst; exact h1|]. nx t2 dv g2 i2 h2.
  bd (@any Z); [apply sf_getNow|]. nx t3 now g3 i3 h3. cbv zeta.
  bd (@any unit).
  - destruct (_ =? _); [|apply sf_any].
    bd (@any unit); [apply sf_writeDev; reflexivity|]. nx t4 u4 g4 i4 h4.
    bd (@any Z); [apply sf_getNow|]. nx t5 now' g5 i5 h5.
    bd (@any unit); [apply sf_writeDev; reflexivity|]. nx t6 u6 g6 i6 h6. apply sf_cacheDevice.
  - nx t4 u4 g4 i4 h4. bd ringp; [apply sf_getRing|]. nx t5 rl g5 i5 h5.
    bd (@any unit); [apply sf_ringWrite; exact h5|]. nx t6 u6 g6 i6 h6. apply sf_any.
Qed.
Lemma sf_8001 np s inc r : sane s -> SF np any s (process8001 inc r).
Proof.
  intros Hs. unfold process8001. destruct (r =? 0); [|apply sf_any].
  bd (opt dev); [apply sf_byPhone|]. nx t d g1 i1 h1. destruct d as [l|]; [|apply sf_fail].
  bd (@any device); [apply sf_readDev; exact h1|]. nx t2 dv g2 i2 h2. destruct (_ =? _); [|apply sf_any].
  bd (@any unit); [apply sf_writeDev; reflexivity|]. nx t3 u3 g3 i3 h3.
  bd (@any Z); [apply sf_getNow|]. nx t4 now g4 i4 h4.
  bd (@any unit); [apply sf_writeDev; reflexivity|]. nx t5 u5 g5 i5 h5. apply sf_cacheDevice.
Qed.
Lemma sf_8100 np s inc out : sane s -> SF np any s (process8100 inc out).
Proof.
  intros Hs. bd (opt dev); [apply sf_byPhone|]. nx t d g1 i1 h1. destruct d as [l|]; [|apply sf_fail].
  bd (@any device); [apply sf_readDev; exact h1|]. nx t2 dv g2 i2 h2. apply sf_any.
Qed.
Lemma sf_8103 np s inc ps out : sane s -> (np = true -> ps <> None) -> SF np any s (process8103 inc ps out).
Proof.
  intros Hs Hp. bd (@any (option devparams)); [apply sf_getParams|]. nx t c g1 i1 h1.
  destruct ps as [d|]; [|destruct np; [exfalso; apply Hp; reflexivity|apply sf_panic]].
  bd (@any unit); [apply sf_params|]. nx t2 u2 g2 i2 h2. apply sf_any.
Qed.
Lemma sf_8104 np e s out : sane s ->
  (np = true -> paramsDecode (e_o e) (h_phone (m_hdr out)) 39 (Str2Byte_slice paramByteStr) <> Panic) ->
  SF np any s (process8104 e out).
Proof.
  intros Hs Hp. unfold process8104. bd (@any (option devparams)); [apply sf_getParams|]. nx t c g1 i1 h1.
  destruct c as [d|]; [apply sf_any|]. bd (@any devparams); [apply sf_lift; exact Hp|]. nx t2 d g2 i2 h2.
  bd (@any unit); [apply sf_params|]. nx t3 u2 g3 i3 h3. apply sf_any.
Qed.
Lemma sf_segment s p : sane s -> SF false any s (processSegment p).
Proof.
  intros Hs. bd (opt dev); [apply sf_byPhone|]. nx t d g1 i1 h1. destruct d as [l|]; [|apply sf_fail].
  bd (@any device); [apply sf_readConst; exact h1|]. nx t2 dv g2 i2 h2.
  bd (opt sess); [apply sf_getSession|]. nx t3 x g3 i3 h3. destruct x as [sl|]; [|apply sf_panic].
  bd (@any N); [apply sf_nextSerial|]. nx t4 sn g4 i4 h4. apply sf_any.
Qed.
Lemma table_K8004 id ik k : lookupN optionTable id = Some (ik, Some k) -> k <> K8004.
Proof.
  unfold optionTable. cbn [lookupN].
  repeat (destruct (_ =? _); [intros [= <- <-]; discriminate || discriminate|]). discriminate.
Qed.
Lemma table_8104 id ok : lookupN optionTable id = Some (K8104, ok) -> id = 0x8104.
Proof.
  unfold optionTable. cbn [lookupN].
  repeat (match goal with |- context [(?a =? ?b)] => destruct (N.eqb_spec a b) end; [intros [= <-]; congruence|]). discriminate.
Qed.
Lemma sf_process np e s sl p : sane s -> sess s sl -> (np = true -> calm e p) -> SF np any s (process e sl p).
Proof.
  intros Hs Hx Hc. unfold process. destruct (lookupN _ _) as [[ik ok]|] eqn:El; [|apply sf_fail].
  destruct (isFragmented (pk_hdr p) && negb (pk_segdone p)) eqn:Ef.
  { destruct np; [|apply sf_segment; exact Hs]. destruct (Hc eq_refl) as (H1 & _). unfold isFragmented in Ef; unfold SpecCodec.fragment in H1; rewrite H1 in Ef. discriminate. }
  bd (@any Z); [apply sf_getNow|]. nx t now g1 i1 h1.
  eapply (sf_bind _ (fun _ inc => msgDecode (e_o e) (e_civil e now) ik p = Ok inc)); [exact i1|..].
  { constructor. intros t' _ _. destruct (msgDecode _ _ _ _) eqn:Ed; cbn; try exact Logic.I; [reflexivity|].
    destruct np; [|reflexivity]. exfalso. destruct (Hc eq_refl) as (_ & H2 & _). exact (H2 _ _ _ El Ed). }
  nx t2 inc g2 i2 h2. pose proof (msgDecode_ok _ _ _ _ _ h2) as (Hh & Hk). destruct ok as [k|].
  - bd (@any Z); [apply sf_getNow|]. nx t3 now3 g3 i3 h3.
    eapply (sf_bind _ (fun _ g => genOutgoing (e_civil e now3) k inc = Ok g)); [exact i3|..].
    { constructor. intros t' _ _. destruct (genOutgoing _ _ _) eqn:Ed; cbn; try exact Logic.I; [reflexivity|].
      exfalso. apply (table_K8004 _ _ _ El). destruct k; cbn in Ed; try discriminate; destruct (m_body inc); try discriminate; reflexivity. }
    nx t4 o g4 i4 h4. destruct o as [out|]; [|apply sf_any].
    assert (Hx4 : sess t4 sl) by (eapply stable_sess; [exact Hx|]; eauto using grows_trans).
    bd (@any msg); [|nx t5 o5 g5 i5 h5; apply sf_any].
    destruct (m_body inc) eqn:Eb; try apply sf_any.
    + apply sf_0002; exact i4.
    + apply sf_0003; exact i4.
    + apply sf_0100; assumption.
    + apply sf_0102; exact i4.
    + apply sf_0200; exact i4.
    + apply sf_8100; exact i4.
    + apply sf_8103; [exact i4|]. intros _. cbn in Hk. subst ik.
      destruct (msgDecode_8103 _ _ _ _ cnt ps h2 Eb) as (d & -> & _). discriminate.
    + apply sf_8104; [exact i4|]. intros Hn. destruct (Hc Hn) as (_ & _ & H3).
      rewrite (genOutgoing_phone _ _ _ _ h4), Hh. apply H3. cbn in Hk. subst ik. eapply table_8104; exact El.
  - destruct (m_body inc); try apply sf_any. bd (@any unit); [apply sf_8001; exact i2|]. nx t3 u3 g3 i3 h3. apply sf_any.
Qed.

(** ** Goroutines *)
Lemma sf_write' np e s c out w : sane s -> is_Some (st_conns s !! c) ->
  (np = true -> False) -> SF np any s (processConnWrite e c out w).
Proof.
  intros Hs Hc Hn. unfold processConnWrite. destruct out as [m|]; [|apply sf_any].
  bd (@any bytes); [apply sf_lift; intros H; destruct (Hn H)|]. nx t b g1 i1 h1. apply sf_connSend.
  exact (gr_conn _ _ g1 c Hc).
Qed.
Lemma sf_remove np s sl : sane s -> sess s sl -> SF np any s (remove sl).
Proof.
  intros Hs Hx. unfold remove. bd (@any unit); [apply sf_lock|]. nx t0 u0 g0 i0 h0.
  eapply safe_bindR; [exact grows_refl|exact grows_trans| | |exact i0].
  - eapply sf_bind; [exact i0|apply sf_readSess; eapply stable_sess; eassumption|]. nx t x g1 i1 h1.
    bd (@any unit); [apply sf_connClose|]. nx t2 u g2 i2 h2. apply sf_clear.
  - intros u r g1 i1 h1. bd (@any unit); [apply sf_unlock|]. intros v b g2 i2 h2. constructor. intros. destruct r; [exact Logic.I..|exact h1].
Qed.
Lemma sf_decodeP e s b : sane s -> SF false any s (decodeP e b).
Proof.
  intros Hs. unfold decodeP. bd (@any packet); [apply sf_lift; discriminate|]. nx t p g1 i1 h1.
  destruct (isFragmented _); [|apply sf_any]. destruct (h_frag _); [|apply sf_panic].
  bd (@any bool); [apply sf_cacheSegment|]. nx t2 d g2 i2 h2. apply sf_any.
Qed.
Lemma sf_connRead e s sl c r w : sane s -> sess s sl -> is_Some (st_conns s !! c) -> SF false any s (processConnRead e sl c r w).
Proof.
  intros Hs Hx Hc. unfold processConnRead. bd (@any bytes); [apply sf_lift; discriminate|]. nx t b g1 i1 h1.
  bd (@any packet); [apply sf_decodeP; exact i1|]. nx t2 p g2 i2 h2.
  assert (Hx2 : sess t2 sl) by (eapply stable_sess; [exact Hx|]; eauto using grows_trans).
  bd (@any (option msg)); [apply sf_process; [exact i2|exact Hx2|discriminate]|]. nx t3 o g3 i3 h3.
  apply sf_write'; [exact i3| |discriminate]. exact (gr_conn _ _ g3 _ (gr_conn _ _ g2 _ (gr_conn _ _ g1 _ Hc))).
Qed.
Lemma sf_serveOne e s sl r w : sane s -> sess s sl -> SF false any s (serveOne e sl r w).
Proof.
  intros Hs Hx. unfold serveOne. eapply sf_bind; [exact Hs|apply sf_readSess; exact Hx|]. nx t x g1 i1 h1.
  eapply safe_bindR; [exact grows_refl|exact grows_trans| | |exact i1].
  - apply sf_connRead; [exact i1| |exact h1]. eapply stable_sess; [exact Hx|exact g1].
  - intros u q _ _ _. destruct q; [apply sf_any|apply sf_any|apply sf_panic].
Qed.
Lemma sf_serve np e sl ins : forall s, sane s -> sess s sl -> SF np any s (serveLoop e sl ins).
Proof.
  induction ins as [|[r w] t IH]; intros s Hs Hx; cbn [serveLoop]; [apply sf_any|].
  eapply safe_bindR; [exact grows_refl|exact grows_trans|apply sf_serveOne; assumption| |exact Hs].
  intros u q Hg Hi _. assert (Hx' : sess u sl) by (eapply stable_sess; eassumption).
  assert (Hend : SF np any u (remove sl ;;; ret true)%prog).
  { bd (@any unit); [apply sf_remove; assumption|]. nx t2 u2 g2 i2 h2. apply sf_any. }
  destruct q as [[]|er|]; [apply IH; assumption|exact Hend..].
Qed.
Lemma sf_conn np e s c addr ins : sane s -> SF np any s (opened c ;;; connThread e c addr ins ;;; ret tt)%prog.
Proof.
  intros Hs. unfold opened. eapply (sf_bind _ (fun t _ => is_Some (st_conns t !! c))); [exact Hs| |].
  { apply sf_act.
    - intros t _ [P Q Ge Ri Pa By Co]. split; constructor; cbn; eauto.
      + intros l x H. apply lookup_insert_is_Some'. right. eapply Co. exact H.
      + intros c' H. apply lookup_insert_is_Some'. right. exact H.
    - intros t _ _ _ _. apply sf_ret; [intros a b x H [_ _ C _]; apply C; exact H|]. cbn. rewrite lookup_insert. eauto. }
  nx t u g1 i1 h1. bd (@any bool); [|nx t2 b g2 i2 h2; apply sf_any].
  unfold connThread. eapply (sf_bind _ sess); [exact i1| |nx t2 sl g2 i2 h2; apply sf_serve; assumption].
  unfold accept. bd (@any unit); [apply sf_lock|]. nx t0 u0 g0 i0 h0. apply (gr_conn _ _ g0) in h1. clear g1 i1. rename g0 into g1, i0 into i1.
  assert (F : forall t, st_sess t !! fresh (dom (st_sess t)) = None) by (intros v; apply not_elem_of_dom, is_fresh).
  eapply (sf_bind _ (fun t l => exists x, st_sess t !! l = Some x /\ ss_id x = addr)); [exact i1| |].
  { apply sf_act.
    - intros v g [P Q Ge Ri Pa By Co]. split; constructor; cbn; eauto.
      + intros i l H. destruct (By i l H) as (x & Hx & Hi). exists x. rewrite lookup_insert_ne; [auto|].
        intros <-. rewrite F in Hx. discriminate.
      + intros l x. destruct (decide (fresh (dom (st_sess v)) = l)) as [<-|Hn].
        * rewrite lookup_insert. intros [= <-]. cbn. exact (gr_conn _ _ g c h1).
        * rewrite lookup_insert_ne by exact Hn. apply Co.
      + intros l x Hx. exists x. rewrite lookup_insert_ne; [auto|]. intros <-. rewrite F in Hx. discriminate.
    - intros v _ _ _ _. apply sf_ret.
      + intros a b l (x & Hx & Hi) [_ S _ _]. destruct (S l x Hx) as (x' & Hx' & E1 & E2). exists x'. split; congruence.
      + eexists. cbn. rewrite lookup_insert. split; reflexivity. }
  nx t2 l g2 i2 h2. bd (@any unit).
  { apply sf_write. intros v g [P Q Ge Ri Pa By Co]. destruct h2 as (x & Hx & Hi).
    destruct (gr_sess _ _ g l x Hx) as (x' & Hx' & E1 & E2). split; constructor; cbn; eauto.
    intros i l'. destruct (decide (addr = i)) as [<-|Hn].
    + rewrite lookup_insert. intros [= <-]. exists x'. split; congruence.
    + rewrite lookup_insert_ne by exact Hn. apply By. }
  nx t3 u3 g3 i3 h3. bd (@any unit); [apply sf_unlock|]. nx t4 u4 g4 i4 h4.
  apply sf_ret; [exact stable_sess|]. destruct h2 as (x & Hx & _).
  apply (stable_sess t3 t4 l); [|exact g4].
  apply (stable_sess t2 t3 l); [exists x; exact Hx|exact g3].
Qed.
Lemma sf_turnOffline s l : sane s -> dev s l -> SF false any s (shouldTurnOffline l).
Proof.
  intros Hs D. unfold shouldTurnOffline. bd (@any Z); [apply sf_getNow|]. nx t2 now g2 i2 h2.
  assert (D2 : dev t2 l) by (eapply stable_dev; eassumption).
  bd (@any device); [apply sf_readDev; exact D2|]. nx t3 dv g3 i3 h3. destruct (d_status dv =? Offline); [apply sf_any|].
  bd (@any device); [apply sf_readDev; eapply stable_dev; eassumption|]. nx t4 dv4 g4 i4 h4. apply sf_any.
Qed.
Lemma sf_clears s l : sane s -> dev s l -> SF false any s (shouldClear l).
Proof.
  intros Hs D. unfold shouldClear. bd (@any Z); [apply sf_getNow|]. nx t2 now g2 i2 h2.
  assert (D2 : dev t2 l) by (eapply stable_dev; eassumption).
  bd (@any device); [apply sf_readDev; exact D2|]. nx t3 dv g3 i3 h3. destruct (d_status dv =? Offline); [|apply sf_any].
  bd (@any device); [apply sf_readDev; eapply stable_dev; eassumption|]. nx t4 dv4 g4 i4 h4. apply sf_any.
Qed.
Lemma sf_tick s ph : sane s -> SF false any s (checkKeepalive ph).
Proof.
  intros Hs. unfold checkKeepalive. bd (opt dev); [apply sf_byPhone|]. nx t d g1 i1 h1. destruct d as [l|].
  2:{ bd (@any unit); [apply sf_jobs|]. nx t2 u2 g2 i2 h2. apply sf_panic. }
  bd (@any bool); [apply sf_turnOffline; assumption|]. nx t2 b g2 i2 h2.
  assert (D2 : dev t2 l) by (eapply stable_dev; eassumption). destruct b.
  { bd (@any unit); [apply sf_writeDev; reflexivity|]. nx t4 u4 g4 i4 h4. apply sf_cacheDevice. }
  bd (@any bool); [apply sf_clears; assumption|]. nx t4 b4 g4 i4 h4. destruct b4; [|apply sf_any].
  assert (D4 : dev t4 l) by (eapply stable_dev; eassumption).
  eapply sf_bind; [exact i4|apply sf_readConst; exact D4|]. nx t5 dv5 g5 i5 h5.
  bd (@any unit); [apply sf_connClose|]. nx t6 u6 g6 i6 h6.
  bd (@any unit); [apply sf_delDevice|]. nx t7 u7 g7 i7 h7.
  bd (@any unit); [apply sf_delGeo|]. nx t8 u8 g8 i8 h8. apply sf_jobs.
Qed.
Lemma sf_geo s ph : sane s -> SF false any s (apiGeo ph).
Proof.
  intros Hs. unfold apiGeo. bd (opt dev); [apply sf_byPhone|]. nx t d g1 i1 h1. destruct d as [l|]; [|apply sf_any].
  bd (@any device); [apply sf_readDev; exact h1|]. nx t2 dv g2 i2 h2.
  bd (@any (option devgeo)).
  { unfold getGeoLatestByPhone. bd ringp; [apply sf_getRing|]. nx t3 rl g3 i3 h3. apply sf_latest. exact h3. }
  nx t3 o g3 i3 h3. destruct o; apply sf_any.
Qed.
Lemma sf_serverSend e s i m w : sane s -> SF false any s (serverSend e i m w).
Proof.
  intros Hs. unfold serverSend. bd (opt sess); [apply sf_getSession|]. nx t x g1 i1 h1. destruct x as [sl|]; [|apply sf_any].
  eapply sf_bind; [exact i1|apply sf_readSess; exact h1|]. nx t2 x g2 i2 h2.
  eapply safe_bindR; [exact grows_refl|exact grows_trans|apply (sf_write' false); [exact i2|exact h2|discriminate]| |exact i2].
  intros u q Hg Hi _. assert (Hx : sess u sl) by (eapply stable_sess; [|exact Hg]; eapply stable_sess; [exact h1|exact g2]).
  destruct q as [v|[]|]; try apply sf_any; try (apply sf_remove; assumption). apply sf_panic.
Qed.
Lemma sf_apiSession s dv : sane s -> SF false (fun t y => sess t (fst y)) s (apiSession dv).
Proof.
  intros Hs. unfold apiSession. bd (opt sess); [apply sf_getSession|]. nx t x g1 i1 h1. destruct x as [sl|]; [|apply sf_panic].
  bd (@any N); [apply sf_nextSerial|]. nx t2 sn g2 i2 h2. apply sf_ret.
  - intros a b y H Hg. eapply stable_sess; eassumption.
  - cbn. eapply stable_sess; eassumption.
Qed.
Lemma sf_get e s ph w : sane s -> SF false any s (apiGetParams e ph w).
Proof.
  intros Hs. unfold apiGetParams. bd (opt dev); [apply sf_byPhone|]. nx t d g1 i1 h1. destruct d as [l|]; [|apply sf_any].
  bd (@any device); [apply sf_readConst; exact h1|]. nx t2 dv g2 i2 h2.
  eapply sf_bind; [exact i2|apply sf_apiSession; exact i2|]. nx t3 y g3 i3 h3.
  eapply sf_bind; [exact i3|apply sf_readSess; exact h3|]. nx t4 x g4 i4 h4.
  bd (@any unit); [apply sf_serverSend; exact i4|]. nx t5 u5 g5 i5 h5. apply sf_any.
Qed.
Lemma sf_put e s ph bad ps w : sane s -> SF false any s (apiPutParams e ph bad ps w).
Proof.
  intros Hs. unfold apiPutParams. bd (opt dev); [apply sf_byPhone|]. nx t d g1 i1 h1. destruct d as [l|]; [|apply sf_any].
  bd (@any device); [apply sf_readConst; exact h1|]. nx t2 dv g2 i2 h2.
  eapply sf_bind; [exact i2|apply sf_apiSession; exact i2|]. nx t3 y g3 i3 h3.
  eapply sf_bind; [exact i3|apply sf_readSess; exact h3|]. nx t4 x g4 i4 h4.
  bd (@any unit); [apply sf_serverSend; exact i4|]. nx t5 u5 g5 i5 h5. apply sf_any.
Qed.
Lemma sf_code np e s g : sane s -> placed s g -> (np = true -> robust e g) -> SF np any s (code e g).
Proof.
  intros Hs Hp Hr. destruct g as [c addr ins|sl ins|sl p|ph| |ph|ph w|ph bad ps w|now|]; cbn [code placed robust] in *.
  - apply sf_conn. exact Hs.
  - bd (@any bool); [apply sf_serve; assumption|]. intros. apply sf_any.
  - bd (@any (option msg)); [apply sf_process; assumption|]. intros. apply sf_any.
  - destruct np; [destruct (Hr eq_refl)|]. apply sf_tick. exact Hs.
  - bd (@any (list nat)); [apply sf_read; [exact stable_any|]; intros; exact Logic.I|]. intros. apply sf_any.
  - destruct np; [destruct (Hr eq_refl)|]. bd (@any (list N * option devgeo)); [apply sf_geo; exact Hs|]. intros. apply sf_any.
  - destruct np; [destruct (Hr eq_refl)|]. bd (@any (list N)); [apply sf_get; exact Hs|]. intros. apply sf_any.
  - destruct np; [destruct (Hr eq_refl)|]. bd (@any (list N)); [apply sf_put; exact Hs|]. intros. apply sf_any.
  - apply sf_write. intros t _ [P Q Ge Ri Pa By Co]. split; constructor; cbn; eauto.
  - bd (@any nat); [apply sf_read; [exact stable_any|]; intros; exact Logic.I|]. intros. apply sf_any.
Qed.
Lemma all_schedules e gs s sch : sane s -> (forall g, In g gs -> placed s g) ->
  sane (snd (running e gs s sch)) /\ grows s (snd (running e gs s sch))
  /\ forall i g, nth_error gs i = Some g -> robust e g -> nth_error (fst (running e gs s sch)) i <> Some (Ret Panic).
Proof.
  intros Hs Hp.
  assert (H : forall j np, (forall g, nth_error gs j = Some g -> np = true -> robust e g) ->
     sane (snd (running e gs s sch)) /\ grows s (snd (running e gs s sch))
     /\ forall k p, nth_error (fst (running e gs s sch)) k = Some p ->
         safe sane grows (post (if Nat.eqb k j then np else false) any) (snd (running e gs s sch)) p).
  { intros j np Hr. apply (psteps_safe_i sane grows grows_refl grows_trans
      (fun k => post (if Nat.eqb k j then np else false) any)); [exact Hs|].
    intros k p Hk. rewrite nth_error_map in Hk. destruct (nth_error gs k) as [g|] eqn:E; [|discriminate].
    injection Hk as <-. apply sf_code; [exact Hs|apply Hp; eapply nth_error_In; exact E|].
    destruct (Nat.eqb_spec k j) as [->|]; [|discriminate]. intros ->. apply Hr; auto. }
  destruct (H 0%nat false ltac:(intros; discriminate)) as (H1 & H2 & _). split; [exact H1|]. split; [exact H2|].
  intros i g Hi Hr Hpan. destruct (H i true) as (_ & _ & H3); [intros g' Hg' _; congruence|].
  specialize (H3 i _ Hpan). rewrite Nat.eqb_refl in H3. inversion H3 as [? ? Hq|]; subst.
  specialize (Hq _ H1 (grows_refl _)). cbn in Hq. discriminate.
Qed.
Lemma init_sane now : sane (init now).
Proof. constructor; cbn; intros *; rewrite ?lookup_empty; discriminate. Qed.

(** the states of the sequential histories are among these *)
Lemma run_sane {A} (p : sp A) s : sane s -> SF false any s p -> sane (snd (run p s)).
Proof. intros Hs Hp. exact (proj1 (run_safe sane grows grows_refl grows_trans _ p s Hs Hp)). Qed.
Lemma step_sane e w ev : world_ok w -> sane (w_st w) -> sane (w_st (step e w ev)).
Proof.
  intros [C D L R] Hs. unfold step. rewrite D. destruct ev as [c addr|sl r x|ph| |ph|ph x|ph bad ps x|t].
  - destruct (st_conns (w_st w) !! c) as [k|] eqn:Ec; [exact Hs|].
    pose proof (run_sane _ _ Hs (sf_conn false e (w_st w) c addr [] Hs)) as H.
    destruct (accept_ok (w_st w) c addr C Ec) as (E & _ & _). rewrite E. cbn [w_st].
    unfold opened, connThread in H. rewrite run_bind in H. cbn [run wr1 ret] in H. rewrite run_bind, run_bind, E in H.
    exact H.
  - case_bool_decide as Hl; [|exact Hs]. pose proof (run_sane _ _ Hs (sf_serve false e sl [(r, x)] (w_st w) Hs (L sl Hl))) as H.
    destruct (run (serveLoop e sl [(r, x)]) (w_st w)) as [[[]|er|] s']; exact H.
  - case_bool_decide as Hl; [|exact Hs]. pose proof (run_sane _ _ Hs (sf_tick (w_st w) ph Hs)) as H.
    destruct (run (checkKeepalive ph) (w_st w)) as [[u|er|] s']; exact H.
  - exact Hs.
  - exact (run_sane _ _ Hs (sf_geo (w_st w) ph Hs)).
  - exact (run_sane _ _ Hs (sf_get e (w_st w) ph x Hs)).
  - exact (run_sane _ _ Hs (sf_put e (w_st w) ph bad ps x Hs)).
  - destruct Hs. constructor; assumption.
Qed.
Lemma history_sane e now evs : sane (w_st (history e now evs)).
Proof.
  induction evs as [|ev evs IH] using rev_ind; [apply init_sane|].
  rewrite history_snoc. apply step_sane; [apply history_ok|exact IH].
Qed.
