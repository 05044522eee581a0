(** Goroutines acting for other phones leave what is stored under a phone alone, in every
    schedule *)
From stdpp Require Import gmap.
From Verif Require Import Base HexM TimeM HeaderM ParamsM GeoM MsgM PacketM FrameM ProgM ProgP RingM SpecRing RingP
  StateM ProcM ServerM ConcM SpecState SpecConc StateP ProcP ServerP EffectP ConcP.
Local Open Scope N_scope.

(** A program is safe when, as long as the others change the state within [R], each of its
    actions keeps the invariant and is allowed by [G], and its results satisfy [Q]. *)
Inductive rsafe {S A} (I : S -> Prop) (R G : S -> S -> Prop) (Q : S -> res A -> Prop) : S -> prog S A -> Prop :=
| rs_ret s r : (forall s', I s' -> R s s' -> Q s' r) -> rsafe I R G Q s (Ret r)
| rs_act s a f k :
    (forall s', I s' -> R s s' -> I (f s') /\ G s' (f s')) ->
    (forall s', I s' -> R s s' -> rsafe I R G Q (f s') (k s')) ->
    rsafe I R G Q s (Act a f k).

Section RSafe.
Context {S : Type} (I : S -> Prop) (R G : S -> S -> Prop).
Hypothesis Rrefl : forall s, R s s.
Hypothesis Rtrans : forall a b c, R a b -> R b c -> R a c.
Hypothesis GR : forall a b, G a b -> R a b.
Lemma rsafe_mono {A} (Q : S -> res A -> Prop) s s' p : rsafe I R G Q s p -> R s s' -> rsafe I R G Q s' p.
Proof.
  intros H Hg. inversion H as [? ? Hq|? ? ? ? Hk Hk']; subst; constructor.
  - intros t Ht Hst. apply Hq; [exact Ht|eapply Rtrans; eassumption].
  - intros t Ht Hst. apply Hk; [exact Ht|eapply Rtrans; eassumption].
  - intros t Ht Hst. apply Hk'; [exact Ht|eapply Rtrans; eassumption].
Qed.
Lemma rsafe_bindR {A B} (Q : S -> res A -> Prop) (Q' : S -> res B -> Prop) s (p : prog S A) g :
  rsafe I R G Q s p -> (forall t r, R s t -> I t -> Q t r -> rsafe I R G Q' t (g r)) ->
  I s -> rsafe I R G Q' s (pbindR p g).
Proof.
  intros H. induction H as [s r Hq|s a f k Hk _ IH]; intros Hg Hi; cbn.
  - apply Hg; auto.
  - constructor; [exact Hk|]. intros s' Hi' Hg'. destruct (Hk s' Hi' Hg') as (H1 & H2). apply (IH s' Hi' Hg'); [|exact H1].
    intros t r Ht Hit HQ. apply Hg; [|exact Hit|exact HQ].
    eapply Rtrans; [exact Hg'|]. eapply Rtrans; [exact (GR _ _ H2)|exact Ht].
Qed.
End RSafe.

Section Iso.
(** [pv]: the plate, if any, that no device of another phone has; [fixed]: no time passes *)
Context (q : str) (pv : option str) (fixed : bool).
Definition spare (s : st) : Prop := forall w, pv = Some w -> plate_spare q w s.
Definition iok (s : st) : Prop := sane s /\ own_rings s /\ spare s.
(** a buffer that is not [q]'s does not become [q]'s *)
Definition rely (s s' : st) : Prop :=
  grows s s' /\ forall l, is_Some (st_rings s !! l) -> st_geo s !! q <> Some l -> st_geo s' !! q <> Some l.
Record same (s s' : st) : Prop := {
  sm_ptr : st_byPhone s' !! q = st_byPhone s !! q;
  sm_plate : forall w, pv = Some w -> st_byPlate s' !! w = st_byPlate s !! w;
  sm_devs : forall l d, st_devs s !! l = Some d -> d_phone d = q -> st_devs s' !! l = Some d;
  sm_geo : st_geo s' !! q = st_geo s !! q;
  sm_ring : ringOf s' q = ringOf s q;
  sm_params : st_params s' !! q = st_params s !! q;
  sm_jobs : base.filter (fun p => p = q) (st_jobs s') = base.filter (fun p => p = q) (st_jobs s);
  sm_clock : fixed = true -> st_clock s' = st_clock s }.
Definition guar (s s' : st) : Prop := grows s s' /\ same s s'.
Lemma rely_refl s : rely s s.
Proof. split; [apply grows_refl|auto]. Qed.
Lemma rely_trans a b c : rely a b -> rely b c -> rely a c.
Proof.
  intros (H1 & H2) (K1 & K2). split; [eapply grows_trans; eassumption|]. intros l Hl Hn. apply K2; [apply (gr_ring _ _ H1); exact Hl|auto].
Qed.
Lemma guar_rely a b : guar a b -> rely a b.
Proof. intros (H & K). split; [exact H|]. intros l _ Hn. rewrite (sm_geo _ _ K). exact Hn. Qed.
Lemma same_refl s : same s s.
Proof. constructor; auto. Qed.
Lemma same_trans a b c : same a b -> same b c -> same a c.
Proof.
  intros [A1 A0 A2 A3 A4 A5 A6 A7] [B1 B0 B2 B3 B4 B5 B6 B7]. constructor; try congruence; [|eauto|].
  - intros w E. rewrite B0, A0 by exact E. reflexivity.
  - intros F. rewrite B7, A7 by exact F. reflexivity.
Qed.
Lemma same_devAt s s' : sane s -> same s s' -> devAt s' q = devAt s q.
Proof.
  intros Hs H. unfold devAt. rewrite (sm_ptr _ _ H). destruct (st_byPhone s !! q) as [l|] eqn:E; [|reflexivity].
  destruct (sn_phone s Hs _ _ E) as (d & Hd & Hp). rewrite Hd. exact (sm_devs _ _ H _ _ Hd Hp).
Qed.
Lemma same_untouched s s' : sane s -> same s s' -> untouched q s s'.
Proof. intros Hs H. split; [apply same_devAt; assumption|]. split; [apply sm_ring, H|]. split; [apply sm_params, H|apply sm_jobs, H]. Qed.
Lemma guar_refl s : guar s s.
Proof. split; [apply grows_refl|apply same_refl]. Qed.
Lemma guar_trans a b c : guar a b -> guar b c -> guar a c.
Proof. intros (H & H') (K & K'). split; [eapply grows_trans; eassumption|eapply same_trans; eassumption]. Qed.

Definition rpost {A} (P : st -> A -> Prop) : st -> res A -> Prop :=
  fun t r => match r with Ok a => P t a | _ => True end.
Notation IS P s p := (rsafe iok rely guar (rpost P) s p).
Definition steady {A} (P : st -> A -> Prop) : Prop := forall t u a, P t a -> rely t u -> P u a.

Lemma is_bind {A B} (P : st -> A -> Prop) (P' : st -> B -> Prop) s (p : sp A) g :
  iok s -> IS P s p -> (forall t a, rely s t -> iok t -> P t a -> IS P' t (g a)) -> IS P' s (pbind p g).
Proof.
  intros Hs Hp Hg. unfold pbind. eapply rsafe_bindR; [exact rely_refl|exact rely_trans|exact guar_rely|exact Hp| |exact Hs].
  intros t [a|er|] Ht Hi HQ; [apply Hg; assumption|constructor; intros; exact Logic.I|constructor; intros; exact Logic.I].
Qed.
Lemma is_ret {A} (P : st -> A -> Prop) s a : steady P -> P s a -> IS P s (ret a).
Proof. intros Hst Hp. constructor. intros s' _ Hg. exact (Hst s s' a Hp Hg). Qed.
Lemma is_any {A} s (a : A) : IS any s (ret a).
Proof. constructor. intros. exact Logic.I. Qed.
Lemma is_fail {A} (P : st -> A -> Prop) s e : IS P s (fail e).
Proof. constructor. intros. exact Logic.I. Qed.
Lemma is_panic {A} (P : st -> A -> Prop) s : IS P s panic.
Proof. constructor. intros. exact Logic.I. Qed.
Lemma is_lift {A} s (r : res A) : IS (fun _ a => r = Ok a) s (lift r).
Proof. constructor. intros. destruct r; cbn; auto. Qed.
Lemma is_act {A} (P : st -> A -> Prop) s a f k :
  (forall t, rely s t -> iok t -> iok (f t) /\ guar t (f t)) ->
  (forall t, rely s t -> iok t -> iok (f t) -> guar t (f t) -> IS P (f t) (k t)) -> IS P s (Act a f k).
Proof. intros H1 H2. constructor; [auto|]. intros t Hi Hg. destruct (H1 t Hg Hi). apply H2; assumption. Qed.
Lemma is_read {A} (P : st -> A -> Prop) s a g : steady P -> (forall t, rely s t -> iok t -> P t (g t)) -> IS P s (rd1 a g).
Proof.
  intros Hst H. apply is_act; [intros; split; [assumption|apply guar_refl]|]. intros t Hg Hi _ _. apply is_ret; auto.
Qed.
Lemma is_write s a f : (forall t, rely s t -> iok t -> iok (f t) /\ guar t (f t)) -> IS any s (wr1 a f).
Proof. intros H. apply is_act; [exact H|]. intros. apply is_any. Qed.
Lemma is_lock s m : IS any s (lock m).
Proof. apply is_write. intros t _ Ht. split; [exact Ht|apply guar_refl]. Qed.
Lemma is_unlock s m : IS any s (unlock m).
Proof. apply is_write. intros t _ Ht. split; [exact Ht|apply guar_refl]. Qed.
Lemma steady_any {A} : steady (@any A).
Proof. intros ? ? ? _ _. exact Logic.I. Qed.

(** a device of another phone, a buffer of another phone *)
Definition odev (s : st) (l : nat) : Prop := exists d, st_devs s !! l = Some d /\ d_phone d <> q /\ forall w, pv = Some w -> d_plate d <> w.
Definition oring (s : st) (l : nat) : Prop := is_Some (st_rings s !! l) /\ st_geo s !! q <> Some l.
Lemma steady_odev : steady odev.
Proof.
  intros t u l (d & H & Hn & Hw) (G & _). destruct (gr_dev _ _ G l d H) as (d' & H' & E). exists d'. split; [exact H'|].
  injection E. intros. split; [congruence|]. intros w Ew. specialize (Hw w Ew). congruence.
Qed.
Lemma steady_oring : steady oring.
Proof. intros t u l (H & Hn) (G & Hr). split; [apply (gr_ring _ _ G); exact H|auto]. Qed.
Lemma steady_opt {A} (P : st -> A -> Prop) : steady P -> steady (opt P).
Proof. intros H t u [a|] Hp Hg; cbn in *; eauto. Qed.
(** the records in the index stay what they are *)
Lemma spare_keep t t' : sane t -> grows t t' ->
  (forall ph l, ph <> q -> st_byPhone t' !! ph = Some l -> st_byPhone t !! ph = Some l) ->
  (forall w l, pv = Some w -> st_byPlate t' !! w = Some l -> st_byPlate t !! w = Some l) -> spare t -> spare t'.
Proof.
  intros Hs Hg Hb Hb' H w E. destruct (H w E) as (H1 & H2). split.
  - intros ph d Hn Hd. unfold devAt in Hd. destruct (st_byPhone t' !! ph) as [l|] eqn:El; [|discriminate].
    apply (Hb _ _ Hn) in El. destruct (sn_phone t Hs _ _ El) as (d0 & H0 & _).
    destruct (gr_dev _ _ Hg l d0 H0) as (d' & H' & Ew). rewrite Hd in H'. injection H' as <-.
    assert (Hw : d_plate d0 <> w) by (apply (H1 ph); [exact Hn|]; unfold devAt; rewrite El; exact H0). injection Ew. congruence.
  - intros d Hd. unfold devWithPlate in Hd. destruct (st_byPlate t' !! w) as [l|] eqn:El; [|discriminate].
    apply (Hb' _ _ E) in El. destruct (sn_plate t Hs _ _ El) as (d0 & H0 & _).
    destruct (gr_dev _ _ Hg l d0 H0) as (d' & H' & Ew). rewrite Hd in H'. injection H' as <-.
    assert (Hw : d_phone d0 = q) by (apply H2; unfold devWithPlate; rewrite El; exact H0). injection Ew. congruence.
Qed.
(** every change to what is not stored under a phone *)
Lemma iok_rest t t' : iok t -> sane t' -> grows t t' ->
  st_byPhone t' = st_byPhone t -> st_byPlate t' = st_byPlate t -> st_devs t' = st_devs t -> st_geo t' = st_geo t -> st_rings t' = st_rings t ->
  st_params t' = st_params t -> st_jobs t' = st_jobs t ->
  (fixed = true -> st_clock t' = st_clock t) -> iok t' /\ guar t t'.
Proof.
  intros (Hs & Ho & Hv) Hs' Hg E1 E0 E2 E3 E4 E5 E6 E7. split.
  - split; [exact Hs'|]. split; [unfold own_rings; rewrite E3; exact Ho|].
    apply (spare_keep t); [exact Hs|exact Hg| | |exact Hv]; [intros ph l _; rewrite E1; auto|intros w l _; rewrite E0; auto].
  - split; [exact Hg|]. constructor; unfold ringOf; rewrite ?E1, ?E0, ?E2, ?E3, ?E4, ?E5, ?E6; auto.
Qed.
Lemma is_getNow s : IS any s getNow.
Proof. apply is_read; [apply steady_any|]. intros. exact Logic.I. Qed.
Lemma is_byPhone s ph : ph <> q -> IS (opt odev) s (getDeviceByPhone ph).
Proof.
  intros Hn. apply is_read; [apply steady_opt, steady_odev|]. intros t _ (Hi & _ & Hv).
  destruct (st_byPhone t !! ph) as [l|] eqn:E; [|exact Logic.I]. destruct (sn_phone t Hi _ _ E) as (d & H & Hp).
  exists d. split; [exact H|]. split; [congruence|]. intros w Ew. apply (proj1 (Hv w Ew) ph); [exact Hn|]. unfold devAt. rewrite E. exact H.
Qed.
(** for any phone: only what the object is *)
Definition vdev (s : st) (l : nat) : Prop := is_Some (st_devs s !! l).
Lemma steady_vdev : steady vdev.
Proof. intros t u l (d & H) (G & _). destruct (gr_dev _ _ G l d H) as (d' & H' & _). exists d'. exact H'. Qed.
Lemma is_byPhone' s ph : IS (opt vdev) s (getDeviceByPhone ph).
Proof.
  apply is_read; [apply steady_opt, steady_vdev|]. intros t _ (Hi & _).
  destruct (st_byPhone t !! ph) as [l|] eqn:E; [|exact Logic.I]. destruct (sn_phone t Hi _ _ E) as (d & H & Hp).
  exists d. exact H.
Qed.
Lemma is_byPlate s x : IS any s (getDeviceByPlate x).
Proof. apply is_read; [apply steady_any|]. intros. exact Logic.I. Qed.
Lemma is_getSession s i : IS (opt sess) s (getSession i).
Proof.
  apply is_read; [|].
  - apply steady_opt. intros t u l H (G & _). exact (stable_sess t u l H G).
  - intros t _ (Hi & _). destruct (st_byID t !! i) as [l|] eqn:E; [|exact Logic.I].
    destruct (sn_byID t Hi _ _ E) as (d & H & _). exists d. exact H.
Qed.
Lemma steady_sess : steady sess.
Proof. intros t u l H (G & _). exact (stable_sess t u l H G). Qed.
Lemma is_readConst s l : odev s l -> IS (fun _ d => d_phone d <> q) s (readConst l).
Proof.
  intros H. apply is_act; [intros; split; [assumption|apply guar_refl]|]. intros t Hg _ _ _.
  destruct (steady_odev _ _ _ H Hg) as (d & Hd & Hn & _). rewrite Hd. apply is_ret; [intros ? ? ? Hp _; exact Hp|exact Hn].
Qed.
Lemma is_readDev s l : IS any s (readDev l).
Proof.
  apply is_act; [intros; split; [assumption|apply guar_refl]|]. intros t Hg _ _ _.
  destruct (st_devs t !! l); [apply is_any|apply is_panic].
Qed.
Lemma is_readConst' s l : IS any s (readConst l).
Proof.
  apply is_act; [intros; split; [assumption|apply guar_refl]|]. intros t Hg _ _ _.
  destruct (st_devs t !! l); [apply is_any|apply is_panic].
Qed.
Lemma sane_writeDev t l f : (forall d, who (f d) = who d) -> sane t ->
  sane (set_devs (alter f l) t) /\ grows t (set_devs (alter f l) t).
Proof.
  intros Hf Hs. pose proof (sf_writeDev false t l f Hf) as H. inversion H as [|? ? ? ? Hk _]; subst.
  exact (Hk t Hs (grows_refl t)).
Qed.
Lemma is_writeDev s l f : odev s l -> (forall d, who (f d) = who d) -> IS any s (writeDev l f).
Proof.
  intros Ho Hf. apply is_write. intros t Hr (Hs & Hw & Hv). destruct (sane_writeDev t l f Hf Hs) as (H1 & H2).
  split; [split; [exact H1|split; [exact Hw|apply (spare_keep t); auto]]|]. split; [exact H2|].
  constructor; auto. intros l0 d' Hd' Hp. cbn.
  rewrite lookup_alter_ne; [exact Hd'|]. intros <-. destruct (steady_odev _ _ _ Ho Hr) as (d & Hd & Hn & _). congruence.
Qed.
Lemma sane_alloc t d : sane t -> sane (set_devs (<[fresh (dom (st_devs t)) := d]>) t)
  /\ grows t (set_devs (<[fresh (dom (st_devs t)) := d]>) t).
Proof.
  intros Hs. pose proof (sf_allocDev false t d) as H. inversion H as [|? ? ? ? Hk _]; subst. exact (Hk t Hs (grows_refl t)).
Qed.
Lemma fresh_dev t : st_devs t !! fresh (dom (st_devs t)) = None.
Proof. apply not_elem_of_dom, is_fresh. Qed.
Lemma is_allocDev s d : d_phone d <> q -> (forall w, pv = Some w -> d_plate d <> w) -> IS odev s (allocDev d).
Proof.
  intros Hd Hpl. apply is_act.
  - intros t _ (Hs & Hw & Hv). destruct (sane_alloc t d Hs) as (H1 & H2).
    split; [split; [exact H1|split; [exact Hw|apply (spare_keep t); auto]]|].
    split; [exact H2|]. constructor; auto. intros l0 d' Hd' _. cbn. rewrite lookup_insert_ne; [exact Hd'|].
    intros <-. rewrite fresh_dev in Hd'. discriminate.
  - intros t _ _ _ _. apply is_ret; [exact steady_odev|]. exists d. cbn. rewrite lookup_insert. auto.
Qed.
Lemma sane_cache t l : sane t -> let f := fun s => match st_devs s !! l with
    | Some d => set_index (<[d_plate d := l]>) (<[d_phone d := l]>) s | None => s end in sane (f t) /\ grows t (f t).
Proof.
  intros Hs f. pose proof (sf_cacheDevice false t l) as H. inversion H as [|? ? ? ? Hk _]; subst. exact (Hk t Hs (grows_refl t)).
Qed.
Lemma is_cacheDevice s l : odev s l -> IS any s (cacheDevice l).
Proof.
  intros Ho. apply is_write. intros t Hr (Hs & Hw & Hv). destruct (sane_cache t l Hs) as (H1 & H2). cbv beta in *.
  destruct (steady_odev _ _ _ Ho Hr) as (d & Hd & Hn & Hpl). rewrite Hd in *.
  split; [split; [exact H1|split; [exact Hw|]]|].
  - intros w E. split.
    + intros ph d' Hph. unfold devAt. cbn. destruct (decide (d_phone d = ph)) as [<-|Hne].
      * rewrite lookup_insert, Hd. intros [= <-]. exact (Hpl w E).
      * rewrite lookup_insert_ne by exact Hne. exact (proj1 (Hv w E) ph d' Hph).
    + intros d'. unfold devWithPlate. cbn. rewrite lookup_insert_ne by exact (Hpl w E). apply (proj2 (Hv w E)).
  - split; [exact H2|]. constructor; auto; cbn; [rewrite lookup_insert_ne by congruence; reflexivity|].
    intros w E. rewrite lookup_insert_ne by exact (Hpl w E). reflexivity.
Qed.
Lemma is_delDevice s ph : ph <> q -> IS any s (delDeviceByPhone ph).
Proof.
  intros Hn. apply is_write. intros t Hr (Hs & Hw & Hv).
  assert (H : sane (snd (run (delDeviceByPhone ph) t)) /\ grows t (snd (run (delDeviceByPhone ph) t))).
  { pose proof (sf_delDevice false t ph) as H. inversion H as [|? ? ? ? Hk _]; subst. exact (Hk t Hs (grows_refl t)). }
  cbn in H. destruct (st_byPhone t !! ph) as [l|] eqn:El; [|split; [split; [|split]; assumption|apply guar_refl]].
  destruct (sn_phone t Hs _ _ El) as (d & Hd & Hp). rewrite Hd in *. destruct H as (H1 & H2).
  split; [split; [exact H1|split; [exact Hw|apply (spare_keep t); auto]]|].
  - intros ph' l' _ H. cbn in H. apply lookup_delete_Some in H. apply H.
  - intros w l' _ H. cbn in H. apply lookup_delete_Some in H. apply H.
  - split; [exact H2|]. constructor; auto; cbn; [rewrite lookup_delete_ne by congruence; reflexivity|].
    intros w E. rewrite lookup_delete_ne; [reflexivity|]. apply (proj1 (Hv w E) ph); [exact Hn|]. unfold devAt. rewrite El. exact Hd.
Qed.
Lemma filter_add (js : list str) ph : ph <> q ->
  base.filter (fun p => p = q) (js ++ [ph]) = base.filter (fun p => p = q) js.
Proof. intros Hn. rewrite list.filter_app, (filter_cons_False (fun p => p = q)) by exact Hn. apply app_nil_r. Qed.
Lemma is_timerAdd s ph : ph <> q -> IS any s (timerAdd ph).
Proof.
  intros Hn. apply is_write. intros t Hr (Hs & Hw). split; [split; [|exact Hw]|split].
  - destruct Hs as [P Q Ge Ri Pa By Co]. constructor; cbn; eauto.
  - constructor; cbn; eauto.
  - constructor; auto. cbn. rewrite filter_add by exact Hn. reflexivity.
Qed.
Lemma filter_other (js : list str) ph : ph <> q ->
  base.filter (fun p => p = q) (base.filter (fun p => p <> ph) js) = base.filter (fun p => p = q) js.
Proof.
  intros Hn. induction js as [|j js IH]; [reflexivity|]. destruct (decide (j = ph)) as [->|Hj].
  - rewrite (filter_cons_False (fun p => p <> ph)) by (intros H; apply H; reflexivity).
    rewrite (filter_cons_False (fun p => p = q)) by exact Hn. exact IH.
  - rewrite (filter_cons_True (fun p => p <> ph)) by exact Hj. destruct (decide (j = q)) as [->|Hq].
    + rewrite !(filter_cons_True (fun p => p = q)) by reflexivity. rewrite IH. reflexivity.
    + rewrite !(filter_cons_False (fun p => p = q)) by exact Hq. exact IH.
Qed.
Lemma is_timerCancel s ph : ph <> q -> IS any s (timerCancel ph).
Proof.
  intros Hn. apply is_write. intros t Hr (Hs & Hw). split; [split; [|exact Hw]|split].
  - destruct Hs as [P Q Ge Ri Pa By Co]. constructor; cbn; eauto.
  - constructor; cbn; eauto.
  - constructor; auto. cbn. apply filter_other. exact Hn.
Qed.
Lemma is_register s ph : iok s -> ph <> q -> IS any s (timerRegister ph).
Proof.
  intros Hs Hn. apply (is_bind (opt odev)); [exact Hs|apply is_byPhone; exact Hn|]. intros t [l|] _ _ _; [apply is_timerAdd; exact Hn|apply is_any].
Qed.
Lemma fresh_ring t : st_rings t !! fresh (dom (st_rings t)) = None.
Proof. apply not_elem_of_dom, is_fresh. Qed.
Lemma fresh_geo t p : sane t -> st_geo t !! p <> Some (fresh (dom (st_rings t))).
Proof. intros Hs H. destruct (sn_geo t Hs _ _ H) as (r & Hr). rewrite fresh_ring in Hr. discriminate. Qed.
Lemma own_new t ph : sane t -> own_rings t ->
  own_rings (set_geo (<[ph := fresh (dom (st_rings t))]>) (set_rings (<[fresh (dom (st_rings t)) := newRing ringCapacity]>) t)).
Proof.
  intros Hs Hw p p' l. cbn. destruct (decide (ph = p)) as [<-|Hp], (decide (ph = p')) as [<-|Hp']; [auto|..].
  - rewrite lookup_insert, lookup_insert_ne by congruence. intros [= <-] H. destruct (fresh_geo t p' Hs H).
  - rewrite lookup_insert, lookup_insert_ne by congruence. intros H [= <-]. destruct (fresh_geo t p Hs H).
  - rewrite !lookup_insert_ne by congruence. apply Hw.
Qed.
Lemma sane_getRing t ph : sane t -> sane (snd (run (getGeoRingByPhone ph) t)) /\ grows t (snd (run (getGeoRingByPhone ph) t)).
Proof.
  intros Hs. pose proof (sf_getRing false t ph) as H. inversion H as [|? ? ? ? Hk _]; subst. exact (Hk t Hs (grows_refl t)).
Qed.
Lemma is_getRing s ph : ph <> q -> IS oring s (getGeoRingByPhone ph).
Proof.
  intros Hn. apply is_act.
  - intros t _ (Hs & Hw). destruct (sane_getRing t ph Hs) as (H1 & H2). cbn in H1, H2.
    destruct (st_geo t !! ph) as [l|] eqn:E; [split; [split; assumption|apply guar_refl]|]. destruct Hw as (Hw & Hv).
    split; [split; [exact H1|split; [apply own_new; assumption|exact Hv]]|]. split; [exact H2|].
    constructor; auto.
    + cbn. rewrite lookup_insert_ne by congruence. reflexivity.
    + unfold ringOf. cbn. rewrite lookup_insert_ne by congruence. destruct (st_geo t !! q) as [l|] eqn:Eq; [|reflexivity].
      rewrite lookup_insert_ne; [reflexivity|]. intros <-. exact (fresh_geo t q Hs Eq).
  - intros t _ (Hs & Hw) _ _. apply is_ret; [exact steady_oring|]. destruct (st_geo t !! ph) as [l|] eqn:E.
    + split; [exact (sn_geo t Hs _ _ E)|]. intros Eq. apply Hn. exact (proj1 Hw _ _ _ E Eq).
    + split; cbn; [rewrite lookup_insert; eauto|]. rewrite lookup_insert_ne by congruence. apply fresh_geo. exact Hs.
Qed.
Lemma is_delGeo s ph : ph <> q -> IS any s (delGeoByPhone ph).
Proof.
  intros Hn. apply is_write. intros t _ (Hs & Hw). split; [split|split].
  - destruct Hs as [P Q Ge Ri Pa By Co]. constructor; cbn; eauto.
    intros p l H. apply lookup_delete_Some in H. destruct H as (_ & H). eauto.
  - split; [|exact (proj2 Hw)]. destruct Hw as (Hw & _).
    intros p p' l H H'. cbn in H, H'. apply lookup_delete_Some in H. apply lookup_delete_Some in H'. destruct H, H'. eauto.
  - constructor; cbn; eauto.
  - constructor; auto; unfold ringOf; cbn; rewrite lookup_delete_ne by congruence; reflexivity.
Qed.
Lemma is_onRing {A} l (p : prog (ring devgeo) A) : forall s r0, oring s l ->
  safe (rok 100) gtrue (fun _ x => True) r0 p -> IS any s (onRing l p).
Proof.
  unfold onRing. induction p as [x|a f k IH]; intros s r0 Hs Hp; cbn [zoom].
  - constructor. intros t Hi Hg. destruct x; exact Logic.I.
  - inversion Hp as [|? ? ? ? Hk Hk']; subst.
    assert (Hat : forall t, rely s t -> sane t -> exists r, st_rings t !! l = Some r /\ ringAt l t = r /\ rok 100 r).
    { intros t Hg Hi. destruct (steady_oring _ _ _ Hs Hg) as ((r & Hr) & _). exists r. split; [exact Hr|].
      split; [unfold ringAt; rewrite Hr; reflexivity|]. exact (sn_rings t Hi l r Hr). }
    apply is_act.
    + intros t Hg (Hi & Hw). destruct (Hat t Hg Hi) as (r & Hr & -> & Hok). destruct (Hk r Hok Logic.I) as (Hf & _).
      destruct (steady_oring _ _ _ Hs Hg) as (_ & Hq). split; [split; [|exact Hw]|split].
      * destruct Hi as [P Q Ge Ri Pa By Co]. constructor; cbn; eauto.
        -- intros p l' H. rewrite lookup_insert_is_Some'. right. eapply Ge; eassumption.
        -- intros l' r'. destruct (decide (l = l')) as [<-|Hn].
           ++ rewrite lookup_insert. intros [= <-]. exact Hf.
           ++ rewrite lookup_insert_ne by exact Hn. apply Ri.
      * constructor; cbn; eauto. intros l' H. rewrite lookup_insert_is_Some'. right. exact H.
      * constructor; auto. unfold ringOf. cbn. destruct (st_geo t !! q) as [l0|] eqn:E; [|reflexivity].
        rewrite lookup_insert_ne by congruence. reflexivity.
    + intros t Hg (Hi & Hw) _ _. destruct (Hat t Hg Hi) as (r & Hr & -> & Hok). apply (IH r _ (f r)).
      * destruct (steady_oring _ _ _ Hs Hg) as (_ & Hq). split; [|exact Hq]. cbn. rewrite lookup_insert. eauto.
      * apply Hk'; [exact Hok|exact Logic.I].
Qed.
Lemma is_ringWrite s l v : oring s l -> IS any s (onRing l (ringWrite l v)).
Proof.
  intros H. apply (is_onRing l _ s (newRing 0)); [exact H|].
  eapply safe_post; [unfold gtrue; auto|apply (safe_ringCall 100 l (CWrite v)); discriminate|]. cbn. auto.
Qed.
Lemma is_latest s l : oring s l -> IS any s (onRing l (ringLatest l)).
Proof.
  intros H. apply (is_onRing l _ s (newRing 0)); [exact H|].
  assert (R : forall r : ring devgeo, rok 100 r -> rok 100 r /\ gtrue r r) by (split; [assumption|exact Logic.I]).
  unfold ringLatest, loadWriter, rd1. cbn. constructor; [auto|]. intros r _ _. cbn.
  destruct (_ =? _)%Z; [constructor; auto|]. constructor; [auto|]. intros r1 _ _. cbn. constructor; [auto|].
  intros r2 _ _. cbn. constructor; [auto|]. intros r3 _ _. destruct (inRange _ _); constructor; auto.
Qed.
Lemma is_params s d : dp_phone d <> q -> IS any s (cacheDeviceParams d).
Proof.
  intros Hn. apply is_write. intros t _ (Hs & Hw). split; [split; [|exact Hw]|split].
  - destruct Hs as [P Q Ge Ri Pa By Co]. constructor; cbn; eauto. intros p d'. destruct (decide (dp_phone d = p)) as [<-|Hp].
    + rewrite lookup_insert. intros [= <-]. reflexivity.
    + rewrite lookup_insert_ne by exact Hp. apply Pa.
  - constructor; cbn; eauto.
  - constructor; auto. cbn. apply lookup_insert_ne. exact Hn.
Qed.
Lemma is_getParams s ph : ph <> q -> IS (opt (fun _ d => dp_phone d <> q)) s (getDeviceParamsByPhone ph).
Proof.
  intros Hn. apply is_read; [intros t u [d|] H _; exact H|]. intros t _ (Hi & _).
  destruct (st_params t !! ph) as [d|] eqn:E; [|exact Logic.I]. cbn. rewrite (sn_params t Hi _ _ E). exact Hn.
Qed.
Lemma is_readSess s l : sess s l -> IS (fun t x => is_Some (st_conns t !! ss_conn x)) s (readSess l).
Proof.
  intros H. apply is_act; [intros; split; [assumption|apply guar_refl]|]. intros t Hg (Hi & _) _ _.
  destruct (steady_sess _ _ _ H Hg) as (x & Hx). rewrite Hx. apply is_ret.
  - intros u v y Hy (G & _). exact (gr_conn _ _ G _ Hy).
  - exact (sn_conn t Hi _ _ Hx).
Qed.
Lemma is_alterSn t l n : iok t -> iok (set_sess (alter (fun x => sset_sn x n) l) t)
  /\ guar t (set_sess (alter (fun x => sset_sn x n) l) t).
Proof. intros Hi. destruct (sf_alterSn t l n (proj1 Hi)) as (H1 & H2). apply iok_rest; auto. Qed.
Lemma is_nextSerial s l : IS any s (nextSerial l).
Proof.
  unfold nextSerial, getNextSerialNum. cbn [zoom]. apply is_act; [intros; apply is_alterSn; assumption|].
  intros t _ _ _ _. cbn zeta. destruct (_ <=? _); cbn; [apply is_any|].
  apply is_act; [intros; apply is_alterSn; assumption|]. intros u _ _ _ _.
  apply is_act; [intros; apply is_alterSn; assumption|]. intros v _ _ _ _. apply is_any.
Qed.
Lemma is_alterConn t c g : iok t -> iok (set_conns (alter g c) t) /\ guar t (set_conns (alter g c) t).
Proof. intros Hi. destruct (sf_alterConn t c g (proj1 Hi)) as (H1 & H2). apply iok_rest; auto. Qed.
Lemma is_connSend s c b w : is_Some (st_conns s !! c) -> IS any s (connSend c b w).
Proof.
  intros H. apply is_act; [intros; apply is_alterConn; assumption|]. intros t (Hg & _) _ _ _.
  destruct (gr_conn _ _ Hg c H) as (k & Hk). rewrite Hk. destruct (cn_open k); [|apply is_fail].
  destruct w as [[? ?]|]; [apply is_fail|apply is_any].
Qed.
Lemma is_connClose s c : IS any s (connClose c).
Proof. apply is_write. intros. apply is_alterConn. assumption. Qed.
Lemma is_clear s i : IS any s (clearSession i).
Proof.
  apply is_write. intros t _ (Hs & Hw). apply iok_rest; [split; assumption|..]; try reflexivity.
  - destruct Hs as [P Q Ge Ri Pa By Co]. constructor; cbn; eauto.
    intros p l H. apply lookup_delete_Some in H. destruct H as (_ & H). eauto.
  - constructor; cbn; eauto.
Qed.
Lemma is_cacheSegment s x : IS any s (cacheSegment x).
Proof.
  unfold cacheSegment. apply is_act.
  - intros t _ (Hs & Hw). apply iok_rest; [split; assumption|..]; try reflexivity.
    + destruct Hs as [P Q Ge Ri Pa By Co]. constructor; cbn; eauto.
    + constructor; cbn; eauto.
  - intros t _ _ _ _. destruct (st_segs t !! _); [apply is_any|apply is_panic].
Qed.

(** ** Handlers *)
Ltac bd P := eapply (is_bind P); [assumption|..].
Tactic Notation "nx" ident(t) ident(a) ident(g) ident(i) ident(h) := intros t a g i h.
Lemma is_hasPlate s x : iok s -> IS any s (hasPlate x).
Proof. intros Hs. bd (@any (option nat)); [apply is_byPlate|]. intros. apply is_any. Qed.
Lemma is_hasPhone s x : iok s -> IS any s (hasPhone x).
Proof. intros Hs. bd (opt vdev); [apply is_byPhone'|]. intros. apply is_any. Qed.
Lemma is_0002 s inc out : iok s -> h_phone (m_hdr inc) <> q -> IS any s (process0002 inc out).
Proof.
  intros Hs Hq. bd (opt odev); [apply is_byPhone; exact Hq|]. nx t d g1 i1 h1. destruct d as [l|]; [|apply is_fail].
  bd (@any Z); [apply is_getNow|]. nx t2 now g2 i2 h2. pose proof (steady_odev _ _ _ h1 g2) as D2.
  bd (@any unit); [apply is_writeDev; [exact D2|reflexivity]|]. nx t3 u3 g3 i3 h3.
  bd (@any unit); [apply is_cacheDevice; exact (steady_odev _ _ _ D2 g3)|]. nx t4 u4 g4 i4 h4. apply is_any.
Qed.
Lemma is_0003 s inc out : iok s -> h_phone (m_hdr inc) <> q -> IS any s (process0003 inc out).
Proof.
  intros Hs Hq. bd (opt odev); [apply is_byPhone; exact Hq|]. nx t d g1 i1 h1. destruct d as [l|]; [|apply is_fail].
  eapply is_bind; [exact i1|apply is_readConst; exact h1|]. nx t2 dv g2 i2 h2.
  bd (@any unit); [apply is_timerCancel; exact h2|]. nx t3 u3 g3 i3 h3.
  bd (@any unit); [apply is_delDevice; exact h2|]. nx t4 u4 g4 i4 h4. apply is_any.
Qed.
Lemma is_0100 s sl inc r out : iok s -> sess s sl -> h_phone (m_hdr inc) <> q -> (forall w, pv = Some w -> r_plate r <> w) ->
  IS any s (process0100 sl inc r out).
Proof.
  intros Hs Hx Hq Hpl. bd (@any bool); [apply is_hasPlate; exact Hs|]. nx t b g1 i1 h1. destruct b; [apply is_any|].
  bd (@any bool); [apply is_hasPhone; exact i1|]. nx t2 b g2 i2 h2. destruct b; [apply is_any|].
  eapply is_bind; [exact i2|apply is_readSess; eapply steady_sess; [|exact g2]; eapply steady_sess; eassumption|].
  nx t3 x g3 i3 h3. bd (@any Z); [apply is_getNow|]. nx t4 now g4 i4 h4. cbv zeta.
  bd odev; [apply is_allocDev; [exact Hq|exact Hpl]|]. nx t5 l g5 i5 h5. bd (@any unit); [apply is_cacheDevice; exact h5|]. nx t6 u6 g6 i6 h6.
  bd (@any unit); [apply is_register; [exact i6|exact Hq]|]. nx t7 u7 g7 i7 h7. apply is_any.
Qed.
Lemma is_0102 s inc code imei sw out : iok s -> h_phone (m_hdr inc) <> q -> IS any s (process0102 inc code imei sw out).
Proof.
  intros Hs Hq. bd (opt odev); [apply is_byPhone; exact Hq|]. nx t d g1 i1 h1. destruct d as [l|]; [|apply is_fail].
  eapply is_bind; [exact i1|apply is_readConst; exact h1|]. nx t2 dv g2 i2 h2. destruct (bool_decide _).
  - pose proof (steady_odev _ _ _ h1 g2) as D2.
    bd (@any unit); [apply is_writeDev; [exact D2|reflexivity]|]. nx t3 u3 g3 i3 h3. pose proof (steady_odev _ _ _ D2 g3) as D3.
    bd (@any Z); [apply is_getNow|]. nx t4 now g4 i4 h4. pose proof (steady_odev _ _ _ D3 g4) as D4.
    bd (@any unit); [apply is_writeDev; [exact D4|reflexivity]|]. nx t5 u5 g5 i5 h5. pose proof (steady_odev _ _ _ D4 g5) as D5.
    bd (@any unit); [apply is_writeDev; [exact D5|reflexivity]|]. nx t6 u6 g6 i6 h6. pose proof (steady_odev _ _ _ D5 g6) as D6.
    bd (@any unit); [apply is_cacheDevice; exact D6|]. nx t7 u7 g7 i7 h7. apply is_any.
  - bd (@any unit); [apply is_timerCancel; exact h2|]. nx t3 u3 g3 i3 h3.
    bd (@any unit); [apply is_delDevice; exact h2|]. nx t4 u4 g4 i4 h4. apply is_any.
Qed.
Lemma is_0200 e s inc m out : iok s -> h_phone (m_hdr inc) <> q -> IS any s (process0200 e inc m out).
Proof.
  intros Hs Hq. bd (opt odev); [apply is_byPhone; exact Hq|]. nx t d g1 i1 h1. destruct d as [l|]; [|apply is_fail].
  eapply is_bind; [exact i1|apply is_readConst; exact h1|]. nx t2 dv g2 i2 h2. pose proof (steady_odev _ _ _ h1 g2) as D2.
  bd (@any Z); [apply is_getNow|]. nx t3 now g3 i3 h3. cbv zeta. pose proof (steady_odev _ _ _ D2 g3) as D3.
  bd (@any unit).
  - destruct (_ =? _); [|apply is_any].
    bd (@any unit); [apply is_writeDev; [exact D3|reflexivity]|]. nx t4 u4 g4 i4 h4. pose proof (steady_odev _ _ _ D3 g4) as D4.
    bd (@any Z); [apply is_getNow|]. nx t5 now' g5 i5 h5. pose proof (steady_odev _ _ _ D4 g5) as D5.
    bd (@any unit); [apply is_writeDev; [exact D5|reflexivity]|]. nx t6 u6 g6 i6 h6. apply is_cacheDevice.
    exact (steady_odev _ _ _ D5 g6).
  - nx t4 u4 g4 i4 h4. bd oring; [apply is_getRing; exact h2|]. nx t5 rl g5 i5 h5.
    bd (@any unit); [apply is_ringWrite; exact h5|]. nx t6 u6 g6 i6 h6. apply is_any.
Qed.
Lemma is_8001 s inc r : iok s -> h_phone (m_hdr inc) <> q -> IS any s (process8001 inc r).
Proof.
  intros Hs Hq. unfold process8001. destruct (r =? 0); [|apply is_any].
  bd (opt odev); [apply is_byPhone; exact Hq|]. nx t d g1 i1 h1. destruct d as [l|]; [|apply is_fail].
  bd (@any device); [apply is_readDev|]. nx t2 dv g2 i2 h2. destruct (_ =? _); [|apply is_any].
  pose proof (steady_odev _ _ _ h1 g2) as D2.
  bd (@any unit); [apply is_writeDev; [exact D2|reflexivity]|]. nx t3 u3 g3 i3 h3. pose proof (steady_odev _ _ _ D2 g3) as D3.
  bd (@any Z); [apply is_getNow|]. nx t4 now g4 i4 h4. pose proof (steady_odev _ _ _ D3 g4) as D4.
  bd (@any unit); [apply is_writeDev; [exact D4|reflexivity]|]. nx t5 u5 g5 i5 h5. apply is_cacheDevice.
  exact (steady_odev _ _ _ D4 g5).
Qed.
Lemma is_8100 s inc out : iok s -> IS any s (process8100 inc out).
Proof.
  intros Hs. bd (opt vdev); [apply is_byPhone'|]. nx t d g1 i1 h1. destruct d as [l|]; [|apply is_fail].
  bd (@any device); [apply is_readDev|]. nx t2 dv g2 i2 h2. apply is_any.
Qed.
Lemma is_8103 s inc ps out : iok s -> h_phone (m_hdr inc) <> q -> (forall d, ps = Some d -> dp_phone d <> q) ->
  IS any s (process8103 inc ps out).
Proof.
  intros Hs Hq Hp. eapply is_bind; [exact Hs|apply is_getParams; exact Hq|]. nx t c g1 i1 h1.
  destruct ps as [d|]; [|apply is_panic].
  bd (@any unit); [apply is_params; destruct c as [old|]; [exact h1|apply Hp; reflexivity]|]. nx t2 u2 g2 i2 h2. apply is_any.
Qed.
Lemma paramsDecode_phone o ph cnt sl d : paramsDecode o ph cnt sl = Ok d -> dp_phone d = ph.
Proof. unfold paramsDecode, rmap. destruct (paramsDecodeLoop _ _ _ _); [|discriminate..]. intros [= <-]. reflexivity. Qed.
Lemma is_8104 e s out : iok s -> h_phone (m_hdr out) <> q -> IS any s (process8104 e out).
Proof.
  intros Hs Hq. unfold process8104. eapply is_bind; [exact Hs|apply is_getParams; exact Hq|]. nx t c g1 i1 h1.
  destruct c as [d|]; [apply is_any|]. eapply is_bind; [exact i1|apply is_lift|]. nx t2 d g2 i2 h2.
  bd (@any unit); [apply is_params; rewrite (paramsDecode_phone _ _ _ _ _ h2); exact Hq|]. nx t3 u2 g3 i3 h3. apply is_any.
Qed.
Lemma is_segment s p : iok s -> IS any s (processSegment p).
Proof.
  intros Hs. bd (opt vdev); [apply is_byPhone'|]. nx t d g1 i1 h1. destruct d as [l|]; [|apply is_fail].
  bd (@any device); [apply is_readConst'|]. nx t2 dv g2 i2 h2.
  bd (opt sess); [apply is_getSession|]. nx t3 x g3 i3 h3. destruct x as [sl|]; [|apply is_panic].
  bd (@any N); [apply is_nextSerial|]. nx t4 sn g4 i4 h4. apply is_any.
Qed.
Lemma table_0100 id ok : lookupN optionTable id = Some (K0100, ok) -> id = 0x0100.
Proof.
  unfold optionTable. cbn [lookupN].
  repeat (match goal with |- context [(?a =? ?b)] => destruct (N.eqb_spec a b) end; [intros [= <-]; congruence|]). discriminate.
Qed.
(** the packet is not for [q], nor a registration with the plate *)
Definition fit (e : env) (p : packet) : Prop := h_phone (pk_hdr p) <> q /\ forall w, pv = Some w -> other_plate e w p.
Lemma is_process e s sl p : iok s -> sess s sl -> fit e p -> IS any s (process e sl p).
Proof.
  intros Hs Hx (Hq & Hv). unfold process. destruct (lookupN _ _) as [[ik ok]|] eqn:El; [|apply is_fail].
  destruct (isFragmented (pk_hdr p) && negb (pk_segdone p)) eqn:Ef; [apply is_segment; exact Hs|].
  bd (@any Z); [apply is_getNow|]. nx t now g1 i1 h1.
  eapply is_bind; [exact i1|apply is_lift|]. nx t2 inc g2 i2 h2.
  pose proof (msgDecode_ok _ _ _ _ _ h2) as (Hh & Hk). rewrite <- Hh in Hq. destruct ok as [k|].
  - bd (@any Z); [apply is_getNow|]. nx t3 now3 g3 i3 h3.
    eapply is_bind; [exact i3|apply is_lift|]. nx t4 o g4 i4 h4. destruct o as [out|]; [|apply is_any].
    assert (Hx4 : sess t4 sl) by (eapply steady_sess; [exact Hx|]; eauto using rely_trans).
    bd (@any msg); [|nx t5 o5 g5 i5 h5; apply is_any].
    destruct (m_body inc) eqn:Eb; try apply is_any.
    + apply is_0002; assumption.
    + apply is_0003; assumption.
    + apply is_0100; [assumption..|]. intros w Ew. cbn in Hk. subst ik. exact (Hv w Ew (table_0100 _ _ El) _ _ _ h2 Eb).
    + apply is_0102; assumption.
    + apply is_0200; assumption.
    + apply is_8100; exact i4.
    + apply is_8103; [exact i4|exact Hq|]. intros d ->. cbn in Hk. subst ik.
      destruct (msgDecode_8103 _ _ _ _ cnt (Some d) h2 Eb) as (d' & [= <-] & ->). rewrite <- Hh. exact Hq.
    + apply is_8104; [exact i4|]. rewrite (genOutgoing_phone _ _ _ _ h4). exact Hq.
  - destruct (m_body inc); try apply is_any. bd (@any unit); [apply is_8001; assumption|]. nx t3 u3 g3 i3 h3. apply is_any.
Qed.

(** ** Goroutines *)
Lemma is_write' e s c out w : iok s -> is_Some (st_conns s !! c) -> IS any s (processConnWrite e c out w).
Proof.
  intros Hs Hc. unfold processConnWrite. destruct out as [m|]; [|apply is_any].
  eapply is_bind; [exact Hs|apply is_lift|]. nx t b g1 i1 h1. apply is_connSend. exact (gr_conn _ _ (proj1 g1) c Hc).
Qed.
Lemma is_remove s sl : iok s -> sess s sl -> IS any s (remove sl).
Proof.
  intros Hs Hx. unfold remove. bd (@any unit); [apply is_lock|]. nx t0 u0 g0 i0 h0.
  eapply rsafe_bindR; [exact rely_refl|exact rely_trans|exact guar_rely| | |exact i0].
  - eapply is_bind; [exact i0|apply is_readSess; eapply steady_sess; eassumption|]. nx t x g1 i1 h1.
    bd (@any unit); [apply is_connClose|]. nx t2 u g2 i2 h2. apply is_clear.
  - intros u r g1 i1 h1. bd (@any unit); [apply is_unlock|]. intros v b g2 i2 h2. constructor. intros. destruct r; [exact Logic.I..|exact Logic.I].
Qed.
Lemma is_decodeP e s b : iok s ->
  IS (fun _ p => exists p0, decodePacket (e_o e) b = Ok p0 /\ pk_hdr p0 = pk_hdr p /\ pk_body p0 = pk_body p) s (decodeP e b).
Proof.
  intros Hs. unfold decodeP. eapply is_bind; [exact Hs|apply is_lift|]. nx t p g1 i1 h1.
  assert (St : forall A (x : A -> Prop), steady (fun _ a => x a)) by (intros A x u v a H _; exact H).
  assert (Pk : exists p0, decodePacket (e_o e) b = Ok p0 /\ pk_hdr p0 = pk_hdr p /\ pk_body p0 = pk_body p) by (exists p; auto).
  destruct (isFragmented _); [|apply is_ret; [apply (St _ (fun a => _))|exact Pk]]. destruct (h_frag _); [|apply is_panic].
  bd (@any bool); [apply is_cacheSegment|]. nx t2 d g2 i2 h2. apply is_ret; [apply (St _ (fun a => _))|]. exists p. auto.
Qed.
Lemma fit_same e p p' : pk_hdr p = pk_hdr p' -> pk_body p = pk_body p' -> fit e p -> fit e p'.
Proof.
  unfold fit, other_plate, msgDecode. intros <- <-. auto.
Qed.
Lemma is_connRead e s sl c r w : iok s -> sess s sl -> is_Some (st_conns s !! c) ->
  (forall frm p, r = Ok frm -> decodePacket (e_o e) frm = Ok p -> fit e p) -> IS any s (processConnRead e sl c r w).
Proof.
  intros Hs Hx Hc Hq. unfold processConnRead. eapply is_bind; [exact Hs|apply is_lift|]. nx t b g1 i1 h1.
  eapply is_bind; [exact i1|apply is_decodeP; exact i1|]. nx t2 p g2 i2 h2. destruct h2 as (p0 & E & Eh & Eb).
  assert (Hx2 : sess t2 sl) by (eapply steady_sess; [exact Hx|]; eauto using rely_trans).
  bd (@any (option msg)); [apply is_process; [exact i2|exact Hx2|exact (fit_same e _ _ Eh Eb (Hq _ _ h1 E))]|]. nx t3 o g3 i3 h3.
  apply is_write'; [exact i3|].
  exact (gr_conn _ _ (proj1 g3) _ (gr_conn _ _ (proj1 g2) _ (gr_conn _ _ (proj1 g1) _ Hc))).
Qed.
Lemma is_serveOne e s sl r w : iok s -> sess s sl ->
  (forall frm p, r = Ok frm -> decodePacket (e_o e) frm = Ok p -> fit e p) -> IS any s (serveOne e sl r w).
Proof.
  intros Hs Hx Hq. unfold serveOne. eapply is_bind; [exact Hs|apply is_readSess; exact Hx|]. nx t x g1 i1 h1.
  eapply rsafe_bindR; [exact rely_refl|exact rely_trans|exact guar_rely| | |exact i1].
  - apply is_connRead; [exact i1| |exact h1|exact Hq]. eapply steady_sess; [exact Hx|exact g1].
  - intros u y _ _ _. destruct y; [apply is_any|apply is_any|apply is_panic].
Qed.
Definition clear_of (e : env) (ins : list (res bytes * wres)) : Prop :=
  forall frm w p, In (Ok frm, w) ins -> decodePacket (e_o e) frm = Ok p -> fit e p.
Lemma is_serve e sl ins : clear_of e ins -> forall s, iok s -> sess s sl -> IS any s (serveLoop e sl ins).
Proof.
  induction ins as [|[r w] t IH]; intros Hq s Hs Hx; cbn [serveLoop]; [apply is_any|].
  eapply rsafe_bindR; [exact rely_refl|exact rely_trans|exact guar_rely|apply is_serveOne; [assumption..|]| |exact Hs].
  { intros frm p -> E. eapply Hq; [left; reflexivity|exact E]. }
  intros u y Hg Hi _. assert (Hx' : sess u sl) by (eapply steady_sess; eassumption).
  assert (Hend : IS any u (remove sl ;;; ret true)%prog).
  { bd (@any unit); [apply is_remove; assumption|]. nx t2 u2 g2 i2 h2. apply is_any. }
  destruct y as [[]|er|]; [|exact Hend..]. apply IH; [|assumption..]. intros frm w' p H. eapply Hq. right. exact H.
Qed.
Lemma is_conn e s c addr ins : clear_of e ins -> iok s -> IS any s (opened c ;;; connThread e c addr ins ;;; ret tt)%prog.
Proof.
  intros Hq Hs. unfold opened. eapply (is_bind (fun t _ => is_Some (st_conns t !! c))); [exact Hs| |].
  { apply is_act.
    - intros t _ (Ht & Hw). apply iok_rest; [split; assumption|..]; try reflexivity.
      + destruct Ht as [P Q Ge Ri Pa By Co]. constructor; cbn; eauto.
        intros l x H. apply lookup_insert_is_Some'. right. eapply Co. exact H.
      + constructor; cbn; eauto. intros c' H. apply lookup_insert_is_Some'. right. exact H.
    - intros t _ _ _ _. apply is_ret; [intros a b x H (G & _); apply (gr_conn _ _ G); exact H|]. cbn. rewrite lookup_insert. eauto. }
  nx t u g1 i1 h1. bd (@any bool); [|nx t2 b g2 i2 h2; apply is_any].
  unfold connThread. eapply (is_bind sess); [exact i1| |nx t2 sl g2 i2 h2; apply is_serve; assumption].
  unfold accept. bd (@any unit); [apply is_lock|]. nx t0 u0 g0 i0 h0. apply (gr_conn _ _ (proj1 g0)) in h1. clear g1 i1. rename g0 into g1, i0 into i1.
  assert (F : forall t, st_sess t !! fresh (dom (st_sess t)) = None) by (intros v; apply not_elem_of_dom, is_fresh).
  eapply (is_bind (fun t l => exists x, st_sess t !! l = Some x /\ ss_id x = addr)); [exact i1| |].
  { apply is_act.
    - intros v g (Hv & Hw). apply iok_rest; [split; assumption|..]; try reflexivity.
      + destruct Hv as [P Q Ge Ri Pa By Co]. constructor; cbn; eauto.
        * intros i l H. destruct (By i l H) as (x & Hx & Hi). exists x. rewrite lookup_insert_ne; [auto|].
          intros <-. rewrite F in Hx. discriminate.
        * intros l x. destruct (decide (fresh (dom (st_sess v)) = l)) as [<-|Hn].
          -- rewrite lookup_insert. intros [= <-]. cbn. exact (gr_conn _ _ (proj1 g) c h1).
          -- rewrite lookup_insert_ne by exact Hn. apply Co.
      + constructor; cbn; eauto. intros l x Hx. exists x. rewrite lookup_insert_ne; [auto|]. intros <-. rewrite F in Hx. discriminate.
    - intros v _ _ _ _. apply is_ret.
      + intros a b l (x & Hx & Hi) (G & _). destruct (gr_sess _ _ G l x Hx) as (x' & Hx' & E1 & E2). exists x'. split; congruence.
      + eexists. cbn. rewrite lookup_insert. split; reflexivity. }
  nx t2 l g2 i2 h2. bd (@any unit).
  { apply is_write. intros v g (Hv & Hw). destruct h2 as (x & Hx & Hi).
    destruct (gr_sess _ _ (proj1 g) l x Hx) as (x' & Hx' & E1 & E2). apply iok_rest; [split; assumption|..]; try reflexivity.
    - destruct Hv as [P Q Ge Ri Pa By Co]. constructor; cbn; eauto.
      intros i l'. destruct (decide (addr = i)) as [<-|Hn].
      + rewrite lookup_insert. intros [= <-]. exists x'. split; congruence.
      + rewrite lookup_insert_ne by exact Hn. apply By.
    - constructor; cbn; eauto. }
  nx t3 u3 g3 i3 h3. bd (@any unit); [apply is_unlock|]. nx t4 u4 g4 i4 h4.
  apply is_ret; [exact steady_sess|]. destruct h2 as (x & Hx & _).
  apply (steady_sess t3 t4 l); [|exact g4].
  apply (steady_sess t2 t3 l); [exists x; exact Hx|exact g3].
Qed.
Lemma is_turnOffline s l : iok s -> IS any s (shouldTurnOffline l).
Proof.
  intros Hs. unfold shouldTurnOffline. bd (@any Z); [apply is_getNow|]. nx t2 now g2 i2 h2.
  bd (@any device); [apply is_readDev|]. nx t3 dv g3 i3 h3. destruct (d_status dv =? Offline); [apply is_any|].
  bd (@any device); [apply is_readDev|]. nx t4 dv4 g4 i4 h4. apply is_any.
Qed.
Lemma is_clears s l : iok s -> IS any s (shouldClear l).
Proof.
  intros Hs. unfold shouldClear. bd (@any Z); [apply is_getNow|]. nx t2 now g2 i2 h2.
  bd (@any device); [apply is_readDev|]. nx t3 dv g3 i3 h3. destruct (d_status dv =? Offline); [|apply is_any].
  bd (@any device); [apply is_readDev|]. nx t4 dv4 g4 i4 h4. apply is_any.
Qed.
Lemma is_tick s ph : ph <> q -> iok s -> IS any s (checkKeepalive ph).
Proof.
  intros Hq Hs. unfold checkKeepalive. bd (opt odev); [apply is_byPhone; exact Hq|]. nx t d g1 i1 h1. destruct d as [l|].
  2:{ bd (@any unit); [apply is_timerCancel; exact Hq|]. nx t2 u2 g2 i2 h2. apply is_panic. }
  bd (@any bool); [apply is_turnOffline; assumption|]. nx t3 b g3 i3 h3. pose proof (steady_odev _ _ _ h1 g3) as D3. destruct b.
  { bd (@any unit); [apply is_writeDev; [exact D3|reflexivity]|]. nx t4 u4 g4 i4 h4. apply is_cacheDevice. exact (steady_odev _ _ _ D3 g4). }
  bd (@any bool); [apply is_clears; assumption|]. nx t4 b4 g4 i4 h4. destruct b4; [|apply is_any].
  bd (@any device); [apply is_readConst'|]. nx t5 dv5 g5 i5 h5.
  bd (@any unit); [apply is_connClose|]. nx t6 u6 g6 i6 h6.
  bd (@any unit); [apply is_delDevice; exact Hq|]. nx t7 u7 g7 i7 h7.
  bd (@any unit); [apply is_delGeo; exact Hq|]. nx t8 u8 g8 i8 h8. apply is_timerCancel. exact Hq.
Qed.
Lemma is_geo s ph : ph <> q -> iok s -> IS any s (apiGeo ph).
Proof.
  intros Hq Hs. unfold apiGeo. bd (opt vdev); [apply is_byPhone'|]. nx t d g1 i1 h1. destruct d as [l|]; [|apply is_any].
  bd (@any device); [apply is_readDev|]. nx t2 dv g2 i2 h2.
  bd (@any (option devgeo)).
  { unfold getGeoLatestByPhone. bd oring; [apply is_getRing; exact Hq|]. nx t3 rl g3 i3 h3. apply is_latest. exact h3. }
  nx t3 o g3 i3 h3. destruct o; apply is_any.
Qed.
Lemma is_serverSend e s i m w : iok s -> IS any s (serverSend e i m w).
Proof.
  intros Hs. unfold serverSend. bd (opt sess); [apply is_getSession|]. nx t x g1 i1 h1. destruct x as [sl|]; [|apply is_any].
  eapply is_bind; [exact i1|apply is_readSess; exact h1|]. nx t2 x g2 i2 h2.
  eapply rsafe_bindR; [exact rely_refl|exact rely_trans|exact guar_rely|apply is_write'; [exact i2|exact h2]| |exact i2].
  intros u y Hg Hi _. assert (Hx : sess u sl) by (eapply steady_sess; [|exact Hg]; eapply steady_sess; [exact h1|exact g2]).
  destruct y as [v|[]|]; try apply is_any; try (apply is_remove; assumption). apply is_panic.
Qed.
Lemma is_apiSession s dv : iok s -> IS (fun t y => sess t (fst y)) s (apiSession dv).
Proof.
  intros Hs. unfold apiSession. bd (opt sess); [apply is_getSession|]. nx t x g1 i1 h1. destruct x as [sl|]; [|apply is_panic].
  bd (@any N); [apply is_nextSerial|]. nx t2 sn g2 i2 h2. apply is_ret.
  - intros a b y H Hg. eapply steady_sess; eassumption.
  - cbn. eapply steady_sess; eassumption.
Qed.
Lemma is_get e s ph w : iok s -> IS any s (apiGetParams e ph w).
Proof.
  intros Hs. unfold apiGetParams. bd (opt vdev); [apply is_byPhone'|]. nx t d g1 i1 h1. destruct d as [l|]; [|apply is_any].
  bd (@any device); [apply is_readConst'|]. nx t2 dv g2 i2 h2.
  eapply is_bind; [exact i2|apply is_apiSession; exact i2|]. nx t3 y g3 i3 h3.
  eapply is_bind; [exact i3|apply is_readSess; exact h3|]. nx t4 x g4 i4 h4.
  bd (@any unit); [apply is_serverSend; exact i4|]. nx t5 u5 g5 i5 h5. apply is_any.
Qed.
Lemma is_put e s ph bad ps w : iok s -> IS any s (apiPutParams e ph bad ps w).
Proof.
  intros Hs. unfold apiPutParams. bd (opt vdev); [apply is_byPhone'|]. nx t d g1 i1 h1. destruct d as [l|]; [|apply is_any].
  bd (@any device); [apply is_readConst'|]. nx t2 dv g2 i2 h2.
  eapply is_bind; [exact i2|apply is_apiSession; exact i2|]. nx t3 y g3 i3 h3.
  eapply is_bind; [exact i3|apply is_readSess; exact h3|]. nx t4 x g4 i4 h4.
  bd (@any unit); [apply is_serverSend; exact i4|]. nx t5 u5 g5 i5 h5. apply is_any.
Qed.
Lemma is_code e s g : iok s -> placed s g -> avoids e q g -> (forall w, pv = Some w -> avoids_plate e w g) -> (fixed = true -> forall t, g <> GClock t) -> IS any s (code e g).
Proof.
  intros Hs Hp Hq Hv Hc. destruct g as [c addr ins|sl ins|sl p|ph| |ph|ph w|ph bad ps w|now|]; cbn [code placed avoids avoids_plate] in *.
  - apply is_conn; [|exact Hs]. intros frm w p Hin E. split; [exact (Hq _ _ _ Hin E)|]. intros x Ex. exact (Hv x Ex _ _ _ Hin E).
  - bd (@any bool); [apply is_serve; [|assumption..]|intros; apply is_any].
    intros frm w p Hin E. split; [exact (Hq _ _ _ Hin E)|]. intros x Ex. exact (Hv x Ex _ _ _ Hin E).
  - bd (@any (option msg)); [apply is_process; [assumption..|split; assumption]|]. intros. apply is_any.
  - apply is_tick; assumption.
  - bd (@any (list nat)); [apply is_read; [apply steady_any|]; intros; exact Logic.I|]. intros. apply is_any.
  - bd (@any (list N * option devgeo)); [apply is_geo; assumption|]. intros. apply is_any.
  - bd (@any (list N)); [apply is_get; exact Hs|]. intros. apply is_any.
  - bd (@any (list N)); [apply is_put; exact Hs|]. intros. apply is_any.
  - apply is_write. intros t _ (Ht & Hw). apply iok_rest; [split; assumption|..]; try reflexivity.
    + destruct Ht as [P Q Ge Ri Pa By Co]. constructor; cbn; eauto.
    + constructor; cbn; eauto.
    + intros F. destruct (Hc F now). reflexivity.
  - bd (@any nat); [apply is_read; [apply steady_any|]; intros; exact Logic.I|]. intros. apply is_any.
Qed.

(** ** All schedules *)
Lemma rsafe_pstep {A} (Q : st -> res A -> Prop) ps s i : iok s -> (forall j p, nth_error ps j = Some p -> rsafe iok rely guar Q s p) ->
  iok (snd (pstep ps s i)) /\ guar s (snd (pstep ps s i))
  /\ forall j p, nth_error (fst (pstep ps s i)) j = Some p -> rsafe iok rely guar Q (snd (pstep ps s i)) p.
Proof.
  intros Hi Hs. unfold pstep. assert (H0 : iok s /\ guar s s /\ forall j p, nth_error ps j = Some p -> rsafe iok rely guar Q s p)
    by (split; [exact Hi|split; [apply guar_refl|exact Hs]]).
  destruct (nth_error ps i) as [[r|a f k]|] eqn:E; cbn; [exact H0| |exact H0].
  pose proof (Hs i _ E) as H. inversion H as [|? ? ? ? Hk Hk']; subst. destruct (Hk s Hi (rely_refl s)) as (H1 & H2).
  pose proof (Hk' s Hi (rely_refl s)) as H3.
  split; [exact H1|]. split; [exact H2|]. intros j p Hj. rewrite (nth_error_upd ps i j (k s) _ E) in Hj.
  destruct (Nat.eqb i j); [congruence|]. eapply rsafe_mono; [exact rely_trans|eapply Hs; eassumption|apply guar_rely; exact H2].
Qed.
Lemma rsafe_psteps {A} (Q : st -> res A -> Prop) sch : forall ps s, iok s -> (forall j p, nth_error ps j = Some p -> rsafe iok rely guar Q s p) ->
  iok (snd (psteps ps s sch)) /\ guar s (snd (psteps ps s sch)).
Proof.
  induction sch as [|i t IH]; intros ps s Hi Hs; cbn; [split; [exact Hi|apply guar_refl]|].
  destruct (rsafe_pstep Q ps s i Hi Hs) as (H1 & H2 & H3).
  destruct (pstep ps s i) as [ps' s'] eqn:E. cbn in *.
  destruct (IH ps' s' H1 H3) as (G1 & G2). split; [exact G1|]. eapply guar_trans; eassumption.
Qed.
End Iso.

Lemma iok_none q s : sane s -> own_rings s -> iok q None s.
Proof. intros Hs Ho. split; [exact Hs|]. split; [exact Ho|]. intros w [=]. Qed.
(** no schedule of goroutines acting for other phones touches what is stored under [q] *)
Lemma others_keep e q gs s sch : sane s -> own_rings s -> Forall (placed s) gs -> Forall (avoids e q) gs ->
  untouched q s (snd (running e gs s sch)).
Proof.
  intros Hs Ho Hp Ha. apply (same_untouched q None false); [exact Hs|].
  apply (rsafe_psteps q None false (rpost any) sch (List.map (code e) gs) s); [apply iok_none; assumption|].
  intros j p Hj. rewrite nth_error_map in Hj. destruct (nth_error gs j) as [g|] eqn:E; [|discriminate]. injection Hj as <-.
  apply nth_error_In in E. rewrite List.Forall_forall in Hp, Ha. apply is_code; [apply iok_none; assumption|auto..|intros w [=]|auto].
Qed.

(** the phones a goroutine acts for, beside those of the parameter requests *)
Definition acts_for (e : env) (g : goroutine) : list str :=
  let of_frames (ins : list (res bytes * wres)) :=
    List.flat_map (fun x => match fst x with
                            | Ok frm => match decodePacket (e_o e) frm with Ok p => [h_phone (pk_hdr p)] | _ => [] end
                            | _ => [] end) ins in
  match g with
  | GConn _ _ ins | GServe _ ins => of_frames ins
  | GMsg _ p => [h_phone (pk_hdr p)]
  | GTick ph | GGeo ph => [ph]
  | _ => []
  end.
Lemma avoids_spec e q g : ~ In q (acts_for e g) -> avoids e q g.
Proof.
  assert (F : forall ins, ~ In q (acts_for e (GServe 0 ins)) -> avoids e q (GServe 0 ins)).
  { intros ins H frm w p Hin E <-. apply H. cbn. apply in_flat_map. exists (Ok frm, w). split; [exact Hin|]. cbn. rewrite E. left. reflexivity. }
  destruct g as [? ? ins|? ins|? p|ph| |ph|? ?|? ? ? ?|?|]; cbn [avoids]; try exact (fun _ => Logic.I); try apply (F ins);
    intros H E; apply H; left; exact E.
Qed.
(** in every schedule a location buffer belongs to one phone *)
Lemma buffers_apart e gs s sch : sane s -> own_rings s -> Forall (placed s) gs -> own_rings (snd (running e gs s sch)).
Proof.
  intros Hs Ho Hp. set (q := fresh (List.flat_map (acts_for e) gs) : str).
  assert (Hq : forall g, In g gs -> avoids e q g).
  { intros g Hg. apply avoids_spec. intros Hin. apply (infinite_is_fresh (List.flat_map (acts_for e) gs)). apply elem_of_list_In, in_flat_map.
    exists g. split; assumption. }
  destruct (rsafe_psteps q None false (rpost any) sch (List.map (code e) gs) s) as ((_ & H & _) & _); [apply iok_none; assumption| |exact H].
  intros j p Hj. rewrite nth_error_map in Hj. destruct (nth_error gs j) as [g|] eqn:E; [|discriminate]. injection Hj as <-.
  apply nth_error_In in E. rewrite List.Forall_forall in Hp. apply is_code; [apply iok_none; assumption|auto..|intros w [=]|auto]. 
Qed.
Lemma history_apart e now evs : own_rings (w_st (history e now evs)).
Proof. exact (cs_geo_inj _ (wo_ok _ (history_ok e now evs))). Qed.
