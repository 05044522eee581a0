(** Goroutines that act for different phones, under every schedule: whose device records and location buffers
    each of them touches *)
From stdpp Require Import gmap.
From Verif Require Import Base HexM TimeM HeaderM ParamsM GeoM MsgM PacketM FrameM ProgM ProgP RingM SpecRing RingP
  StateM ProcM ServerM ClientM DatagenM SimConcM ConcM SpecCodec SpecState SpecConc SpecOwn StateP ProcP ServerP EffectP RaceP ConcP.
Local Open Scope N_scope.

(** ** Which phone a location buffer was made for *)
Notation gh := (nat -> str -> Prop).
Record wi (s : st) (o : gh) : Prop := {
  wi_sane : sane s;
  wi_fun : forall l p p', o l p -> o l p' -> p = p';
  wi_geo : forall p l, st_geo s !! p = Some l -> o l p;
  wi_ring : forall l p, o l p -> is_Some (st_rings s !! l)
}.
Definition sub (o u : gh) : Prop := forall l p, o l p -> u l p.
Definition more (s : st) (o : gh) : gh := fun l p => o l p \/ st_geo s !! p = Some l.
Lemma sub_refl o : sub o o.  Proof. intros l p H. exact H. Qed.
Lemma sub_trans a b c : sub a b -> sub b c -> sub a c.  Proof. intros H1 H2 l p H. apply H2, H1, H. Qed.
Lemma sub_more s o : sub o (more s o).  Proof. intros l p H. left. exact H. Qed.

Section Own.
Context (Q : str -> Prop).
(** the access is to a record or a buffer of one of the phones [Q] *)
Definition owns (s : st) (o : gh) (x : access) : Prop :=
  match ac_cell x with
  | CDev l => exists d, st_devs s !! l = Some d /\ Q (d_phone d)
  | CRingSlots l | CRingReader l | CRingWriter l => exists p, Q p /\ o l p
  | _ => True
  end.
Inductive W {A} (P : st -> gh -> A -> Prop) : st -> gh -> sp A -> Prop :=
| W_ret s o r : (forall a, r = Ok a -> forall t u, grows s t -> sub o u -> P t u a) -> W P s o (Ret r)
| W_act s o a f k :
    (forall t u, wi t u -> grows s t -> sub o u -> Forall (owns t u) a /\ wi (f t) (more (f t) u) /\ grows t (f t)) ->
    (forall t u, wi t u -> grows s t -> sub o u -> W P (f t) (more (f t) u) (k t)) -> W P s o (Act a f k).
Definition anyW {A} : st -> gh -> A -> Prop := fun _ _ _ => True.
Lemma W_mono {A} P s o t u (p : sp A) : W P s o p -> grows s t -> sub o u -> W P t u p.
Proof.
  intros H G S. inversion H as [? ? ? H1|? ? ? ? ? H1 H2]; subst; constructor.
  - intros a E t' u' G' S'. apply (H1 a E); [eapply grows_trans|eapply sub_trans]; eassumption.
  - intros t' u' I' G' S'. apply H1; [exact I'|eapply grows_trans|eapply sub_trans]; eassumption.
  - intros t' u' I' G' S'. apply H2; [exact I'|eapply grows_trans|eapply sub_trans]; eassumption.
Qed.
Lemma W_bindR {A B} P (P' : st -> gh -> B -> Prop) s o (p : sp A) (g : res A -> sp B) : W P s o p -> wi s o ->
  (forall t u r, wi t u -> grows s t -> sub o u -> (forall a, r = Ok a -> P t u a) -> W P' t u (g r)) -> W P' s o (pbindR p g).
Proof.
  intros H. induction H as [s o r H|s o a f k H1 H2 IH]; intros Hi Hg; cbn.
  - apply Hg; [exact Hi|apply grows_refl|apply sub_refl|]. intros a E. apply (H a E); [apply grows_refl|apply sub_refl].
  - constructor; [exact H1|]. intros t u I G S. destruct (H1 t u I G S) as (_ & Hi' & G'). apply (IH t u I G S Hi').
    intros t' u' r I'' G'' S'' HP. apply Hg; [exact I''| | |exact HP].
    + eapply grows_trans; [exact G|]. eapply grows_trans; eassumption.
    + eapply sub_trans; [exact S|]. eapply sub_trans; [apply sub_more|exact S''].
Qed.
Lemma W_bind {A B} P (P' : st -> gh -> B -> Prop) s o (p : sp A) (g : A -> sp B) : wi s o -> W P s o p ->
  (forall t u a, wi t u -> grows s t -> sub o u -> P t u a -> W P' t u (g a)) -> W P' s o (pbind p g).
Proof.
  intros Hi H Hg. unfold pbind. eapply W_bindR; [exact H|exact Hi|]. intros t u [a|er|] I G S HP.
  - apply Hg; auto.
  - constructor. discriminate.
  - constructor. discriminate.
Qed.
Lemma W_any {A} s o (r : res A) : W anyW s o (Ret r).
Proof. constructor. intros. exact Logic.I. Qed.
Lemma W_weak {A} P s o (p : sp A) : W P s o p -> W anyW s o p.
Proof. induction 1; constructor; auto. intros. exact Logic.I. Qed.

(** ** Programs that make no location buffers *)
Fixpoint still {A} (p : sp A) : Prop :=
  match p with
  | Ret _ => True
  | Act _ f k => (forall t q l, st_geo (f t) !! q = Some l -> st_geo t !! q = Some l) /\ forall s, still (k s)
  end.
Lemma wi_step t u (f : st -> st) : wi t u -> sane (f t) -> grows t (f t) ->
  (forall q l, st_geo (f t) !! q = Some l -> st_geo t !! q = Some l) -> wi (f t) (more (f t) u).
Proof.
  intros [H1 H2 H3 H4] Hs Hg Hq.
  assert (E : forall l p, more (f t) u l p -> u l p) by (intros l p [H|H]; [exact H|apply H3, Hq, H]).
  constructor; [exact Hs| | |].
  - intros l p p' K K'. eapply H2; apply E; eassumption.
  - intros p l H. left. apply H3, Hq, H.
  - intros l p K. apply (gr_ring _ _ Hg). eapply H4, E, K.
Qed.
(** the postcondition is kept if it speaks of the state only *)
Lemma W_of_safe {A} (P : st -> A -> Prop) s (p : sp A) : safe sane grows (post false P) s p -> stable P -> forall o, wi s o -> still p ->
  all_acc (fun x => forall t u, grows s t -> sub o u -> wi t u -> owns t u x) p -> W (fun t _ a => P t a) s o p.
Proof.
  intros H Hst. induction H as [s r H|s a f k H1 H2 IH]; intros o Hi Hs Ha.
  - constructor. intros a -> t u G S. apply (Hst s t a); [|exact G]. exact (H s (wi_sane _ _ Hi) (grows_refl s)).
  - destruct Hs as (Hs1 & Hs2), Ha as (Ha1 & Ha2). constructor.
    + intros t u I G S. destruct (H1 t (wi_sane _ _ I) G) as (S' & G'). split.
      * eapply List.Forall_impl; [|exact Ha1]. intros x K. apply K; assumption.
      * split; [|exact G']. apply wi_step; auto.
    + intros t u I G S. destruct (H1 t (wi_sane _ _ I) G) as (S' & G'). apply (IH t (wi_sane _ _ I) G).
      * apply wi_step; auto.
      * apply Hs2.
      * specialize (Ha2 t). clear - Ha2 G G' S. induction (k t) as [r|a' f' k' IH']; [exact Logic.I|].
        destruct Ha2 as (K1 & K2). split; [|intros s0; apply IH', K2].
        eapply List.Forall_impl; [|exact K1]. intros x K t' u' T U V. apply K; [| |exact V].
        -- eapply grows_trans; [exact G|]. eapply grows_trans; eassumption.
        -- eapply sub_trans; [exact S|]. eapply sub_trans; [apply sub_more|exact U].
Qed.
End Own.

Lemma still_bindR {A B} (p : sp A) (g : res A -> sp B) : still p -> (forall r, still (g r)) -> still (pbindR p g).
Proof. induction p as [r|a f k IH]; intros Hp Hg; cbn; [apply Hg|]. destruct Hp as (H1 & H2). split; auto. Qed.
Lemma still_bind {A B} (p : sp A) (g : A -> sp B) : still p -> (forall a, still (g a)) -> still (pbind p g).
Proof. intros Hp Hg. apply still_bindR; [exact Hp|]. intros [a|e|]; cbn; auto. Qed.
Lemma still_zoom {T A} (get : st -> T) (put : T -> st -> st) (p : prog T A) : (forall x s, st_geo (put x s) = st_geo s) -> still (zoom get put p).
Proof. intros H. induction p as [r|a f k IH]; cbn; [exact Logic.I|]. split; [|auto]. intros t q l. rewrite H. auto. Qed.
Ltac stl := repeat match goal with
  | |- still (pbind _ _) => apply still_bind; [|intros ?]
  | |- still (pbindR _ _) => apply still_bindR; [|intros ?]
  | |- still (Ret _) => exact Logic.I
  | |- still (ret _) => exact Logic.I
  | |- still (fail _) => exact Logic.I
  | |- still panic => exact Logic.I
  | |- still (lift _) => exact Logic.I
  | |- still (match ?x with _ => _ end) => destruct x
  | |- still (zoom _ _ _) => apply still_zoom; reflexivity
  | |- still (rd1 _ _) => split; [let K := fresh in intros ? ? ? K; exact K|intros ?; exact Logic.I]
  | |- still (wr1 _ _) => split; [let K := fresh in intros ? ? ? K; exact K|intros ?; exact Logic.I]
  | |- still (Act _ _ _) => split; [let K := fresh in intros ? ? ? K; exact K|intros ?]
  end.
(** accesses that are not to records or buffers *)
Definition elsewhere (x : access) : Prop :=
  match ac_cell x with CDev _ | CRingSlots _ | CRingReader _ | CRingWriter _ => False | _ => True end.
Lemma acc_impl {S A} (P P' : access -> Prop) (p : prog S A) : (forall x, P x -> P' x) -> all_acc P p -> all_acc P' p.
Proof.
  intros H. induction p as [r|a f k IH]; [auto|]. intros (H1 & H2). split; [|auto]. eapply List.Forall_impl; [exact H|exact H1].
Qed.
Lemma elsewhere_owns Q s o x : elsewhere x -> owns Q s o x.
Proof. unfold elsewhere, owns. destruct (ac_cell x); tauto. Qed.
Ltac els := repeat match goal with
  | |- all_acc _ (pbind _ _) => apply acc_bind; [|intros ?]
  | |- all_acc _ (pbindR _ _) => apply acc_bindR; [|intros ?]
  | |- all_acc _ (ret _) => exact Logic.I
  | |- all_acc _ (fail _) => exact Logic.I
  | |- all_acc _ panic => exact Logic.I
  | |- all_acc _ (lift _) => exact Logic.I
  | |- all_acc _ (Ret _) => exact Logic.I
  | |- all_acc _ (zoom _ _ _) => apply acc_zoom
  | |- all_acc _ (match ?x with _ => _ end) => destruct x
  | |- all_acc _ (rd1 _ _) => split; [|intros ?; exact Logic.I]
  | |- all_acc _ (wr1 _ _) => split; [|intros ?; exact Logic.I]
  | |- all_acc _ (Act _ _ _) => split; [|intros ?]
  | |- Forall _ [] => constructor
  | |- Forall _ (_ :: _) => constructor
  | |- elsewhere _ => exact Logic.I
  end.
Lemma W_away {A} Q (P : st -> A -> Prop) s o (p : sp A) : wi s o -> safe sane grows (post false P) s p -> stable P -> still p ->
  all_acc elsewhere p -> W Q (fun t _ a => P t a) s o p.
Proof.
  intros Hi H1 H2 H3 H4. apply W_of_safe; try assumption. eapply acc_impl; [|exact H4].
  intros x Hx t u _ _ _. apply elsewhere_owns, Hx.
Qed.

(** ** The pieces *)
Section Pieces.
Context (Q : str -> Prop).
Notation WQ := (W Q).
(** the record at [l] is one of the phone's *)
Definition mine (ph : str) (s : st) (_ : gh) (l : nat) : Prop := exists d, st_devs s !! l = Some d /\ d_phone d = ph.
Lemma mine_mono ph s o t u l : mine ph s o l -> grows s t -> mine ph t u l.
Proof. intros (d & H & E) G. destruct (gr_dev _ _ G l d H) as (d' & H' & E'). exists d'. split; [exact H'|]. congruence. Qed.
Lemma mine_dev ph s o l : mine ph s o l -> dev s l.
Proof. intros (d & H & _). exists d. exact H. Qed.
Lemma W_byPhone s o ph : wi s o -> WQ (fun t u x => forall l, x = Some l -> mine ph t u l) s o (getDeviceByPhone ph).
Proof.
  intros Hi. constructor.
  - intros t u I G S. split; [constructor; [exact Logic.I|constructor]|]. split; [|apply grows_refl].
    apply (wi_step _ _ (fun s => s)); [exact I|exact (wi_sane _ _ I)|apply grows_refl|auto].
  - intros t u I G S. constructor. intros x [= <-] t' u' G' S' l Hl.
    destruct (sn_phone t (wi_sane _ _ I) _ _ Hl) as (d & Hd & E). apply (mine_mono ph t u t' u'); [|exact G']. exists d. auto.
Qed.
Lemma owns_mine ph s l x : Q ph -> mine ph s (fun _ _ => False) l -> ac_cell x = CDev l -> forall t u, grows s t -> owns Q t u x.
Proof.
  intros Hq Hm E t u G. unfold owns. rewrite E. destruct (mine_mono _ _ _ t (fun _ _ => False) _ Hm G) as (d & Hd & Ep).
  exists d. subst ph. auto.
Qed.
Lemma W_readDev s o ph l : wi s o -> Q ph -> mine ph s o l -> WQ (fun _ _ d => d_phone d = ph) s o (readDev l).
Proof.
  intros Hi Hq Hm. constructor.
  - intros t u I G S. split; [constructor; [|constructor]; eapply owns_mine; [exact Hq|exact Hm|reflexivity|exact G]|].
    split; [|apply grows_refl]. apply (wi_step _ _ (fun s => s)); [exact I|exact (wi_sane _ _ I)|apply grows_refl|auto].
  - intros t u I G S. destruct (mine_mono _ _ _ t o _ Hm G) as (d & Hd & E). rewrite Hd. constructor. intros a [= <-] _ _ _ _. exact E.
Qed.
Lemma W_readConst s o ph l : wi s o -> mine ph s o l -> WQ (fun _ _ d => d_phone d = ph) s o (readConst l).
Proof.
  intros Hi Hm. constructor.
  - intros t u I G S. split; [constructor|].
    split; [|apply grows_refl]. apply (wi_step _ _ (fun s => s)); [exact I|exact (wi_sane _ _ I)|apply grows_refl|auto].
  - intros t u I G S. destruct (mine_mono _ _ _ t o _ Hm G) as (d & Hd & E). rewrite Hd. constructor. intros a [= <-] _ _ _ _. exact E.
Qed.
Lemma W_writeDev s o ph l f : (forall d, who (f d) = who d) -> wi s o -> Q ph -> mine ph s o l -> WQ anyW s o (writeDev l f).
Proof.
  intros Hf Hi Hq Hm. eapply W_weak. apply (W_of_safe Q any).
  - apply (sf_writeDev false). exact Hf.
  - exact stable_any.
  - exact Hi.
  - unfold writeDev. stl.
  - unfold writeDev. els. intros t u G S I. eapply owns_mine; [exact Hq|exact Hm|reflexivity|exact G].
Qed.
Lemma W_now s o : wi s o -> WQ anyW s o getNow.
Proof.
  intros Hi. eapply W_weak. apply (W_away Q any); [exact Hi|apply (sf_getNow false)|exact stable_any| |];
    unfold getNow; [stl|els].
Qed.
Lemma W_cache s o l : wi s o -> WQ anyW s o (cacheDevice l).
Proof.
  intros Hi. eapply W_weak. apply (W_away Q any); [exact Hi|apply (sf_cacheDevice false)|exact stable_any| |];
    unfold cacheDevice; [|els].
  split; [|intros ?; exact Logic.I]. intros t q m. destruct (st_devs t !! l); auto.
Qed.
Lemma W_delDevice s o ph : wi s o -> WQ anyW s o (delDeviceByPhone ph).
Proof.
  intros Hi. eapply W_weak. apply (W_away Q any); [exact Hi|apply (sf_delDevice false)|exact stable_any| |];
    unfold delDeviceByPhone; [|els].
  split; [|intros ?; exact Logic.I]. intros t q m. destruct (st_byPhone t !! ph) as [l|]; [destruct (st_devs t !! l)|]; auto.
Qed.
Lemma W_cancel s o ph : wi s o -> WQ anyW s o (timerCancel ph).
Proof.
  intros Hi. eapply W_weak. apply (W_away Q any); [exact Hi|apply (sf_jobs false)|exact stable_any| |];
    unfold timerCancel; [stl|els].
Qed.
Lemma W_close s o c : wi s o -> WQ anyW s o (connClose c).
Proof.
  intros Hi. eapply W_weak. apply (W_away Q any); [exact Hi|apply (sf_connClose false)|exact stable_any| |];
    unfold connClose; [stl|els].
Qed.
Lemma W_delGeo s o ph : wi s o -> WQ anyW s o (delGeoByPhone ph).
Proof.
  intros Hi. eapply W_weak. apply (W_away Q any); [exact Hi|apply (sf_delGeo false)|exact stable_any| |];
    unfold delGeoByPhone; [|els].
  split; [|intros ?; exact Logic.I]. intros t q l H. cbn in H. apply lookup_delete_Some in H. apply H.
Qed.
(** the location buffer [l] was made for the phone, and is there *)
Definition its (ph : str) (s : st) (o : gh) (l : nat) : Prop := o l ph /\ is_Some (st_rings s !! l).
Lemma W_getRing s o ph : wi s o -> WQ (its ph) s o (getGeoRingByPhone ph).
Proof.
  intros Hi. assert (F : forall t, st_rings t !! fresh (dom (st_rings t)) = None) by (intros t; apply not_elem_of_dom, is_fresh).
  pose proof (sf_getRing false s ph) as H. inversion H as [|? ? ? ? H1 H2]; subst. constructor.
  - intros t u I G S. split; [constructor; [exact Logic.I|constructor]|]. destruct (H1 t (wi_sane _ _ I) G) as (S' & G').
    split; [|exact G']. destruct (st_geo t !! ph) as [l|] eqn:E.
    { apply (wi_step _ _ (fun s => s)); auto. }
    destruct I as [I1 I2 I3 I4]. constructor; [exact S'| | |].
    + assert (K : forall l p, u l p -> l <> fresh (dom (st_rings t))).
      { intros l p K ->. destruct (I4 _ _ K) as (r & Hr). rewrite F in Hr. discriminate. }
      assert (M : forall l p, more (set_geo <[ph:=fresh (dom (st_rings t))]> (set_rings <[fresh (dom (st_rings t)):=newRing ringCapacity]> t)) u l p ->
                  u l p \/ (l = fresh (dom (st_rings t)) /\ p = ph)).
      { intros l p [M|M]; [left; exact M|]. cbn in M. apply lookup_insert_Some in M as [(<- & <-)|(_ & M)]; [right; auto|left; apply I3, M]. }
      intros l p p' K1 K2. apply M in K1 as [K1|(K1 & K1')]; apply M in K2 as [K2|(K2 & K2')].
      * eapply I2; eassumption.
      * destruct (K _ _ K1 K2).
      * destruct (K _ _ K2 K1).
      * congruence.
    + intros p l K. right. exact K.
    + intros l p [K|K].
      * apply (gr_ring _ _ G'). eapply I4, K.
      * exact (sn_geo _ S' _ _ K).
  - intros t u I G S. pose proof (H2 t (wi_sane _ _ I) G) as H3. destruct (H1 t (wi_sane _ _ I) G) as (S' & G').
    inversion H3 as [? ? H4|]; subst.
    constructor. intros l [= <-] t' u' T U. split.
    + apply U. right. destruct (st_geo t !! ph) as [l|] eqn:E; [exact E|]. cbn. apply lookup_insert.
    + apply (gr_ring _ _ T). exact (H4 _ S' (grows_refl _)).
Qed.
Definition ofRing (l : nat) (x : access) : Prop :=
  match ac_cell x with CRingSlots m | CRingReader m | CRingWriter m => m = l | CDev _ => False | _ => True end.
Lemma W_onRing {A} s o ph l (p : prog (ring devgeo) A) : wi s o -> Q ph -> its ph s o l ->
  safe sane grows (post false any) s (onRing l p) -> all_acc (ofRing l) p -> WQ anyW s o (onRing l p).
Proof.
  intros Hi Hq (Ho & _) Hs Ha. eapply W_weak. apply (W_of_safe Q any); [exact Hs|exact stable_any|exact Hi|unfold onRing; stl|].
  unfold onRing. apply acc_zoom. eapply acc_impl; [|exact Ha]. intros x Hx t u G S I. unfold ofRing in Hx. unfold owns.
  destruct (ac_cell x); try contradiction; try exact Logic.I; subst; exists ph; auto.
Qed.
End Pieces.

(** ** Handlers *)
Ltac wb P := eapply (W_bind _ P); [assumption|..].
Tactic Notation "wn" ident(t) ident(o) ident(a) ident(i) ident(g) ident(h) := intros t o a i g ? h.
Section Handlers.
Context (Q : str -> Prop).
Notation WQ := (W Q).
Ltac mm := eapply mine_mono; [eassumption|]; eauto using grows_trans.
Lemma W_0002 s o inc out : wi s o -> Q (h_phone (m_hdr inc)) -> WQ anyW s o (process0002 inc out).
Proof.
  intros Hi Hq. unfold process0002. eapply W_bind; [exact Hi|apply W_byPhone; exact Hi|]. wn t1 o1 x i1 g1 h1.
  destruct x as [l|]; [|apply W_any]. specialize (h1 l eq_refl).
  wb (@anyW Z); [apply W_now; exact i1|]. wn t2 o2 now i2 g2 h2.
  wb (@anyW unit); [eapply W_writeDev; [reflexivity|exact i2|exact Hq|mm]|]. wn t3 o3 u3 i3 g3 h3.
  wb (@anyW unit); [apply W_cache; exact i3|]. intros. apply W_any.
Qed.
Lemma W_0102 s o inc code imei sw out : wi s o -> Q (h_phone (m_hdr inc)) -> WQ anyW s o (process0102 inc code imei sw out).
Proof.
  intros Hi Hq. unfold process0102. eapply W_bind; [exact Hi|apply W_byPhone; exact Hi|]. wn t1 o1 x i1 g1 h1.
  destruct x as [l|]; [|apply W_any]. specialize (h1 l eq_refl).
  eapply W_bind; [exact i1|eapply W_readConst; [exact i1|exact h1]|]. wn t2 o2 dv i2 g2 h2. destruct (bool_decide _).
  - wb (@anyW unit); [eapply W_writeDev; [reflexivity|exact i2|exact Hq|mm]|]. wn t3 o3 u3 i3 g3 h3.
    wb (@anyW Z); [apply W_now; exact i3|]. wn t4 o4 now i4 g4 h4.
    wb (@anyW unit); [eapply W_writeDev; [reflexivity|exact i4|exact Hq|mm]|]. wn t5 o5 u5 i5 g5 h5.
    wb (@anyW unit); [eapply W_writeDev; [reflexivity|exact i5|exact Hq|mm]|]. wn t6 o6 u6 i6 g6 h6.
    wb (@anyW unit); [apply W_cache; exact i6|]. intros. apply W_any.
  - wb (@anyW unit); [apply W_cancel; exact i2|]. wn t3 o3 u3 i3 g3 h3.
    wb (@anyW unit); [apply W_delDevice; exact i3|]. intros. apply W_any.
Qed.
Lemma W_0200 e s o inc m out : wi s o -> Q (h_phone (m_hdr inc)) -> WQ anyW s o (process0200 e inc m out).
Proof.
  intros Hi Hq. unfold process0200. eapply W_bind; [exact Hi|apply W_byPhone; exact Hi|]. wn t1 o1 x i1 g1 h1.
  destruct x as [l|]; [|apply W_any]. specialize (h1 l eq_refl).
  eapply W_bind; [exact i1|eapply W_readConst; [exact i1|exact h1]|]. wn t2 o2 dv i2 g2 h2.
  wb (@anyW Z); [apply W_now; exact i2|]. wn t3 o3 now i3 g3 h3. cbv zeta. rewrite h2.
  wb (@anyW unit).
  - destruct (_ =? _); [|apply W_any].
    wb (@anyW unit); [eapply W_writeDev; [reflexivity|exact i3|exact Hq|mm]|]. wn t4 o4 u4 i4 g4 h4.
    wb (@anyW Z); [apply W_now; exact i4|]. wn t5 o5 now' i5 g5 h5.
    wb (@anyW unit); [eapply W_writeDev; [reflexivity|exact i5|exact Hq|mm]|]. wn t6 o6 u6 i6 g6 h6. apply W_cache. exact i6.
  - wn t4 o4 u4 i4 g4 h4. eapply W_bind; [exact i4|apply W_getRing; exact i4|]. wn t5 o5 rl i5 g5 h5.
    wb (@anyW unit); [|intros; apply W_any]. eapply W_onRing; [exact i5|exact Hq|exact h5| |].
    + apply sf_ringWrite. exact (proj2 h5).
    + unfold ringWrite, loadWriter, setSlot, storeWriter. els; first [reflexivity|exact Logic.I].
Qed.
Lemma W_8001 s o inc r : wi s o -> Q (h_phone (m_hdr inc)) -> WQ anyW s o (process8001 inc r).
Proof.
  intros Hi Hq. unfold process8001. destruct (r =? 0); [|apply W_any].
  eapply W_bind; [exact Hi|apply W_byPhone; exact Hi|]. wn t1 o1 x i1 g1 h1.
  destruct x as [l|]; [|apply W_any]. specialize (h1 l eq_refl).
  eapply W_bind; [exact i1|eapply W_readDev; [exact i1|exact Hq|exact h1]|]. wn t2 o2 dv i2 g2 h2. destruct (_ =? _); [|apply W_any].
  wb (@anyW unit); [eapply W_writeDev; [reflexivity|exact i2|exact Hq|mm]|]. wn t3 o3 u3 i3 g3 h3.
  wb (@anyW Z); [apply W_now; exact i3|]. wn t4 o4 now i4 g4 h4.
  wb (@anyW unit); [eapply W_writeDev; [reflexivity|exact i4|exact Hq|mm]|]. wn t5 o5 u5 i5 g5 h5. apply W_cache. exact i5.
Qed.
Lemma W_8100 s o inc out : wi s o -> Q (h_phone (m_hdr inc)) -> WQ anyW s o (process8100 inc out).
Proof.
  intros Hi Hq. unfold process8100. eapply W_bind; [exact Hi|apply W_byPhone; exact Hi|]. wn t1 o1 x i1 g1 h1.
  destruct x as [l|]; [|apply W_any]. specialize (h1 l eq_refl).
  eapply W_bind; [exact i1|eapply W_readDev; [exact i1|exact Hq|exact h1]|]. intros. apply W_any.
Qed.
Ltac away := eapply W_weak; apply (W_away Q any);
  [eassumption| |exact stable_any|
   unfold process0003, process0100, process8103, process8104, process9205, processSegment, decodeP, cacheSegment, remove, lock, unlock, processConnWrite,
     connSend, connClose, clearSession, readSess, getSession, nextSerial, hasPlate, hasPhone, getDeviceByPlate, getDeviceByPhone, readConst,
     allocDev, timerRegister, getDeviceByPhone, timerCancel, timerAdd, getNow, getDeviceParamsByPhone, cacheDeviceParams, serverSend, apiSession, apiGetParams, apiPutParams,
     apiList, listDevice, countSession; stl
  |unfold process0003, process0100, process8103, process8104, process9205, processSegment, decodeP, cacheSegment, remove, lock, unlock, processConnWrite,
     connSend, connClose, clearSession, readSess, getSession, nextSerial, getNextSerialNum, hasPlate, hasPhone, getDeviceByPlate, getDeviceByPhone, readConst,
     allocDev, timerRegister, getDeviceByPhone, timerCancel, timerAdd, getNow, getDeviceParamsByPhone, cacheDeviceParams, serverSend, apiSession, apiGetParams, apiPutParams,
     apiList, listDevice, countSession, cacheDevice, delDeviceByPhone; els].
Lemma still_cache l : still (cacheDevice l).
Proof. split; [|intros ?; exact Logic.I]. intros t q m. destruct (st_devs t !! l); auto. Qed.
Lemma still_del ph : still (delDeviceByPhone ph).
Proof.
  split; [|intros ?; exact Logic.I]. intros t q m. destruct (st_byPhone t !! ph) as [l|]; [destruct (st_devs t !! l)|]; auto.
Qed.
Lemma W_process e s o sl p : wi s o -> sess s sl -> Q (h_phone (pk_hdr p)) -> WQ anyW s o (process e sl p).
Proof.
  intros Hi Hx Hq. unfold process. destruct (lookupN _ _) as [[ik ok]|] eqn:El; [|apply W_any].
  destruct (_ && _).
  { away. apply sf_segment. exact (wi_sane _ _ Hi). }
  wb (@anyW Z); [apply W_now; exact Hi|]. wn t1 o1 now i1 g1 h1.
  eapply (W_bind _ (fun _ _ inc => m_hdr inc = pk_hdr p)); [exact i1|..].
  { constructor. intros inc E _ _ _ _. unfold lift in E. exact (proj1 (msgDecode_ok _ _ _ _ _ E)). }
  wn t2 o2 inc i2 g2 h2. rewrite <- h2 in Hq. destruct ok as [k|].
  - wb (@anyW Z); [apply W_now; exact i2|]. wn t3 o3 now3 i3 g3 h3.
    wb (@anyW (option msg)); [apply W_any|]. wn t4 o4 y i4 g4 h4. destruct y as [out|]; [|apply W_any].
    assert (Hx4 : sess t4 sl) by (eapply stable_sess; [exact Hx|]; eauto using grows_trans).
    pose proof (wi_sane _ _ i4) as Hs4.
    wb (@anyW msg); [|intros; apply W_any]. destruct (m_body inc); try apply W_any.
    + apply W_0002; assumption.
    + away; first [apply sf_0003; exact Hs4|apply still_del|idtac].
    + away; first [apply sf_0100; assumption|apply still_cache|idtac].
    + apply W_0102; assumption.
    + apply W_0200; assumption.
    + apply W_8100; assumption.
    + away. apply sf_8103; [exact Hs4|intros K; discriminate K].
    + away. apply sf_8104; [exact Hs4|intros K; discriminate K].
  - destruct (m_body inc); try apply W_any. wb (@anyW unit); [apply W_8001; assumption|]. intros. apply W_any.
Qed.
Lemma W_decodeP e s o b : wi s o -> WQ (fun _ _ p => exists p0, decodePacket (e_o e) b = Ok p0 /\ h_phone (pk_hdr p) = h_phone (pk_hdr p0)) s o (decodeP e b).
Proof.
  intros Hi. unfold decodeP. eapply (W_bind _ (fun _ _ p => decodePacket (e_o e) b = Ok p)); [exact Hi|..].
  { constructor. intros p E _ _ _ _. exact E. }
  wn t1 o1 p i1 g1 h1. destruct (isFragmented _).
  2:{ constructor. intros a [= <-] _ _ _ _. exists p. auto. }
  destruct (h_frag _); [|constructor; discriminate].
  wb (@anyW bool).
  { away. apply sf_cacheSegment. }
  intros. constructor. intros a9 [= <-] _ _ _ _. exists p. auto.
Qed.
Lemma W_connRead e s o sl c r w : wi s o -> sess s sl -> is_Some (st_conns s !! c) ->
  (forall b p, r = Ok b -> decodePacket (e_o e) b = Ok p -> Q (h_phone (pk_hdr p))) -> WQ anyW s o (processConnRead e sl c r w).
Proof.
  intros Hi Hx Hc Hr. unfold processConnRead.
  eapply (W_bind _ (fun _ _ b => r = Ok b)); [exact Hi|constructor; intros a E _ _ _ _; exact E|]. wn t1 o1 b i1 g1 h1.
  eapply W_bind; [exact i1|apply W_decodeP; exact i1|]. wn t2 o2 p i2 g2 h2. destruct h2 as (p0 & E & Ep).
  wb (@anyW (option msg)); [apply W_process; [exact i2| |rewrite Ep; eapply Hr; eassumption]|].
  { eapply stable_sess; [exact Hx|]; eauto using grows_trans. }
  wn t3 o3 y i3 g3 h3. away. apply (sf_write' false); [exact (wi_sane _ _ i3)| |discriminate].
  exact (gr_conn _ _ g3 _ (gr_conn _ _ g2 _ (gr_conn _ _ g1 _ Hc))).
Qed.
Lemma W_readSess s o sl : wi s o -> sess s sl -> WQ (fun t _ x => is_Some (st_conns t !! ss_conn x)) s o (readSess sl).
Proof.
  intros Hi Hx. apply (W_away Q (fun t x => is_Some (st_conns t !! ss_conn x))); [exact Hi|apply (sf_readSess false); exact Hx| | |].
  - intros a b x H G. apply (gr_conn _ _ G). exact H.
  - unfold readSess. stl.
  - unfold readSess. els.
Qed.
Lemma W_serve e sl ins : forall s o, wi s o -> sess s sl ->
  (forall b w p, In (Ok b, w) ins -> decodePacket (e_o e) b = Ok p -> Q (h_phone (pk_hdr p))) -> WQ anyW s o (serveLoop e sl ins).
Proof.
  induction ins as [|[r w] t IH]; intros s o Hi Hx Hq; cbn [serveLoop]; [apply W_any|].
  eapply (W_bindR _ anyW); [|exact Hi|].
  - unfold serveOne. eapply W_bind; [exact Hi|apply W_readSess; assumption|]. wn t1 o1 x i1 g1 h1.
    eapply (W_bindR _ anyW); [|exact i1|intros ? ? [] ? ? ? ?; apply W_any].
    apply W_connRead; [exact i1|eapply stable_sess; eassumption|exact h1|]. intros b p -> E. apply (Hq b w p); [left; reflexivity|exact E].
  - intros t1 o1 q i1 g1 _ _. assert (Hx1 : sess t1 sl) by (eapply stable_sess; eassumption).
    assert (Hend : WQ anyW t1 o1 (remove sl ;;; ret true)%prog).
    { wb (@anyW unit); [|intros; apply W_any]. away. apply sf_remove; [exact (wi_sane _ _ i1)|exact Hx1]. }
    destruct q as [[]|er|]; [|exact Hend..]. apply IH; [exact i1|exact Hx1|]. intros b w' p Hin. apply (Hq b w' p). right. exact Hin.
Qed.
End Handlers.

(** ** Goroutines of the server *)
Section Goroutines.
Context (e : env) (Q : str -> Prop).
Notation WQ := (W Q).
Lemma W_geo s o ph : wi s o -> Q ph -> WQ anyW s o (apiGeo ph).
Proof.
  intros Hi Hq. unfold apiGeo. eapply W_bind; [exact Hi|apply W_byPhone; exact Hi|]. wn t1 o1 x i1 g1 h1.
  destruct x as [l|]; [|apply W_any]. specialize (h1 l eq_refl).
  eapply W_bind; [exact i1|eapply W_readDev; [exact i1|exact Hq|exact h1]|]. wn t2 o2 dv i2 g2 h2.
  wb (@anyW (option devgeo)); [|intros ? ? [] ? ? ? ?; apply W_any].
  unfold getGeoLatestByPhone. eapply W_bind; [exact i2|apply W_getRing; exact i2|]. wn t3 o3 rl i3 g3 h3.
  eapply W_onRing; [exact i3|exact Hq|exact h3|apply sf_latest; exact (proj2 h3)|].
  unfold ringLatest, loadWriter, getSlot. els; first [reflexivity|exact Logic.I].
Qed.
Lemma W_tick s o ph : wi s o -> Q ph -> WQ anyW s o (checkKeepalive ph).
Proof.
  intros Hi Hq. unfold checkKeepalive. eapply W_bind; [exact Hi|apply W_byPhone; exact Hi|]. wn t1 o1 x i1 g1 h1.
  destruct x as [l|].
  2:{ wb (@anyW unit); [apply W_cancel; exact i1|]. intros. apply W_any. }
  specialize (h1 l eq_refl). wb (@anyW bool).
  { unfold shouldTurnOffline. wb (@anyW Z); [apply W_now; exact i1|]. wn t2 o2 now i2 g2 h2.
    eapply W_bind; [exact i2|eapply W_readDev; [exact i2|exact Hq|eapply mine_mono; eassumption]|]. wn t3 o3 dv i3 g3 h3.
    destruct (_ =? _); [apply W_any|].
    eapply W_bind; [exact i3|eapply W_readDev; [exact i3|exact Hq|eapply mine_mono; [exact h1|eauto using grows_trans]]|]. intros. apply W_any. }
  wn t2 o2 b i2 g2 h2. assert (M2 : mine ph t2 o2 l) by (eapply mine_mono; eassumption). destruct b.
  { wb (@anyW unit); [eapply W_writeDev; [reflexivity|exact i2|exact Hq|exact M2]|]. wn t3 o3 u3 i3 g3 h3. apply W_cache. exact i3. }
  wb (@anyW bool).
  { unfold shouldClear. wb (@anyW Z); [apply W_now; exact i2|]. wn t3 o3 now i3 g3 h3.
    eapply W_bind; [exact i3|eapply W_readDev; [exact i3|exact Hq|eapply mine_mono; eassumption]|]. wn t4 o4 dv i4 g4 h4.
    destruct (_ =? _); [|apply W_any].
    eapply W_bind; [exact i4|eapply W_readDev; [exact i4|exact Hq|eapply mine_mono; [exact M2|eauto using grows_trans]]|]. intros. apply W_any. }
  wn t3 o3 b i3 g3 h3. destruct b; [|apply W_any].
  eapply W_bind; [exact i3|eapply W_readConst; [exact i3|eapply mine_mono; eassumption]|]. wn t4 o4 dv i4 g4 h4.
  wb (@anyW unit); [apply W_close; exact i4|]. wn t5 o5 u5 i5 g5 h5.
  wb (@anyW unit); [apply W_delDevice; exact i5|]. wn t6 o6 u6 i6 g6 h6.
  wb (@anyW unit); [apply W_delGeo; exact i6|]. wn t7 o7 u7 i7 g7 h7. apply W_cancel. exact i7.
Qed.
Lemma acc_elsewhere {A} (p : sp A) s o (R : st -> A -> Prop) : wi s o -> safe sane grows (post false R) s p -> still p -> all_acc elsewhere p -> WQ anyW s o p.
Proof.
  intros Hi Hs H1 H2. eapply W_weak. apply (W_away Q any); [exact Hi| |exact stable_any|exact H1|exact H2].
  eapply sf_weak; [|exact Hs]. intros. exact Logic.I.
Qed.
Lemma still_send i m w : still (serverSend e i m w).
Proof. unfold serverSend, remove, getSession, readSess, processConnWrite, connSend, lock, unlock, connClose, clearSession. stl. Qed.
Lemma els_send i m w : all_acc elsewhere (serverSend e i m w).
Proof. unfold serverSend, remove, getSession, readSess, processConnWrite, connSend, lock, unlock, connClose, clearSession. els. Qed.
Lemma W_code s o g : wi s o -> placed s g -> (forall q, acts e g q -> Q q) -> WQ anyW s o (code e g).
Proof.
  intros Hi Hp Ha. pose proof (wi_sane _ _ Hi) as Hs.
  destruct g as [c addr ins|sl ins|sl p|ph| |ph|ph w|ph bad ps w|now|]; cbn [code placed acts] in *.
  - eapply (W_bind _ (fun t _ _ => is_Some (st_conns t !! c))); [exact Hi| |].
    { apply (W_away Q (fun t _ => is_Some (st_conns t !! c))); [exact Hi| | |unfold opened; stl|unfold opened; els].
      - apply sf_act.
        + intros t _ [P1 Q1 Ge Ri Pa By Co]. split; constructor; cbn; eauto.
          * intros l x H. apply lookup_insert_is_Some'. right. eapply Co. exact H.
          * intros c' H. apply lookup_insert_is_Some'. right. exact H.
        + intros t _ _ _ _. apply sf_ret; [intros a b x H [_ _ C _]; apply C; exact H|]. cbn. rewrite lookup_insert. eauto.
      - intros a b x H [_ _ C _]. apply C. exact H. }
    wn t1 o1 u1 i1 g1 h1. wb (@anyW bool); [|intros; apply W_any]. unfold connThread.
    eapply (W_bind _ (fun t _ sl => sess t sl)); [exact i1| |].
    + pose proof (wi_sane _ _ i1) as Hs1. unfold accept, lock, unlock, storeSession.
      wb (@anyW unit); [eapply acc_elsewhere; [exact i1|apply (sf_lock false)|unfold lock; stl|unfold lock; els]|]. wn t2 o2 u2 i2 g2 h2.
      apply (gr_conn _ _ g2) in h1.
      assert (F : forall t, st_sess t !! fresh (dom (st_sess t)) = None) by (intros v; apply not_elem_of_dom, is_fresh).
      eapply (W_bind _ (fun t _ l => exists x, st_sess t !! l = Some x /\ ss_id x = addr)); [exact i2| |].
      { apply (W_away Q (fun t l => exists x, st_sess t !! l = Some x /\ ss_id x = addr)); [exact i2| | |stl|els].
        - apply sf_act.
          + intros v g [P Q1 Ge Ri Pa By Co]. split; constructor; cbn; eauto.
            * intros i l HB. destruct (By i l HB) as (x & Hx & Hi'). exists x. rewrite lookup_insert_ne; [auto|].
              intros <-. rewrite F in Hx. discriminate.
            * intros l x. destruct (decide (fresh (dom (st_sess v)) = l)) as [<-|Hn].
              -- rewrite lookup_insert. intros [= <-]. cbn. exact (gr_conn _ _ g c h1).
              -- rewrite lookup_insert_ne by exact Hn. apply Co.
            * intros l x Hx. exists x. rewrite lookup_insert_ne; [auto|]. intros <-. rewrite F in Hx. discriminate.
          + intros v _ _ _ _. apply sf_ret.
            * intros a b l (x & Hx & Hi') [_ S _ _]. destruct (S l x Hx) as (x' & Hx' & E1 & E2). exists x'. split; congruence.
            * eexists. cbn. rewrite lookup_insert. split; reflexivity.
        - intros a b l (x & Hx & Hi') [_ S _ _]. destruct (S l x Hx) as (x' & Hx' & E1 & E2). exists x'. split; congruence. }
      wn t3 o3 l i3 g3 h3. wb (@anyW unit).
      { eapply (acc_elsewhere _ _ _ any); [exact i3| |stl|els]. apply sf_write. intros v g [P Q1 Ge Ri Pa By Co].
        destruct h3 as (x & Hx & Hi'). destruct (gr_sess _ _ g l x Hx) as (x' & Hx' & E1 & E2). split; constructor; cbn; eauto.
        intros i l'. destruct (decide (addr = i)) as [<-|Hn].
        + rewrite lookup_insert. intros [= <-]. exists x'. split; congruence.
        + rewrite lookup_insert_ne by exact Hn. apply By. }
      wn t4 o4 u4 i4 g4 h4. wb (@anyW unit); [eapply acc_elsewhere; [exact i4|apply (sf_unlock false)|unfold unlock; stl|unfold unlock; els]|].
      wn t5 o5 u5 i5 g5 h5. constructor. intros l' [= <-] t' u' G' _. destruct h3 as (x & Hx & _).
      eapply stable_sess; [|exact G']. eapply stable_sess; [|exact g5]. eapply stable_sess; [|exact g4]. exists x. exact Hx.
    + wn t2 o2 sl i2 g2 h2. apply W_serve; [exact i2|exact h2|]. intros b w p Hin E. apply Ha. exists b, w, p. auto.
  - wb (@anyW bool); [|intros; apply W_any]. apply W_serve; [exact Hi|exact Hp|]. intros b w p Hin E. apply Ha. exists b, w, p. auto.
  - wb (@anyW (option msg)); [|intros; apply W_any]. apply W_process; [exact Hi|exact Hp|]. apply Ha. reflexivity.
  - apply W_tick; [exact Hi|]. apply Ha. reflexivity.
  - wb (@anyW (list nat)); [|intros; apply W_any]. unfold apiList, listDevice.
    eapply (acc_elsewhere _ _ _ any); [exact Hi| |stl|els]. apply (sf_read false); [exact stable_any|]. intros. exact Logic.I.
  - wb (@anyW (list N * option devgeo)); [|intros; apply W_any]. apply W_geo; [exact Hi|]. apply Ha. reflexivity.
  - wb (@anyW (list N)); [|intros; apply W_any]. eapply (acc_elsewhere _ _ _ any); [exact Hi|apply sf_get; exact Hs| |];
      unfold apiGetParams, apiSession, getDeviceByPhone, readConst, getSession, nextSerial, getNextSerialNum, readSess;
      [stl; apply still_send|els; apply els_send].
  - wb (@anyW (list N)); [|intros; apply W_any]. eapply (acc_elsewhere _ _ _ any); [exact Hi|apply sf_put; exact Hs| |];
      unfold apiPutParams, apiSession, getDeviceByPhone, readConst, getSession, nextSerial, getNextSerialNum, readSess;
      [stl; apply still_send|els; apply els_send].
  - eapply (acc_elsewhere _ _ _ any); [exact Hi| |stl|els]. apply sf_write. intros t _ [P1 Q1 Ge Ri Pa By Co]. split; constructor; cbn; eauto.
  - wb (@anyW nat); [|intros; apply W_any]. unfold countSession.
    eapply (acc_elsewhere _ _ _ any); [exact Hi| |stl|els]. apply (sf_read false); [exact stable_any|]. intros. exact Logic.I.
Qed.

(** ** Goroutines of the simulator *)
Lemma W_clientSend s o sl m w : wi s o -> sess s sl -> WQ anyW s o (clientSend e sl m w).
Proof.
  intros Hi Hx. unfold clientSend. eapply W_bind; [exact Hi|apply W_readSess; assumption|]. wn t1 o1 x i1 g1 h1.
  eapply (W_bindR _ anyW); [|exact i1|].
  - eapply (acc_elsewhere _ _ _ any); [exact i1|apply (sf_write' false); [exact (wi_sane _ _ i1)|exact h1|discriminate]| |];
      unfold processConnWrite, connSend; [stl|els].
  - intros t2 o2 q i2 g2 _ _. assert (Hx2 : sess t2 sl) by (eapply stable_sess; [exact Hx|eauto using grows_trans]).
    assert (Hst : WQ anyW t2 o2 (clientStop sl)).
    { unfold clientStop. eapply W_bind; [exact i2|apply W_readSess; assumption|]. wn t3 o3 y i3 g3 h3. apply W_close. exact i3. }
    destruct q as [v|[]|]; first [exact Hst|apply W_any].
Qed.
Lemma W_receive sl ins : forall s o, wi s o -> sess s sl ->
  (forall b w p, In (Ok b, w) ins -> decodePacket (e_o e) b = Ok p -> Q (h_phone (pk_hdr p))) -> WQ anyW s o (clientLoop e sl ins).
Proof.
  induction ins as [|[r w] t IH]; intros s o Hi Hx Hq; cbn [clientLoop]; [apply W_any|].
  eapply W_bind; [exact Hi|apply W_readSess; assumption|]. wn t1 o1 x i1 g1 h1.
  eapply (W_bindR _ anyW); [|exact i1|].
  - apply W_connRead; [exact i1|eapply stable_sess; eassumption|exact h1|]. intros b p -> E. apply (Hq b w p); [left; reflexivity|exact E].
  - intros t2 o2 q i2 g2 _ _. assert (Hx2 : sess t2 sl) by (eapply stable_sess; [exact Hx|eauto using grows_trans]).
    assert (Hn : WQ anyW t2 o2 (clientLoop e sl t)).
    { apply IH; [exact i2|exact Hx2|]. intros b w' p Hin. apply (Hq b w' p). right. exact Hin. }
    destruct q as [v|er|]; [exact Hn|destruct (clientStops er); [apply W_any|exact Hn]|apply W_any].
Qed.
Lemma W_getSim s o ph : wi s o -> WQ (mine ph) s o (getSim ph).
Proof.
  intros Hi. unfold getSim. eapply W_bind; [exact Hi|apply W_byPhone; exact Hi|]. wn t1 o1 x i1 g1 h1.
  destruct x as [l|]; constructor; [|discriminate]. intros a [= <-] t u G S. eapply mine_mono; [apply h1; reflexivity|exact G].
Qed.
Lemma W_register s o c ph sl w : wi s o -> sess s sl -> WQ anyW s o (register e c ph sl w).
Proof.
  intros Hi Hx. unfold register. eapply W_bind; [exact Hi|apply W_getSim; exact Hi|]. wn t1 o1 l i1 g1 h1.
  eapply W_bind; [exact i1|eapply W_readConst; [exact i1|exact h1]|]. wn t2 o2 d i2 g2 h2.
  apply W_clientSend; [exact i2|]. eapply stable_sess; [exact Hx|eauto using grows_trans].
Qed.
Lemma W_beats m sl ws : forall s o, wi s o -> sess s sl -> WQ anyW s o (beats0002 e m sl ws).
Proof.
  induction ws as [|w t IH]; intros s o Hi Hx; cbn [beats0002]; [apply W_any|].
  wb (@anyW unit); [apply W_clientSend; assumption|]. wn t1 o1 u1 i1 g1 h1. apply IH; [exact i1|eapply stable_sess; eassumption].
Qed.
Lemma W_report other ph g sl rs : forall s o, wi s o -> sess s sl -> WQ anyW s o (reportLocation e other ph g sl rs).
Proof.
  induction rs as [|[r w] t IH]; intros s o Hi Hx; cbn [reportLocation]; [apply W_any|].
  eapply W_bind; [exact Hi|apply W_getSim; exact Hi|]. wn t1 o1 l i1 g1 h1.
  eapply W_bind; [exact i1|eapply W_readConst; [exact i1|exact h1]|]. wn t2 o2 d i2 g2 h2.
  wb (@anyW Z); [apply W_now; exact i2|]. wn t3 o3 now i3 g3 h3.
  assert (Hx3 : sess t3 sl) by (eapply stable_sess; [exact Hx|eauto using grows_trans]).
  wb (@anyW unit); [apply W_clientSend; assumption|]. wn t4 o4 u4 i4 g4 h4. apply IH; [exact i4|eapply stable_sess; eassumption].
Qed.
Lemma W_status ph n : forall s o, wi s o -> (n <> O -> Q ph) -> WQ anyW s o (statusLoop ph n).
Proof.
  induction n as [|n IH]; intros s o Hi Hq; cbn [statusLoop]; [apply W_any|].
  wb (@anyW bool); [|wn t1 o1 b i1 g1 h1; destruct b; [apply W_any|apply IH; [exact i1|auto]]].
  unfold statusCheck. eapply W_bind; [exact Hi|apply W_byPhone; exact Hi|]. wn t1 o1 x i1 g1 h1.
  destruct x as [l|]; [|apply W_any]. specialize (h1 l eq_refl).
  eapply W_bind; [exact i1|eapply W_readDev; [exact i1|apply Hq; discriminate|exact h1]|]. intros. apply W_any.
Qed.
Lemma W_tcode s o g : wi s o -> tplaced s g -> (forall q, tacts e g q -> Q q) -> WQ anyW s o (tcode e g).
Proof.
  intros Hi Hp Ha. destruct g as [sl ins|c sl w|ph n|ph sl ws|other ph g sl rs|now]; cbn [tcode tplaced tacts] in *.
  - wb (@anyW bool); [|intros; apply W_any]. apply W_receive; [exact Hi|exact Hp|]. intros b w p Hin E. apply Ha. exists b, w, p. auto.
  - unfold begin. eapply (W_bind _ (fun t _ l => exists d, st_devs t !! l = Some d)); [exact Hi| |].
    + unfold buildDevice. eapply W_bind; [exact Hi|apply W_readSess; assumption|]. wn t1 o1 x i1 g1 h1.
      eapply (W_bind _ (fun t _ l => dev t l)); [exact i1| |].
      { apply (W_away Q dev); [exact i1|apply (sf_allocDev false)|exact stable_dev|unfold allocDev; stl|unfold allocDev; els]. }
      wn t2 o2 l i2 g2 h2. wb (@anyW unit); [apply W_cache; exact i2|]. wn t3 o3 u3 i3 g3 h3. constructor. intros a [= <-] t u G _.
      eapply stable_dev; [|exact G]. eapply stable_dev; eassumption.
    + wn t1 o1 l i1 g1 h1. destruct h1 as (d0 & Hd0). eapply W_bind; [exact i1|eapply W_readConst; [exact i1|exists d0; split; [exact Hd0|reflexivity]]|].
      wn t2 o2 d i2 g2 h2. apply W_register; [exact i2|]. eapply stable_sess; [exact Hp|eauto using grows_trans].
  - apply W_status; [exact Hi|]. intros _. apply Ha. reflexivity.
  - unfold keepalive. eapply W_bind; [exact Hi|apply W_getSim; exact Hi|]. wn t1 o1 l i1 g1 h1.
    eapply W_bind; [exact i1|eapply W_readConst; [exact i1|exact h1]|]. wn t2 o2 d i2 g2 h2.
    apply W_beats; [exact i2|]. eapply stable_sess; [exact Hp|eauto using grows_trans].
  - apply W_report; assumption.
  - eapply (acc_elsewhere _ _ _ any); [exact Hi| |stl|els]. apply sf_write. intros t _ [P1 Q1 Ge Ri Pa By Co]. split; constructor; cbn; eauto.
Qed.
End Goroutines.

(** ** All schedules *)
Lemma W_steps {A} (Q : nat -> str -> Prop) sch : forall (ps : list (sp A)) s o, wi s o ->
  (forall j p, nth_error ps j = Some p -> W (Q j) anyW s o p) ->
  exists u, wi (snd (psteps ps s sch)) u /\ grows s (snd (psteps ps s sch))
    /\ forall j p, nth_error (fst (psteps ps s sch)) j = Some p -> W (Q j) anyW (snd (psteps ps s sch)) u p.
Proof.
  induction sch as [|i t IH]; intros ps s o Hi H; cbn [psteps].
  - exists o. split; [exact Hi|]. split; [apply grows_refl|exact H].
  - unfold pstep. destruct (nth_error ps i) as [[r|a f k]|] eqn:E; [apply (IH ps s o Hi H)| |apply (IH ps s o Hi H)].
    pose proof (H i _ E) as Hw. inversion Hw as [|? ? ? ? ? H1 H2]; subst.
    destruct (H1 s o Hi (grows_refl s) (sub_refl o)) as (_ & Hi' & G).
    destruct (IH (firstn i ps ++ k s :: skipn (i + 1) ps) (f s) (more (f s) o) Hi') as (u & K1 & K2 & K3).
    { intros j p Hj. rewrite (nth_error_upd ps i j (k s) _ E) in Hj. destruct (Nat.eqb_spec i j) as [<-|].
      - injection Hj as <-. apply (H2 s o Hi (grows_refl s) (sub_refl o)).
      - eapply W_mono; [apply H; exact Hj|exact G|apply sub_more]. }
    exists u. split; [exact K1|]. split; [eapply grows_trans; eassumption|exact K3].
Qed.
Lemma W_now_owns {A} Q s o (p : sp A) x : W Q anyW s o p -> wi s o -> In x (accesses p) -> owns Q s o x.
Proof.
  intros H Hi. inversion H as [|? ? ? ? ? H1 _]; subst; cbn; [tauto|]. intros Hx.
  destruct (H1 s o Hi (grows_refl s) (sub_refl o)) as (Hf & _). rewrite List.Forall_forall in Hf. apply Hf, Hx.
Qed.
Lemma wi_start s : sane s -> own_rings s -> wi s (fun l p => st_geo s !! p = Some l).
Proof.
  intros Hs Ho. constructor; [exact Hs| |auto|].
  - intros l p p' H H'. eapply Ho; eassumption.
  - intros l p H. exact (sn_geo _ Hs _ _ H).
Qed.
Lemma no_clash {A} (Q : nat -> str -> Prop) (ps : list (sp A)) s sch : sane s -> own_rings s ->
  (forall j p o, wi s o -> nth_error ps j = Some p -> W (Q j) anyW s o p) ->
  forall i j p q, (forall ph, Q i ph -> Q j ph -> False) ->
    nth_error (fst (psteps ps s sch)) i = Some p -> nth_error (fst (psteps ps s sch)) j = Some q -> ~ clash personal p q.
Proof.
  intros Hs Ho H i j p q Hd Hp Hq (x & y & Hx & Hy & Hc & Hk).
  pose proof (wi_start s Hs Ho) as Hi.
  destruct (W_steps Q sch ps s _ Hi (fun j p Hj => H j p _ Hi Hj)) as (u & I & _ & K).
  pose proof (W_now_owns _ _ _ _ _ (K i p Hp) I Hx) as Ox. pose proof (W_now_owns _ _ _ _ _ (K j q Hq) I Hy) as Oy.
  unfold conflict in Hk. apply andb_prop in Hk as (Hk & _). apply andb_prop in Hk as (Hk & _). apply cell_eqb_eq in Hk.
  unfold owns in Ox, Oy. rewrite <- Hk in Oy. destruct (ac_cell x) as [|l| |l|l|l| | | | | | | | | | |]; cbn in Hc; try contradiction.
  - destruct Ox as (d & Hd1 & Q1), Oy as (d' & Hd2 & Q2). assert (d = d') by congruence. subst d'. exact (Hd _ Q1 Q2).
  - destruct Ox as (a & Q1 & O1), Oy as (b & Q2 & O2). assert (a = b) by (eapply (wi_fun _ _ I); eassumption). subst b. exact (Hd _ Q1 Q2).
  - destruct Ox as (a & Q1 & O1), Oy as (b & Q2 & O2). assert (a = b) by (eapply (wi_fun _ _ I); eassumption). subst b. exact (Hd _ Q1 Q2).
  - destruct Ox as (a & Q1 & O1), Oy as (b & Q2 & O2). assert (a = b) by (eapply (wi_fun _ _ I); eassumption). subst b. exact (Hd _ Q1 Q2).
Qed.
Definition nth_acts {G} (ac : G -> str -> Prop) (gs : list G) (i : nat) (q : str) : Prop := exists g, nth_error gs i = Some g /\ ac g q.
Lemma server_no_clash e gs s sch : sane s -> own_rings s -> (forall g, In g gs -> placed s g) ->
  forall i j g h p q, nth_error gs i = Some g -> nth_error gs j = Some h -> (forall ph, acts e g ph -> acts e h ph -> False) ->
    nth_error (fst (running e gs s sch)) i = Some p -> nth_error (fst (running e gs s sch)) j = Some q -> ~ clash personal p q.
Proof.
  intros Hs Ho Hp i j g h p q Hg Hh Hd. apply (no_clash (nth_acts (acts e) gs)); [exact Hs|exact Ho| |].
  - intros k c o Hi Hk. rewrite nth_error_map in Hk. destruct (nth_error gs k) as [g'|] eqn:E; [|discriminate].
    injection Hk as <-. apply W_code; [exact Hi|apply Hp; eapply nth_error_In; exact E|]. intros a Ha. exists g'. auto.
  - intros ph (g1 & E1 & A1) (g2 & E2 & A2). assert (g1 = g) by congruence. assert (g2 = h) by congruence. subst. exact (Hd _ A1 A2).
Qed.
Lemma sim_no_clash e gs s sch : sane s -> own_rings s -> (forall g, In g gs -> tplaced s g) ->
  forall i j g h p q, nth_error gs i = Some g -> nth_error gs j = Some h -> (forall ph, tacts e g ph -> tacts e h ph -> False) ->
    nth_error (fst (simulating e gs s sch)) i = Some p -> nth_error (fst (simulating e gs s sch)) j = Some q -> ~ clash personal p q.
Proof.
  intros Hs Ho Hp i j g h p q Hg Hh Hd. apply (no_clash (nth_acts (tacts e) gs)); [exact Hs|exact Ho| |].
  - intros k c o Hi Hk. rewrite nth_error_map in Hk. destruct (nth_error gs k) as [g'|] eqn:E; [|discriminate].
    injection Hk as <-. apply W_tcode; [exact Hi|apply Hp; eapply nth_error_In; exact E|]. intros a Ha. exists g'. auto.
  - intros ph (g1 & E1 & A1) (g2 & E2 & A2). assert (g1 = g) by congruence. assert (g2 = h) by congruence. subst. exact (Hd _ A1 A2).
Qed.
Lemma sim_sane e gs s sch : sane s -> own_rings s -> (forall g, In g gs -> tplaced s g) ->
  sane (snd (simulating e gs s sch)) /\ grows s (snd (simulating e gs s sch)).
Proof.
  intros Hs Ho Hp. pose proof (wi_start s Hs Ho) as Hi.
  destruct (W_steps (fun _ _ => True) sch (List.map (tcode e) gs) s _ Hi) as (u & I & G & _).
  - intros k c Hk. rewrite nth_error_map in Hk. destruct (nth_error gs k) as [g'|] eqn:E; [|discriminate].
    injection Hk as <-. apply W_tcode; [exact Hi|apply Hp; eapply nth_error_In; exact E|]. auto.
  - split; [exact (wi_sane _ _ I)|exact G].
Qed.
