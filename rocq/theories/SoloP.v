(** A handler acting for a phone, among goroutines acting for others, does what it does alone *)
From stdpp Require Import gmap.
From Verif Require Import Base HexM TimeM HeaderM ParamsM GeoM MsgM PacketM FrameM ProgM ProgP RingM SpecRing RingP
  StateM ProcM ServerM ConcM SpecCodec SpecState SpecConc StateP ProcP ServerP EffectP ConcP IsoP.
Local Open Scope N_scope.

Section Solo.
Context (q : str) (pv : option str).
Notation iok := (iok q pv).
Notation guar := (guar q pv true).
Notation rely := (rely q).

(** the state of the solo run, and the shared one *)
Record sim (s1 s2 : st) : Prop := {
  si_ok : iok s1;
  si_ptr : st_byPhone s2 !! q = st_byPhone s1 !! q;
  si_plate : forall w, pv = Some w -> st_byPlate s2 !! w = st_byPlate s1 !! w;
  si_devs : forall l d, st_devs s1 !! l = Some d -> d_phone d = q -> st_devs s2 !! l = Some d;
  si_ring : ringOf s2 q = ringOf s1 q;
  si_params : st_params s2 !! q = st_params s1 !! q;
  si_jobs : base.filter (fun p => p = q) (st_jobs s2) = base.filter (fun p => p = q) (st_jobs s1);
  si_clock : st_clock s2 = st_clock s1;
  si_sess : forall l x, st_sess s1 !! l = Some x -> exists y, st_sess s2 !! l = Some y /\ ss_id y = ss_id x /\ ss_conn y = ss_conn x }.
Lemma sim_refl s : iok s -> sim s s.
Proof. intros H. constructor; auto. intros l x Hx. exists x. auto. Qed.
Lemma sim_guar s1 s2 t : sim s1 s2 -> guar s2 t -> sim s1 t.
Proof.
  intros [O P V D R Q J C S] (Hg & [P' V' D' G' R' Q' J' C']). constructor; [exact O|try congruence..].
  - intros w E. rewrite V', V by exact E. reflexivity.
  - eauto.
  - rewrite C' by reflexivity. exact C.
  - intros l x Hx. destruct (S l x Hx) as (y & Hy & E1 & E2). destruct (gr_sess _ _ Hg l y Hy) as (z & Hz & F1 & F2). exists z. split; [exact Hz|]. split; congruence.
Qed.

Definition agree {A} (Q : st -> st -> A -> A -> Prop) (s1 s2 : st) (r1 r2 : res A) : Prop :=
  match r1, r2 with
  | Ok a, Ok b => Q s1 s2 a b
  | Err x, Err y => x = y
  | Panic, Panic => True
  | _, _ => False
  end.
(** the solo run of [p1] from [s1] and a run of [p2] from [s2] with others in between; at the end
    the states are related by [F], the results by [Q] *)
Inductive parF {A} (F : st -> st -> Prop) (Q : st -> st -> A -> A -> Prop) : st -> sp A -> st -> sp A -> Prop :=
| par_ret s1 r1 s2 r2 : (forall t, iok t -> guar s2 t -> F s1 t /\ agree Q s1 t r1 r2) -> parF F Q s1 (Ret r1) s2 (Ret r2)
| par_act s1 a1 f1 k1 s2 a2 f2 k2 : grows s1 (f1 s1) ->
    (forall t, iok t -> guar s2 t -> iok (f2 t) /\ rely t (f2 t)) ->
    (forall t, iok t -> guar s2 t -> parF F Q (f1 s1) (k1 s1) (f2 t) (k2 t)) ->
    parF F Q s1 (Act a1 f1 k1) s2 (Act a2 f2 k2).
Notation par := (parF sim).
Definition lasting {A} (Q : st -> st -> A -> A -> Prop) : Prop :=
  forall s1 t u a b, Q s1 t a b -> guar t u -> Q s1 u a b.
Lemma par_guar {A} F (Q : st -> st -> A -> A -> Prop) s1 p1 s2 p2 t : parF F Q s1 p1 s2 p2 -> guar s2 t -> parF F Q s1 p1 t p2.
Proof.
  intros H Hg. inversion H as [? ? ? ? Hr|? ? ? ? ? ? ? ? H1 H2 H3]; subst; constructor.
  - intros u Hu Hgu. apply Hr; [exact Hu|eapply guar_trans; eassumption].
  - exact H1.
  - intros u Hu Hgu. apply H2; [exact Hu|eapply guar_trans; eassumption].
  - intros u Hu Hgu. apply H3; [exact Hu|eapply guar_trans; eassumption].
Qed.
Lemma par_bindF {A B} (F F' : st -> st -> Prop) (Q : st -> st -> A -> A -> Prop) (Q' : st -> st -> B -> B -> Prop) s1 p1 s2 p2 g1 g2 :
  (forall a b t, F a b -> iok b -> guar b t -> F' a t) ->
  parF F Q s1 p1 s2 p2 -> iok s2 ->
  (forall t1 t2 a b, grows s1 t1 -> F t1 t2 -> iok t2 -> Q t1 t2 a b -> parF F' Q' t1 (g1 a) t2 (g2 b)) ->
  parF F' Q' s1 (pbind p1 g1) s2 (pbind p2 g2).
Proof.
  intros HF H. unfold pbind. induction H as [s1 r1 s2 r2 Hr|s1 a1 f1 k1 s2 a2 f2 k2 H1 H2 _ IH]; intros Hi Hg; cbn.
  - destruct (Hr s2 Hi (guar_refl q pv true s2)) as (Hs & Ha). unfold agree in Ha.
    destruct r1 as [a|x|], r2 as [b|y|]; try contradiction.
    + apply Hg; [apply grows_refl|assumption..].
    + subst y. constructor. intros t Ht Hgt. split; [eapply HF; eassumption|reflexivity].
    + constructor. intros t Ht Hgt. split; [eapply HF; eassumption|exact Logic.I].
  - constructor; [exact H1|exact H2|]. intros t Ht Hgt. apply IH; [exact Ht|exact Hgt|apply H2; assumption|].
    intros t1 t2 a b Hg1. apply Hg. eapply grows_trans; eassumption.
Qed.
Lemma par_bind {A B} (Q : st -> st -> A -> A -> Prop) (Q' : st -> st -> B -> B -> Prop) s1 p1 s2 p2 g1 g2 :
  par Q s1 p1 s2 p2 -> iok s2 ->
  (forall t1 t2 a b, grows s1 t1 -> sim t1 t2 -> iok t2 -> Q t1 t2 a b -> par Q' t1 (g1 a) t2 (g2 b)) ->
  par Q' s1 (pbind p1 g1) s2 (pbind p2 g2).
Proof. apply par_bindF. intros a b t H _. apply sim_guar. exact H. Qed.
Lemma par_done {A} (Q : st -> st -> A -> A -> Prop) s1 s2 a b : lasting Q -> sim s1 s2 -> Q s1 s2 a b -> par Q s1 (ret a) s2 (ret b).
Proof. intros Hl Hs Hq. constructor. intros t Ht Hg. split; [eapply sim_guar; eassumption|]. eapply Hl; eassumption. Qed.
Lemma par_fail {A} (Q : st -> st -> A -> A -> Prop) s1 s2 e : sim s1 s2 -> par Q s1 (fail e) s2 (fail e).
Proof. intros Hs. constructor. intros t Ht Hg. split; [eapply sim_guar; eassumption|reflexivity]. Qed.
Lemma par_panic {A} (Q : st -> st -> A -> A -> Prop) s1 s2 : sim s1 s2 -> par Q s1 panic s2 panic.
Proof. intros Hs. constructor. intros t Ht Hg. split; [eapply sim_guar; eassumption|exact Logic.I]. Qed.

(** equal results with a property *)
Definition both {A} (P : st -> A -> Prop) : st -> st -> A -> A -> Prop := fun s1 _ a b => a = b /\ P s1 a.
Lemma lasting_both {A} (P : st -> A -> Prop) : lasting (both P).
Proof. intros s1 t u a b H _. exact H. Qed.
Lemma par_same {A} s1 s2 (a : A) : sim s1 s2 -> par (both any) s1 (ret a) s2 (ret a).
Proof. intros H. apply par_done; [apply lasting_both|exact H|]. split; [reflexivity|exact Logic.I]. Qed.
Lemma par_lift {A} s1 s2 (r : res A) : sim s1 s2 -> par (both (fun _ a => r = Ok a)) s1 (lift r) s2 (lift r).
Proof.
  intros Hs. constructor. intros t Ht Hg. split; [eapply sim_guar; eassumption|]. destruct r; cbn; try reflexivity. split; reflexivity.
Qed.
Lemma par_read {A} (P : st -> A -> Prop) s1 s2 a g : sim s1 s2 ->
  (forall t, iok t -> sim s1 t -> g t = g s1) -> P s1 (g s1) -> par (both P) s1 (rd1 a g) s2 (rd1 a g).
Proof.
  intros Hs He Hp. constructor; [apply grows_refl|intros t Ht _; split; [exact Ht|apply rely_refl]|].
  intros t Ht Hg. pose proof (sim_guar _ _ _ Hs Hg) as Hst. apply par_done; [apply lasting_both|exact Hst|].
  rewrite (He t Ht Hst). split; [reflexivity|exact Hp].
Qed.
(** an update that may be made by the goroutine of [q] *)
Definition own (f : st -> st) (t : st) : Prop := iok (f t) /\ rely t (f t).
Lemma par_write s1 s2 a f : sim s1 s2 -> (forall t, iok t -> sim s1 t -> own f t) -> own f s1 ->
  (forall t, iok t -> sim s1 t -> iok (f s1) -> sim (f s1) (f t)) ->
  par (both any) s1 (wr1 a f) s2 (wr1 a f).
Proof.
  intros Hs Ho (H1 & H1' & _) Hf. constructor; [exact H1'|intros t Ht Hg; apply Ho; [exact Ht|eapply sim_guar; eassumption]|].
  intros t Ht Hg. apply par_same. apply Hf; [exact Ht|eapply sim_guar; eassumption|exact H1].
Qed.
Lemma own_rest' f t : iok t -> sane (f t) -> grows t (f t) -> st_geo (f t) = st_geo t -> spare q pv (f t) -> own f t.
Proof.
  intros (Hs & Hw & Hv) H1 H2 E Hv'. split; [split; [exact H1|split; [unfold own_rings; rewrite E; exact Hw|exact Hv']]|].
  split; [exact H2|]. intros l _. rewrite E. auto.
Qed.
Lemma own_rest f t : iok t -> sane (f t) -> grows t (f t) -> st_geo (f t) = st_geo t ->
  st_byPhone (f t) = st_byPhone t -> st_byPlate (f t) = st_byPlate t -> own f t.
Proof.
  intros Hi H1 H2 E E1 E2. apply own_rest'; [exact Hi|exact H1|exact H2|exact E|].
  apply (spare_keep q pv t); [apply Hi|exact H2| | |apply Hi]; [intros ph l _; rewrite E1; auto|intros w l _; rewrite E2; auto].
Qed.

(** ** The primitives *)
Definition qdev (s : st) (l : nat) : Prop := exists d, st_devs s !! l = Some d /\ d_phone d = q.
Lemma qdev_grows s t l : qdev s l -> grows s t -> qdev t l.
Proof.
  intros (d & Hd & Hp) Hg. destruct (gr_dev _ _ Hg l d Hd) as (d' & H' & E). exists d'. split; [exact H'|]. injection E. congruence.
Qed.
Lemma par_getNow s1 s2 : sim s1 s2 -> par (both any) s1 getNow s2 getNow.
Proof. intros Hs. apply par_read; [exact Hs| |exact Logic.I]. intros t _ Ht. apply (si_clock _ _ Ht). Qed.
Lemma par_byPhone s1 s2 : sim s1 s2 -> par (both (opt qdev)) s1 (getDeviceByPhone q) s2 (getDeviceByPhone q).
Proof.
  intros Hs. apply par_read; [exact Hs| |].
  - intros t _ Ht. apply (si_ptr _ _ Ht).
  - destruct (st_byPhone s1 !! q) as [l|] eqn:E; [|exact Logic.I].
    destruct (sn_phone s1 (proj1 (si_ok _ _ Hs)) _ _ E) as (d & Hd & Hp). exists d. auto.
Qed.
Lemma par_dev s1 s2 a l : sim s1 s2 -> qdev s1 l ->
  par (both (fun s d => d_phone d = q)) s1 (Act a (fun s => s) (fun s => match st_devs s !! l with Some d => ret d | None => panic end))
    s2 (Act a (fun s => s) (fun s => match st_devs s !! l with Some d => ret d | None => panic end)).
Proof.
  intros Hs (d & Hd & Hp). constructor; [apply grows_refl|intros t Ht _; split; [exact Ht|apply rely_refl]|].
  intros t Ht Hg. pose proof (sim_guar _ _ _ Hs Hg) as Hst. rewrite Hd, (si_devs _ _ Hst _ _ Hd Hp).
  apply par_done; [apply lasting_both|exact Hst|]. split; [reflexivity|exact Hp].
Qed.
Lemma par_writeDev s1 s2 l f : sim s1 s2 -> qdev s1 l -> (forall d, who (f d) = who d) ->
  par (both any) s1 (writeDev l f) s2 (writeDev l f).
Proof.
  intros Hs (d & Hd & Hp) Hf.
  assert (O : forall t, iok t -> own (set_devs (alter f l)) t).
  { intros t Ht. destruct (sane_writeDev t l f Hf (proj1 Ht)) as (H1 & H2). apply own_rest; auto. }
  apply par_write; [exact Hs|auto|apply O, (si_ok _ _ Hs)|].
  intros t Ht [Ok P V D R Q J C S] Ho. constructor; auto. cbn. intros l' d' H' Hp'.
  destruct (decide (l = l')) as [<-|Hn].
  - rewrite lookup_alter, Hd in H'. rewrite lookup_alter, (D _ _ Hd Hp). exact H'.
  - rewrite lookup_alter_ne in H' by exact Hn. rewrite lookup_alter_ne by exact Hn. auto.
Qed.
Lemma own_cache t l : iok t -> qdev t l -> own (fun s => match st_devs s !! l with
    | Some d => set_index (<[d_plate d := l]>) (<[d_phone d := l]>) s | None => s end) t.
Proof.
  intros Ht (d & Hd & Hp). destruct (sane_cache t l (proj1 Ht)) as (H1 & H2). apply own_rest'; auto; [destruct (st_devs t !! l); reflexivity|].
  destruct Ht as (Hs & _ & Hv). rewrite Hd. intros w E. destruct (Hv w E) as (V1 & V2). split.
  - intros ph d' Hn. unfold devAt. cbn. rewrite lookup_insert_ne by congruence. exact (V1 ph d' Hn).
  - intros d'. unfold devWithPlate. cbn. destruct (decide (d_plate d = w)) as [->|Hn].
    + rewrite lookup_insert, Hd. intros [= <-]. exact Hp.
    + rewrite lookup_insert_ne by exact Hn. apply V2.
Qed.
Lemma par_cacheDevice s1 s2 l : sim s1 s2 -> qdev s1 l -> par (both any) s1 (cacheDevice l) s2 (cacheDevice l).
Proof.
  intros Hs (d & Hd & Hp).
  assert (O : forall t, iok t -> qdev t l -> own (fun s => match st_devs s !! l with
    | Some d => set_index (<[d_plate d := l]>) (<[d_phone d := l]>) s | None => s end) t).
  { intros t Ht Htd. apply own_cache; [exact Ht|]. exact Htd. }
  apply par_write; [exact Hs|intros t Ht Hst; apply O; [exact Ht|]; exists d; split; [apply (si_devs _ _ Hst)|]; assumption
    |apply O; [apply (si_ok _ _ Hs)|exists d; auto]|].
  intros t Ht [Ok P V D R Q J C S]. rewrite Hd, (D _ _ Hd Hp). intros Ho. constructor; auto; cbn.
  - rewrite Hp, !lookup_insert. reflexivity.
  - intros w E. destruct (decide (d_plate d = w)) as [->|Hn]; [rewrite !lookup_insert; reflexivity|].
    rewrite !lookup_insert_ne by exact Hn. auto.
Qed.
Lemma par_timerCancel s1 s2 : sim s1 s2 -> par (both any) s1 (timerCancel q) s2 (timerCancel q).
Proof.
  intros Hs. assert (O : forall t, iok t -> own (set_jobs (base.filter (fun p => p <> q))) t).
  { intros t Ht. apply own_rest; [exact Ht| | |reflexivity..].
    - destruct Ht as ([P Q Ge Ri Pa By Co] & _). constructor; cbn; eauto.
    - constructor; cbn; eauto. }
  apply par_write; [exact Hs|auto|apply O, (si_ok _ _ Hs)|].
  intros t Ht [Ok P V D R Q J C S] Ho. constructor; auto. cbn.
  assert (E : forall js : list str, base.filter (fun p => p = q) (base.filter (fun p => p <> q) js) = []).
  { induction js as [|j js IH]; [reflexivity|]. destruct (decide (j = q)) as [->|Hn].
    - rewrite (filter_cons_False (fun p => p <> q)) by (intros H; apply H; reflexivity). exact IH.
    - rewrite (filter_cons_True (fun p => p <> q)), (filter_cons_False (fun p => p = q)) by exact Hn. exact IH. }
  rewrite !E. reflexivity.
Qed.
Lemma par_delDevice s1 s2 : sim s1 s2 -> par (both any) s1 (delDeviceByPhone q) s2 (delDeviceByPhone q).
Proof.
  intros Hs.
  assert (O : forall t, iok t -> own (fun s => match st_byPhone s !! q with
    | Some l => match st_devs s !! l with
                | Some d => set_index (delete (d_plate d)) (delete (d_phone d)) s
                | None => s end
    | None => s end) t).
  { intros t Ht. pose proof (sf_delDevice false t q) as H. inversion H as [|? ? ? ? Hk _]; subst.
    destruct (Hk t (proj1 Ht) (grows_refl t)) as (H1 & H2). apply own_rest'; auto.
    - destruct (st_byPhone t !! q) as [l|]; [|reflexivity]. destruct (st_devs t !! l); reflexivity.
    - apply (spare_keep q pv t); [apply Ht|exact H2| | |apply Ht].
      + intros ph l' _. destruct (st_byPhone t !! q) as [l|]; [|auto]. destruct (st_devs t !! l); [|auto]. cbn.
        intros H'. apply lookup_delete_Some in H'. apply H'.
      + intros w l' _. destruct (st_byPhone t !! q) as [l|]; [|auto]. destruct (st_devs t !! l); [|auto]. cbn.
        intros H'. apply lookup_delete_Some in H'. apply H'. }
  apply par_write; [exact Hs|auto|apply O, (si_ok _ _ Hs)|].
  intros t Ht [Ok P V D R Q J C S]. rewrite P. destruct (st_byPhone s1 !! q) as [l|] eqn:E; [|intros; constructor; auto; congruence].
  destruct (sn_phone s1 (proj1 Ok) _ _ E) as (d & Hd & Hp). rewrite Hd, (D _ _ Hd Hp). intros Ho. constructor; auto; cbn.
  - rewrite Hp, !lookup_delete. reflexivity.
  - intros w Ew. destruct (decide (d_plate d = w)) as [->|Hn]; [rewrite !lookup_delete; reflexivity|].
    rewrite !lookup_delete_ne by exact Hn. auto.
Qed.
Lemma par_connClose s1 s2 c : sim s1 s2 -> par (both any) s1 (connClose c) s2 (connClose c).
Proof.
  intros Hs. unfold connClose.
  assert (O : forall g t, iok t -> own (set_conns (alter g c)) t).
  { intros g t Ht. destruct (sf_alterConn t c g (proj1 Ht)) as (H1 & H2). apply own_rest; auto. }
  apply par_write; [exact Hs|auto|apply O, (si_ok _ _ Hs)|].
  intros t Ht [Ok P V D R Q J C S] Ho. constructor; auto.
Qed.
Lemma par_delGeo s1 s2 : sim s1 s2 -> par (both any) s1 (delGeoByPhone q) s2 (delGeoByPhone q).
Proof.
  intros Hs. assert (O : forall t, iok t -> own (set_geo (delete q)) t).
  { intros t (Hs' & Hw & Hv). split; [split; [|split; [|exact Hv]]|split].
    - destruct Hs' as [P Q Ge Ri Pa By Co]. constructor; cbn; eauto.
      intros p l H. apply lookup_delete_Some in H. destruct H as (_ & H). eauto.
    - intros p p' l H H'. cbn in H, H'. apply lookup_delete_Some in H. apply lookup_delete_Some in H'. destruct H, H'. eauto.
    - constructor; cbn; eauto.
    - intros l _ _. cbn. rewrite lookup_delete. discriminate. }
  apply par_write; [exact Hs|auto|apply O, (si_ok _ _ Hs)|].
  intros t Ht [Ok P V D R Q J C S] Ho. constructor; auto. unfold ringOf. cbn. rewrite !lookup_delete. reflexivity.
Qed.
Lemma par_params s1 s2 d : sim s1 s2 -> dp_phone d = q -> par (both any) s1 (cacheDeviceParams d) s2 (cacheDeviceParams d).
Proof.
  intros Hs Hp. assert (O : forall t, iok t -> own (set_params (<[dp_phone d := d]>)) t).
  { intros t Ht. apply own_rest; [exact Ht| | |reflexivity..].
    - destruct Ht as ([P Q Ge Ri Pa By Co] & _). constructor; cbn; eauto. intros p d'. destruct (decide (dp_phone d = p)) as [<-|Hn].
      + rewrite lookup_insert. intros [= <-]. reflexivity.
      + rewrite lookup_insert_ne by exact Hn. apply Pa.
    - constructor; cbn; eauto. }
  apply par_write; [exact Hs|auto|apply O, (si_ok _ _ Hs)|].
  intros t Ht [Ok P V D R Q J C S] Ho. constructor; auto. cbn. rewrite Hp, !lookup_insert. reflexivity.
Qed.
Lemma par_getParams s1 s2 : sim s1 s2 ->
  par (both (opt (fun _ d => dp_phone d = q))) s1 (getDeviceParamsByPhone q) s2 (getDeviceParamsByPhone q).
Proof.
  intros Hs. apply par_read; [exact Hs| |].
  - intros t _ Ht. apply (si_params _ _ Ht).
  - destruct (st_params s1 !! q) as [d|] eqn:E; [|exact Logic.I]. exact (sn_params s1 (proj1 (si_ok _ _ Hs)) _ _ E).
Qed.
(** the two buffers of [q] *)
Definition rings2 : st -> st -> nat -> nat -> Prop := fun s1 s2 a b => st_geo s1 !! q = Some a /\ st_geo s2 !! q = Some b.
Lemma lasting_rings2 : lasting rings2.
Proof. intros s1 t u a b (H1 & H2) (_ & Hg). split; [exact H1|]. rewrite (sm_geo _ _ _ _ _ Hg). exact H2. Qed.
Definition newGeo (s : st) : st :=
  match st_geo s !! q with
  | Some _ => s
  | None => let l := fresh (dom (st_rings s)) in set_geo (<[q := l]>) (set_rings (<[l := newRing ringCapacity]>) s)
  end.
Lemma own_newGeo t : iok t -> own newGeo t.
Proof.
  intros (Hs & Hw & Hv). destruct (sane_getRing t q Hs) as (H1 & H2). cbn in H1, H2. unfold own. unfold newGeo.
  destruct (st_geo t !! q) as [l|] eqn:E; [split; [split; [|split]; assumption|apply rely_refl]|].
  split; [split; [exact H1|split; [apply own_new; assumption|exact Hv]]|]. split; [exact H2|]. intros l Hl _. cbn. rewrite lookup_insert.
  intros [= <-]. destruct Hl as (r & Hr). rewrite fresh_ring in Hr. discriminate.
Qed.
Lemma par_getRing s1 s2 : sim s1 s2 -> par rings2 s1 (getGeoRingByPhone q) s2 (getGeoRingByPhone q).
Proof.
  intros Hs. pose proof (own_newGeo s1 (si_ok _ _ Hs)) as (O1 & O1' & _).
  unfold getGeoRingByPhone. change (fun s : st => match st_geo s !! q with
                | Some _ => s
                | None => let l := fresh (dom (st_rings s)) in
                          set_geo (<[q := l]>) (set_rings (<[l := newRing ringCapacity]>) s)
                end) with newGeo.
  constructor; [exact O1'|intros t Ht _; apply own_newGeo; exact Ht|].
  intros t Ht Hg. pose proof (sim_guar _ _ _ Hs Hg) as [Ok P V D R Q J C S].
  assert (E : (st_geo t !! q = None <-> st_geo s1 !! q = None)).
  { unfold ringOf in R. destruct (st_geo t !! q) as [l|] eqn:E1, (st_geo s1 !! q) as [l'|] eqn:E2; split; try discriminate; auto.
    - destruct (sn_geo t (proj1 Ht) _ _ E1) as (r & Hr). rewrite Hr in R. discriminate.
    - destruct (sn_geo s1 (proj1 Ok) _ _ E2) as (r & Hr). rewrite Hr in R. discriminate. }
  apply par_done; [exact lasting_rings2| |].
  - unfold newGeo in *. destruct (st_geo t !! q) as [l|] eqn:E1, (st_geo s1 !! q) as [l'|] eqn:E2.
    + constructor; auto; congruence.
    + pose proof (proj2 E eq_refl). discriminate.
    + pose proof (proj1 E eq_refl). discriminate.
    + constructor; auto. unfold ringOf. cbn. rewrite !lookup_insert. reflexivity.
  - unfold rings2, newGeo. destruct (st_geo t !! q) as [l|] eqn:E1, (st_geo s1 !! q) as [l'|] eqn:E2.
    + auto.
    + pose proof (proj2 E eq_refl). discriminate.
    + pose proof (proj1 E eq_refl). discriminate.
    + cbn. rewrite !lookup_insert. auto.
Qed.
(** a call on the buffer: the buffers are equal, so are the results; [p] and [p'] differ in
    their labels only *)
Inductive alike {A} : prog (ring devgeo) A -> prog (ring devgeo) A -> Prop :=
| al_ret r : alike (Ret r) (Ret r)
| al_act a a' f k k' : (forall r, rok 100 r -> rok 100 (f r)) -> (forall r, rok 100 r -> alike (k r) (k' r)) -> alike (Act a f k) (Act a' f k').
Lemma par_onRing {A} (p p' : prog (ring devgeo) A) : alike p p' -> forall s1 s2 l l', sim s1 s2 -> iok s2 -> rings2 s1 s2 l l' ->
  par (both any) s1 (onRing l p) s2 (onRing l' p').
Proof.
  unfold onRing. induction 1 as [r|a a' f k k' Hf _ IH]; intros s1 s2 l l' Hs Hi Hr; cbn [zoom].
  - destruct r; [apply par_same|apply par_fail|apply par_panic]; exact Hs.
  - assert (O : forall l t, iok t -> st_geo t !! q = Some l -> own (fun s => set_rings (<[l := f (ringAt l s)]>) s) t).
    { intros l0 t Ht E. destruct (sn_geo t (proj1 Ht) _ _ E) as (r & Hr0).
      assert (Hat : ringAt l0 t = r) by (unfold ringAt; rewrite Hr0; reflexivity). cbv beta. unfold own. rewrite Hat.
      pose proof (Hf r (sn_rings t (proj1 Ht) _ _ Hr0)) as Hok. split; [split; [|exact (proj2 Ht)]|split].
      - destruct Ht as ([P Q Ge Ri Pa By Co] & _). constructor; cbn; eauto.
        + intros p0 l1 H. rewrite lookup_insert_is_Some'. right. eapply Ge; eassumption.
        + intros l1 r'. destruct (decide (l0 = l1)) as [<-|Hn].
          * rewrite lookup_insert. intros [= <-]. exact Hok.
          * rewrite lookup_insert_ne by exact Hn. apply Ri.
      - constructor; cbn; eauto. intros l1 H. rewrite lookup_insert_is_Some'. right. exact H.
      - intros l1 _ H. exact H. }
    destruct Hr as (H1 & H2). pose proof (O l s1 (si_ok _ _ Hs) H1) as (O1 & O1' & _).
    constructor; [exact O1'|intros t Ht Hg; apply (O l' t Ht); rewrite (sm_geo _ _ _ _ _ (proj2 Hg)); exact H2|].
    intros t Ht Hg. pose proof (sim_guar _ _ _ Hs Hg) as [Ok P V D R Q J C S].
    assert (H2t : st_geo t !! q = Some l') by (rewrite (sm_geo _ _ _ _ _ (proj2 Hg)); exact H2).
    assert (E : ringAt l' t = ringAt l s1).
    { unfold ringOf in R. rewrite H2t, H1 in R. unfold ringAt. rewrite R. reflexivity. }
    pose proof (O l' t Ht H2t) as (O2 & _). cbv beta in *. rewrite E in O2 |- *. apply IH; [| |exact O2|].
    + destruct (sn_geo s1 (proj1 Ok) _ _ H1) as (r & Hr0). unfold ringAt. rewrite Hr0. exact (sn_rings s1 (proj1 Ok) _ _ Hr0).
    + constructor; auto. unfold ringOf. cbn. rewrite H1, H2t, !lookup_insert. reflexivity.
    + split; [exact H1|exact H2t].
Qed.
Lemma alike_write l l' v : alike (ringWrite l v) (ringWrite l' v).
Proof.
  assert (Id : forall r : ring devgeo, rok 100 r -> rok 100 r) by auto.
  unfold ringWrite, loadWriter, rd1. cbn. constructor; [exact Id|]. intros r ((Hs & Hl & Hr & Hw) & Hm). cbn. constructor.
  { intros u (Hu & Hum). destruct (inRange _ _) eqn:Ei; [|split; assumption].
    split; [|exact Hum]. apply inRange_iff in Ei. apply ok_set_slots; [exact Hu|]. destruct Hu as (U1 & U2 & U3 & U4). lia. }
  intros u (Hu & Hum). destruct (inRange _ _); cbn; [|constructor]. constructor; [exact Id|]. intros x (_ & Hx). cbn. constructor.
  { intros y (Hy & Hym). split; [|exact Hym]. apply ok_set_writer; [exact Hy|]. rewrite Hym, Hx. apply Z.rem_bound_pos; lia. }
  intros y _. constructor.
Qed.
Lemma alike_latest l l' : alike (ringLatest l) (ringLatest l').
Proof.
  assert (Id : forall r : ring devgeo, rok 100 r -> rok 100 r) by auto.
  unfold ringLatest, loadWriter, rd1. cbn. constructor; [exact Id|]. intros r _. cbn.
  destruct (_ =? _)%Z; [constructor|]. constructor; [exact Id|]. intros r1 _. cbn. constructor; [exact Id|].
  intros r2 _. cbn. constructor; [exact Id|]. intros r3 _. destruct (inRange _ _); constructor.
Qed.

(** ** The handlers *)
Tactic Notation "bd" uconstr(L) := eapply par_bind; [apply L|assumption|].
Tactic Notation "nx" ident(t) ident(u) ident(a) ident(g) ident(s) ident(i) ident(h) :=
  intros t u a ? g s i (<- & h).
Lemma par_0002 s1 s2 inc out : sim s1 s2 -> iok s2 -> h_phone (m_hdr inc) = q -> par (both any) s1 (process0002 inc out) s2 (process0002 inc out).
Proof.
  intros Hs Hi Hq. unfold process0002. rewrite Hq. bd par_byPhone; [exact Hs|]. nx t u d g1 k1 i1 h1.
  destruct d as [l|]; [|apply par_fail; exact k1]. bd par_getNow; [exact k1|]. nx t2 u2 now g2 k2 i2 h2.
  pose proof (qdev_grows _ _ _ h1 g2) as D2.
  bd par_writeDev; [exact k2|exact D2|reflexivity|]. nx t3 u3 x3 g3 k3 i3 h3. pose proof (qdev_grows _ _ _ D2 g3) as D3.
  bd par_cacheDevice; [exact k3|exact D3|]. nx t4 u4 x4 g4 k4 i4 h4. apply par_same. exact k4.
Qed.
Lemma par_0003 s1 s2 inc out : sim s1 s2 -> iok s2 -> h_phone (m_hdr inc) = q -> par (both any) s1 (process0003 inc out) s2 (process0003 inc out).
Proof.
  intros Hs Hi Hq. unfold process0003. rewrite Hq. bd par_byPhone; [exact Hs|]. nx t u d g1 k1 i1 h1.
  destruct d as [l|]; [|apply par_fail; exact k1]. bd par_dev; [exact k1|exact h1|]. nx t2 u2 dv g2 k2 i2 h2. rewrite h2.
  bd par_timerCancel; [exact k2|]. nx t3 u3 x3 g3 k3 i3 h3.
  bd par_delDevice; [exact k3|]. nx t4 u4 x4 g4 k4 i4 h4. apply par_same. exact k4.
Qed.
Lemma par_0102 s1 s2 inc code imei sw out : sim s1 s2 -> iok s2 -> h_phone (m_hdr inc) = q ->
  par (both any) s1 (process0102 inc code imei sw out) s2 (process0102 inc code imei sw out).
Proof.
  intros Hs Hi Hq. unfold process0102. rewrite Hq. bd par_byPhone; [exact Hs|]. nx t u d g1 k1 i1 h1.
  destruct d as [l|]; [|apply par_fail; exact k1]. bd par_dev; [exact k1|exact h1|]. nx t2 u2 dv g2 k2 i2 h2.
  destruct (bool_decide _).
  - pose proof (qdev_grows _ _ _ h1 g2) as D2.
    bd par_writeDev; [exact k2|exact D2|reflexivity|]. nx t3 u3 x3 g3 k3 i3 h3. pose proof (qdev_grows _ _ _ D2 g3) as D3.
    bd par_getNow; [exact k3|]. nx t4 u4 now g4 k4 i4 h4. pose proof (qdev_grows _ _ _ D3 g4) as D4.
    bd par_writeDev; [exact k4|exact D4|reflexivity|]. nx t5 u5 x5 g5 k5 i5 h5. pose proof (qdev_grows _ _ _ D4 g5) as D5.
    bd par_writeDev; [exact k5|exact D5|reflexivity|]. nx t6 u6 x6 g6 k6 i6 h6. pose proof (qdev_grows _ _ _ D5 g6) as D6.
    bd par_cacheDevice; [exact k6|exact D6|]. nx t7 u7 x7 g7 k7 i7 h7. apply par_same. exact k7.
  - rewrite h2. bd par_timerCancel; [exact k2|]. nx t3 u3 x3 g3 k3 i3 h3.
    bd par_delDevice; [exact k3|]. nx t4 u4 x4 g4 k4 i4 h4. apply par_same. exact k4.
Qed.
Lemma par_0200 e s1 s2 inc m out : sim s1 s2 -> iok s2 -> h_phone (m_hdr inc) = q ->
  par (both any) s1 (process0200 e inc m out) s2 (process0200 e inc m out).
Proof.
  intros Hs Hi Hq. unfold process0200. rewrite Hq. bd par_byPhone; [exact Hs|]. nx t u d g1 k1 i1 h1.
  destruct d as [l|]; [|apply par_fail; exact k1]. bd par_dev; [exact k1|exact h1|]. nx t2 u2 dv g2 k2 i2 h2.
  pose proof (qdev_grows _ _ _ h1 g2) as D2. bd par_getNow; [exact k2|]. nx t3 u3 now g3 k3 i3 h3.
  pose proof (qdev_grows _ _ _ D2 g3) as D3. cbv zeta. eapply (par_bind (both any)); [|exact i3|].
  - destruct (_ =? _); [|apply par_same; exact k3].
    bd par_writeDev; [exact k3|exact D3|reflexivity|]. nx t4 u4 x4 g4 k4 i4 h4. pose proof (qdev_grows _ _ _ D3 g4) as D4.
    bd par_getNow; [exact k4|]. nx t5 u5 now' g5 k5 i5 h5. pose proof (qdev_grows _ _ _ D4 g5) as D5.
    bd par_writeDev; [exact k5|exact D5|reflexivity|]. nx t6 u6 x6 g6 k6 i6 h6. apply par_cacheDevice; [exact k6|].
    exact (qdev_grows _ _ _ D5 g6).
  - nx t4 u4 x4 g4 k4 i4 h4. rewrite h2. bd par_getRing; [exact k4|]. intros t5 u5 l5 l5' g5 k5 i5 h5.
    eapply par_bind; [apply (par_onRing _ _ (alike_write l5 l5' _)); [exact k5|exact i5|exact h5]|exact i5|].
    nx t6 u6 x6 g6 k6 i6 h6. apply par_same. exact k6.
Qed.
Lemma par_8001 s1 s2 inc r : sim s1 s2 -> iok s2 -> h_phone (m_hdr inc) = q -> par (both any) s1 (process8001 inc r) s2 (process8001 inc r).
Proof.
  intros Hs Hi Hq. unfold process8001. destruct (r =? 0); [|apply par_same; exact Hs]. rewrite Hq. bd par_byPhone; [exact Hs|].
  nx t u d g1 k1 i1 h1. destruct d as [l|]; [|apply par_fail; exact k1]. bd par_dev; [exact k1|exact h1|]. nx t2 u2 dv g2 k2 i2 h2.
  pose proof (qdev_grows _ _ _ h1 g2) as D2. destruct (_ =? _); [|apply par_same; exact k2].
  bd par_writeDev; [exact k2|exact D2|reflexivity|]. nx t4 u4 x4 g4 k4 i4 h4. pose proof (qdev_grows _ _ _ D2 g4) as D4.
  bd par_getNow; [exact k4|]. nx t5 u5 now' g5 k5 i5 h5. pose proof (qdev_grows _ _ _ D4 g5) as D5.
  bd par_writeDev; [exact k5|exact D5|reflexivity|]. nx t6 u6 x6 g6 k6 i6 h6. apply par_cacheDevice; [exact k6|].
  exact (qdev_grows _ _ _ D5 g6).
Qed.
Lemma par_8100 s1 s2 inc out : sim s1 s2 -> iok s2 -> h_phone (m_hdr inc) = q -> par (both any) s1 (process8100 inc out) s2 (process8100 inc out).
Proof.
  intros Hs Hi Hq. unfold process8100. rewrite Hq. bd par_byPhone; [exact Hs|]. nx t u d g1 k1 i1 h1.
  destruct d as [l|]; [|apply par_fail; exact k1]. bd par_dev; [exact k1|exact h1|]. nx t2 u2 dv g2 k2 i2 h2. apply par_same. exact k2.
Qed.
Lemma par_8103 s1 s2 inc ps out : sim s1 s2 -> iok s2 -> h_phone (m_hdr inc) = q -> (forall d, ps = Some d -> dp_phone d = q) ->
  par (both any) s1 (process8103 inc ps out) s2 (process8103 inc ps out).
Proof.
  intros Hs Hi Hq Hp. unfold process8103. rewrite Hq. bd par_getParams; [exact Hs|]. nx t u c g1 k1 i1 h1.
  destruct ps as [d|]; [|apply par_panic; exact k1].
  bd par_params; [exact k1|destruct c as [old|]; [exact h1|apply Hp; reflexivity]|]. nx t2 u2 x2 g2 k2 i2 h2. apply par_same. exact k2.
Qed.
Lemma par_8104 e s1 s2 out : sim s1 s2 -> iok s2 -> h_phone (m_hdr out) = q -> par (both any) s1 (process8104 e out) s2 (process8104 e out).
Proof.
  intros Hs Hi Hq. unfold process8104. rewrite Hq. bd par_getParams; [exact Hs|]. nx t u c g1 k1 i1 h1.
  destruct c as [d|]; [apply par_same; exact k1|]. bd par_lift; [exact k1|]. nx t2 u2 d g2 k2 i2 h2.
  bd par_params; [exact k2|exact (paramsDecode_phone _ _ _ _ _ h2)|]. nx t3 u3 x3 g3 k3 i3 h3. apply par_same. exact k3.
Qed.
Lemma par_process e s1 s2 sl p : sim s1 s2 -> iok s2 -> h_phone (pk_hdr p) = q -> h_id (pk_hdr p) <> 0x0100 ->
  (fragment (pk_hdr p) = true -> pk_segdone p = true) -> par (both any) s1 (process e sl p) s2 (process e sl p).
Proof.
  intros Hs Hi Hq Hid Hf. unfold process. destruct (lookupN _ _) as [[ik ok]|] eqn:El; [|apply par_fail; exact Hs].
  destruct (isFragmented (pk_hdr p) && negb (pk_segdone p)) eqn:Ef.
  { apply andb_true_iff in Ef. destruct Ef as (E1 & E2). rewrite (Hf E1) in E2. discriminate. }
  bd par_getNow; [exact Hs|]. nx t u now g1 k1 i1 h1. bd par_lift; [exact k1|]. nx t2 u2 inc g2 k2 i2 h2.
  pose proof (msgDecode_ok _ _ _ _ _ h2) as (Hh & Hk). rewrite <- Hh in Hq. destruct ok as [k|].
  - bd par_getNow; [exact k2|]. nx t3 u3 now3 g3 k3 i3 h3. bd par_lift; [exact k3|]. nx t4 u4 o g4 k4 i4 h4.
    destruct o as [out|]; [|apply par_same; exact k4].
    eapply (par_bind (both any)); [|exact i4|nx t5 u5 o5 g5 k5 i5 h5; apply par_same; exact k5].
    destruct (m_body inc) eqn:Eb; try (apply par_same; exact k4).
    + apply par_0002; assumption.
    + apply par_0003; assumption.
    + exfalso. apply Hid. cbn in Hk. subst ik. eapply table_0100; exact El.
    + apply par_0102; assumption.
    + apply par_0200; assumption.
    + apply par_8100; assumption.
    + apply par_8103; [assumption..|]. intros d ->. cbn in Hk. subst ik.
      destruct (msgDecode_8103 _ _ _ _ cnt (Some d) h2 Eb) as (d' & [= <-] & ->). rewrite <- Hh. exact Hq.
    + apply par_8104; [assumption..|]. rewrite (genOutgoing_phone _ _ _ _ h4). exact Hq.
  - destruct (m_body inc); try (apply par_same; exact k2). eapply (par_bind (both any)); [apply par_8001; assumption|exact i2|].
    nx t3 u3 x3 g3 k3 i3 h3. apply par_same. exact k3.
Qed.
Lemma par_turnOffline s1 s2 l : sim s1 s2 -> iok s2 -> qdev s1 l -> par (both any) s1 (shouldTurnOffline l) s2 (shouldTurnOffline l).
Proof.
  intros Hs Hi D. unfold shouldTurnOffline. bd par_getNow; [exact Hs|]. nx t2 u2 now g2 k2 i2 h2. pose proof (qdev_grows _ _ _ D g2) as D2.
  bd par_dev; [exact k2|exact D2|]. nx t3 u3 dv g3 k3 i3 h3. destruct (d_status dv =? Offline); [apply par_same; exact k3|].
  bd par_dev; [exact k3|exact (qdev_grows _ _ _ D2 g3)|]. nx t4 u4 dv4 g4 k4 i4 h4. apply par_same. exact k4.
Qed.
Lemma par_clear s1 s2 l : sim s1 s2 -> iok s2 -> qdev s1 l -> par (both any) s1 (shouldClear l) s2 (shouldClear l).
Proof.
  intros Hs Hi D. unfold shouldClear. bd par_getNow; [exact Hs|]. nx t2 u2 now g2 k2 i2 h2. pose proof (qdev_grows _ _ _ D g2) as D2.
  bd par_dev; [exact k2|exact D2|]. nx t3 u3 dv g3 k3 i3 h3. destruct (d_status dv =? Offline); [|apply par_same; exact k3].
  bd par_dev; [exact k3|exact (qdev_grows _ _ _ D2 g3)|]. nx t4 u4 dv4 g4 k4 i4 h4. apply par_same. exact k4.
Qed.
Lemma par_tick s1 s2 : sim s1 s2 -> iok s2 -> par (both any) s1 (checkKeepalive q) s2 (checkKeepalive q).
Proof.
  intros Hs Hi. unfold checkKeepalive. bd par_byPhone; [exact Hs|]. nx t u d g1 k1 i1 h1. destruct d as [l|].
  2:{ bd par_timerCancel; [exact k1|]. nx t2 u2 x2 g2 k2 i2 h2. apply par_panic. exact k2. }
  eapply (par_bind (both any)); [apply par_turnOffline; assumption|assumption|]. nx t3 u3 b g3 k3 i3 h3. pose proof (qdev_grows _ _ _ h1 g3) as D3. destruct b.
  { bd par_writeDev; [exact k3|exact D3|reflexivity|]. nx t4 u4 x4 g4 k4 i4 h4. apply par_cacheDevice; [exact k4|].
    exact (qdev_grows _ _ _ D3 g4). }
  eapply (par_bind (both any)); [apply par_clear; assumption|assumption|]. nx t4 u4 b4 g4 k4 i4 h4. pose proof (qdev_grows _ _ _ D3 g4) as D4.
  destruct b4; [|apply par_same; exact k4].
  bd par_dev; [exact k4|exact D4|]. nx t5 u5 dv5 g5 k5 i5 h5.
  bd par_connClose; [exact k5|]. nx t6 u6 x6 g6 k6 i6 h6. bd par_delDevice; [exact k6|]. nx t7 u7 x7 g7 k7 i7 h7.
  bd par_delGeo; [exact k7|]. nx t8 u8 x8 g8 k8 i8 h8. apply par_timerCancel. exact k8.
Qed.
Lemma par_geo s1 s2 : sim s1 s2 -> iok s2 -> par (both any) s1 (apiGeo q) s2 (apiGeo q).
Proof.
  intros Hs Hi. unfold apiGeo. bd par_byPhone; [exact Hs|]. nx t u d g1 k1 i1 h1. destruct d as [l|]; [|apply par_same; exact k1].
  bd par_dev; [exact k1|exact h1|]. nx t2 u2 dv g2 k2 i2 h2. eapply (par_bind (both any)); [|exact i2|].
  { unfold getGeoLatestByPhone. bd par_getRing; [exact k2|]. intros t3 u3 l3 l3' g3 k3 i3 h3.
    apply (par_onRing _ _ (alike_latest l3 l3')); assumption. }
  nx t3 u3 o g3 k3 i3 h3. destruct o; apply par_same; exact k3.
Qed.

(** ** All schedules *)
Lemma par_psteps {A} F (Q : st -> st -> A -> A -> Prop) (Q' : st -> res A -> Prop) sch : forall p1 s1 p ps s r,
  iok s -> parF F Q s1 p1 s p -> (forall j x, nth_error ps j = Some x -> rsafe iok rely guar Q' s x) ->
  nth_error (fst (psteps (p :: ps) s sch)) 0 = Some (Ret r) ->
  agree Q (snd (run p1 s1)) (snd (psteps (p :: ps) s sch)) (fst (run p1 s1)) r /\ F (snd (run p1 s1)) (snd (psteps (p :: ps) s sch)).
Proof.
  induction sch as [|i t IH]; intros p1 s1 p ps s r Hi Hp Hs; cbn [psteps].
  - cbn. intros [= ->]. inversion Hp as [? ? ? ? Hr|]; subst. destruct (Hr s Hi (guar_refl q pv true s)). auto.
  - destruct i as [|i].
    + unfold pstep. cbn. destruct p as [x|a f k]; [apply IH; assumption|].
      inversion Hp as [|? a1 f1 k1 ? ? ? ? H1 H2 H3]; subst. cbn. destruct (H2 s Hi (guar_refl q pv true s)) as (K1 & K2).
      apply (IH (k1 s1) (f1 s1) (k s)); [exact K1|apply H3; [exact Hi|apply guar_refl]|].
      intros j x Hj. eapply rsafe_mono; [apply rely_trans|apply (Hs j x Hj)|exact K2].
    + pose proof (rsafe_pstep q pv true Q' ps s i Hi Hs) as (K1 & K2 & K3).
      assert (E : pstep (p :: ps) s (Datatypes.S i) = (p :: fst (pstep ps s i), snd (pstep ps s i))).
      { unfold pstep. cbn. destruct (nth_error ps i) as [[x|a f k]|]; reflexivity. }
      rewrite E. apply IH; [exact K1|eapply par_guar; eassumption|exact K3].
Qed.
(** what is stored under [q] *)
Definition shared_run {A} (e : env) (F : st -> st -> Prop) (p : sp A) (s : st) : Prop := forall gs sch r,
  iok s -> Forall (placed s) gs -> Forall (avoids e q) gs -> (forall w, pv = Some w -> Forall (avoids_plate e w) gs) -> Forall timeless gs ->
  nth_error (fst (beside e p gs s sch)) 0 = Some (Ret r) ->
  r = rmap Some (fst (run p s)) /\ F (snd (run p s)) (snd (beside e p gs s sch)).
Lemma alone {A} (F : st -> st -> Prop) (p : sp A) e s : (forall a b t, F a b -> iok b -> guar b t -> F a t) ->
  (iok s -> parF F (both any) s p s p) -> shared_run e F p s.
Proof.
  intros HF Hp gs sch r Hi Hpl Ha Hav Ht. unfold beside. set (ps := List.map _ gs). intros Hr.
  assert (H0 : parF F (both any) s (x <- p ;; ret (Some x))%prog s (x <- p ;; ret (Some x))%prog).
  { eapply par_bindF; [exact HF|apply Hp; exact Hi|exact Hi|]. intros t u a b _ k iu (<- & _). constructor.
    intros v Hv Hg. split; [eapply HF; eassumption|]. split; [reflexivity|exact Logic.I]. }
  destruct (par_psteps F _ (rpost any) sch _ s _ ps s r Hi H0) as (H1 & H2).
  - intros j x Hj. unfold ps in Hj. rewrite nth_error_map in Hj. destruct (nth_error gs j) as [g|] eqn:E; [|discriminate]. injection Hj as <-.
    apply nth_error_In in E. rewrite List.Forall_forall in Hpl, Ha, Ht.
    eapply is_bind; [exact Hi|apply is_code; [exact Hi|auto..| |]|].
    + intros w Ew. pose proof (Hav w Ew) as H. rewrite List.Forall_forall in H. auto.
    + intros _ t ->. exact (Ht _ E).
    + intros t u _ _ _. apply is_any.
  - exact Hr.
  - assert (Er : run (x <- p ;; ret (Some x))%prog s = (rmap Some (fst (run p s)), snd (run p s))).
    { rewrite run_bind. destruct (run p s) as [[a|x|] s']; reflexivity. }
    rewrite Er in *. cbn [fst snd] in *. split; [|exact H2].
    unfold agree in H1. destruct (fst (run p s)) as [a|x|], r as [b|y|]; cbn in *; try contradiction; [|congruence|reflexivity].
    destruct H1 as (<- & _). reflexivity.
Qed.
Lemma sim_untouched s1 s2 : sim s1 s2 -> untouched q s1 s2.
Proof.
  intros [K1 P V D R Q J C S]. split; [|auto]. unfold devAt. rewrite P. destruct (st_byPhone s1 !! q) as [l|] eqn:E; [|reflexivity].
  destruct (sn_phone _ (proj1 K1) _ _ E) as (d & Hd & Hph). rewrite Hd. exact (D _ _ Hd Hph).
Qed.
End Solo.
Lemma alone_none {A} q (p : sp A) e :
  (forall s1 s2, sim q None s1 s2 -> iok q None s2 -> parF q None (sim q None) (both any) s1 p s2 p) -> undisturbed e q p.
Proof.
  intros Hp gs s sch r Hs Ho Hpl Ha Ht Hr. assert (Hi : iok q None s) by (apply iok_none; assumption).
  destruct (alone q None (sim q None) p e s) with (gs := gs) (sch := sch) (r := r) as (H1 & H2); try assumption.
  - intros a b t H _. apply sim_guar. exact H.
  - intros _. apply Hp; [apply sim_refl; exact Hi|exact Hi].
  - intros w [=].
  - split; [exact H1|]. eapply sim_untouched. exact H2.
Qed.
Lemma handler_alone e sl p : h_id (pk_hdr p) <> 0x0100 -> (fragment (pk_hdr p) = true -> pk_segdone p = true) ->
  undisturbed e (h_phone (pk_hdr p)) (process e sl p).
Proof. intros H1 H2. apply alone_none. intros. apply par_process; auto. Qed.
Lemma tick_alone e q : undisturbed e q (checkKeepalive q).
Proof. apply alone_none. intros. apply par_tick; auto. Qed.
Lemma geo_alone e q : undisturbed e q (apiGeo q).
Proof. apply alone_none. intros. apply par_geo; auto. Qed.
