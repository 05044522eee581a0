(** A registration among goroutines acting for other phones and plates does what it does alone *)
From stdpp Require Import gmap.
From Verif Require Import Base HexM TimeM HeaderM ParamsM GeoM MsgM PacketM FrameM ProgM ProgP RingM SpecRing RingP
  StateM ProcM ServerM ConcM SpecCodec SpecState SpecConc StateP ProcP ServerP EffectP ConcP IsoP SoloP.
Local Open Scope N_scope.

Section Reg.
Context (q w : str).
Notation pv := (Some w).
Notation iok := (iok q pv).
Notation guar := (guar q pv true).
Notation rely := (rely q).
Notation sim := (sim q pv).
Notation parF := (parF q pv).
Notation par := (SoloP.parF q pv sim).

Definition simr (s1 s2 : st) : Prop := untouched q s1 s2 /\ devWithPlate s2 w = devWithPlate s1 w.
Lemma simr_guar a b t : simr a b -> iok b -> guar b t -> simr a t.
Proof.
  intros ((U1 & U2 & U3 & U4) & V) (Hs & _ & Hv) (_ & Hg). destruct (same_untouched _ _ _ _ _ Hs Hg) as (T1 & T2 & T3 & T4).
  split; [repeat split; congruence|]. rewrite <- V. unfold devWithPlate. rewrite (sm_plate _ _ _ _ _ Hg w eq_refl).
  destruct (st_byPlate b !! w) as [l|] eqn:E; [|reflexivity]. destruct (sn_plate b Hs _ _ E) as (d & Hd & _). rewrite Hd.
  apply (sm_devs _ _ _ _ _ Hg); [exact Hd|]. apply (proj2 (Hv w eq_refl)). unfold devWithPlate. rewrite E. exact Hd.
Qed.
Lemma sim_simr s1 s2 : sim s1 s2 -> simr s1 s2.
Proof.
  intros H. split; [eapply sim_untouched; exact H|]. destruct H as [(Hs & _ & Hv) _ V D _ _ _ _ _]. unfold devWithPlate.
  rewrite (V w eq_refl). destruct (st_byPlate s1 !! w) as [l|] eqn:E; [|reflexivity]. destruct (sn_plate s1 Hs _ _ E) as (d & Hd & _).
  rewrite Hd. apply D; [exact Hd|]. apply (proj2 (Hv w eq_refl)). unfold devWithPlate. rewrite E. exact Hd.
Qed.
Lemma sim_end a b t : sim a b -> iok b -> guar b t -> simr a t.
Proof. intros H _ Hg. apply sim_simr. eapply sim_guar; eassumption. Qed.

(** both runs have made their record, each its own *)
Record mid (d : device) (l1 l2 : nat) (s1 s2 : st) : Prop := {
  md_ok : iok s1;
  md_1 : st_devs s1 !! l1 = Some d;
  md_2 : st_devs s2 !! l2 = Some d;
  md_ring : ringOf s2 q = ringOf s1 q;
  md_params : st_params s2 !! q = st_params s1 !! q;
  md_jobs : base.filter (fun p => p = q) (st_jobs s2) = base.filter (fun p => p = q) (st_jobs s1) }.
Lemma mid_guar d l1 l2 s1 s2 t : d_phone d = q -> mid d l1 l2 s1 s2 -> guar s2 t -> mid d l1 l2 s1 t.
Proof.
  intros Hd [O A B R P J] (_ & [P' V' D' G' R' Q' J' C']). constructor; auto; congruence.
Qed.
Lemma own_alloc t d : iok t -> own q pv (fun s => set_devs (<[fresh (dom (st_devs s)) := d]>) s) t.
Proof. intros Ht. destruct (sane_alloc t d (proj1 Ht)) as (H1 & H2). apply own_rest; auto. Qed.
Lemma own_add t : iok t -> own q pv (set_jobs (fun js => js ++ [q])) t.
Proof.
  intros Ht. apply own_rest; auto.
  - destruct Ht as ([P Q Ge Ri Pa By Co] & _). constructor; cbn; eauto.
  - constructor; cbn; eauto.
Qed.
Lemma par_enter {A} d l1 l2 (o : A) a1 a2 : mid d l1 l2 a1 a2 -> iok a2 -> d_phone d = q -> d_plate d = w ->
  parF simr (both any) a1 (cacheDevice l1 ;;; timerRegister q ;;; ret o)%prog
                       a2 (cacheDevice l2 ;;; timerRegister q ;;; ret o)%prog.
Proof.
  intros M Hi Hp Hw. unfold cacheDevice, timerRegister, getDeviceByPhone, timerAdd, rd1, wr1. cbn [pbind pbindR ret].
  assert (Q1 : qdev q a1 l1) by (exists d; split; [apply (md_1 _ _ _ _ _ M)|exact Hp]).
  destruct (own_cache q pv a1 l1 (md_ok _ _ _ _ _ M) Q1) as (O1 & O1' & _).
  assert (O2 : forall t, iok t -> guar a2 t -> own q pv (fun s => match st_devs s !! l2 with
    | Some d => set_index (<[d_plate d := l2]>) (<[d_phone d := l2]>) s | None => s end) t).
  { intros t Ht Hg. apply own_cache; [exact Ht|]. exists d. split; [apply (md_2 _ _ _ _ _ (mid_guar _ _ _ _ _ _ Hp M Hg))|exact Hp]. }
  constructor; [exact O1'|exact O2|]. intros t Ht Hg. pose proof (mid_guar _ _ _ _ _ _ Hp M Hg) as [_ D1 D2 R P J].
  pose proof (proj1 (O2 t Ht Hg)) as Ht2. cbv beta in *. rewrite D1 in O1 |- *. rewrite D2 in Ht2 |- *.
  rewrite Hp, Hw in *. set (b1 := set_index _ _ a1) in *. set (b2 := set_index _ _ t) in *.
  assert (M2 : mid d l1 l2 b1 b2) by (constructor; assumption).
  assert (E1 : st_byPhone b1 !! q = Some l1) by (apply lookup_insert).
  assert (E2 : st_byPhone b2 !! q = Some l2) by (apply lookup_insert).
  assert (F1 : st_byPlate b1 !! w = Some l1) by (apply lookup_insert).
  assert (F2 : st_byPlate b2 !! w = Some l2) by (apply lookup_insert).
  clearbody b1 b2. clear M Hi Q1 O1 O1' O2 D1 D2 R P J Ht Hg t a1 a2.
  constructor; [apply grows_refl|intros t Ht _; split; [exact Ht|apply rely_refl]|].
  intros t Ht Hg. pose proof (mid_guar _ _ _ _ _ _ Hp M2 Hg) as M3.
  assert (E3 : st_byPhone t !! q = Some l2) by (rewrite (sm_ptr _ _ _ _ _ (proj2 Hg)); exact E2).
  assert (F3 : st_byPlate t !! w = Some l2) by (rewrite (sm_plate _ _ _ _ _ (proj2 Hg) w eq_refl); exact F2).
  rewrite E1, E3. cbn [pbind pbindR ret]. clear M2 E2 F2 Hg b2 Ht2. rename t into b2.
  pose proof (own_add b1 (md_ok _ _ _ _ _ M3)) as (O1 & O1' & _).
  constructor; [exact O1'|intros u Hu _; apply own_add; exact Hu|].
  intros u Hu Hg. destruct (mid_guar _ _ _ _ _ _ Hp M3 Hg) as [_ D1 D2 R P J].
  assert (E4 : st_byPhone u !! q = Some l2) by (rewrite (sm_ptr _ _ _ _ _ (proj2 Hg)); exact E3).
  assert (F4 : st_byPlate u !! w = Some l2) by (rewrite (sm_plate _ _ _ _ _ (proj2 Hg) w eq_refl); exact F3).
  pose proof (proj1 (own_add u Hu)) as Hu2.
  constructor. intros v Hv Hgv. split; [|split; [reflexivity|exact Logic.I]].
  eapply simr_guar; [|exact Hu2|exact Hgv]. split; [split; [|split; [|split]]|].
  - unfold devAt. cbn. rewrite E1, E4, D1, D2. reflexivity.
  - exact R.
  - exact P.
  - cbn. rewrite !list.filter_app, J. reflexivity.
  - unfold devWithPlate. cbn. rewrite F1, F4, D1, D2. reflexivity.
Qed.
Lemma par_enrol {A} d (o : A) s1 s2 : sim s1 s2 -> iok s2 -> d_phone d = q -> d_plate d = w ->
  parF simr (both any) s1 (l <- allocDev d ;; cacheDevice l ;;; timerRegister q ;;; ret o)%prog
                       s2 (l <- allocDev d ;; cacheDevice l ;;; timerRegister q ;;; ret o)%prog.
Proof.
  intros Hs Hi Hp Hw. unfold allocDev. cbn [pbind pbindR ret].
  pose proof (own_alloc s1 d (si_ok _ _ _ _ Hs)) as (A1 & A1' & _).
  constructor; [exact A1'|intros t Ht _; apply own_alloc; exact Ht|].
  intros t Ht Hg. pose proof (sim_guar _ _ _ _ _ Hs Hg) as [Ok P V D R Q J C S].
  apply (par_enter d); [|exact (proj1 (own_alloc t d Ht))|exact Hp|exact Hw].
  constructor; auto; cbn; rewrite lookup_insert; reflexivity.
Qed.
Definition sess2 : st -> st -> session -> session -> Prop := fun _ _ x y => ss_id y = ss_id x /\ ss_conn y = ss_conn x.
Lemma par_readSess s1 s2 sl : sim s1 s2 -> is_Some (st_sess s1 !! sl) -> par sess2 s1 (readSess sl) s2 (readSess sl).
Proof.
  intros Hs (x & Hx). unfold readSess. constructor; [apply grows_refl|intros t Ht _; split; [exact Ht|apply rely_refl]|].
  intros t Ht Hg. pose proof (sim_guar _ _ _ _ _ Hs Hg) as Hst. destruct (si_sess _ _ _ _ Hst _ _ Hx) as (y & Hy & E).
  rewrite Hx, Hy. apply par_done; [intros ? ? ? ? ? H _; exact H|exact Hst|exact E].
Qed.
Lemma par_has s1 s2 a (g : st -> option nat) : sim s1 s2 -> (forall t, iok t -> sim s1 t -> g t = g s1) ->
  par (both any) s1 (d <- rd1 a g ;; ret (match d with Some _ => true | None => false end))%prog
                 s2 (d <- rd1 a g ;; ret (match d with Some _ => true | None => false end))%prog.
Proof.
  intros Hs Hg. constructor; [apply grows_refl|intros t Ht _; split; [exact Ht|apply rely_refl]|].
  intros t Ht Hr. pose proof (sim_guar _ _ _ _ _ Hs Hr) as Hst. rewrite (Hg t Ht Hst). apply par_same. exact Hst.
Qed.
Lemma par_0100 s1 s2 sl inc r out : sim s1 s2 -> iok s2 -> is_Some (st_sess s1 !! sl) -> h_phone (m_hdr inc) = q -> r_plate r = w ->
  parF simr (both any) s1 (process0100 sl inc r out) s2 (process0100 sl inc r out).
Proof.
  intros Hs Hi Hx Hq Hw. unfold process0100.
  assert (Done : forall A s1 s2 (x : A), sim s1 s2 -> iok s2 -> parF simr (both any) s1 (ret x) s2 (ret x)).
  { intros A a b x H Hb. constructor. intros t Ht Hg. split; [eapply sim_end; eassumption|]. split; [reflexivity|exact Logic.I]. }
  eapply par_bindF; [exact sim_end|apply par_has; [exact Hs|]; intros t _ Ht; rewrite Hw; apply (si_plate _ _ _ _ Ht w eq_refl)|exact Hi|].
  intros t1 t2 b ? g1 k1 i1 (<- & _). destruct b; [apply Done; assumption|].
  eapply par_bindF; [exact sim_end|apply par_has; [exact k1|]; intros t _ Ht; rewrite Hq; apply (si_ptr _ _ _ _ Ht)|exact i1|].
  intros u1 u2 b ? g2 k2 i2 (<- & _). destruct b; [apply Done; assumption|].
  assert (Hx2 : is_Some (st_sess u1 !! sl)).
  { destruct Hx as (x & Hx). destruct (gr_sess _ _ g1 _ _ Hx) as (y & Hy & _). destruct (gr_sess _ _ g2 _ _ Hy) as (z & Hz & _). exists z. exact Hz. }
  eapply par_bindF; [exact sim_end|apply par_readSess; [exact k2|exact Hx2]|exact i2|].
  intros v1 v2 x y g3 k3 i3 (E1 & E2).
  eapply par_bindF; [exact sim_end|apply par_getNow; exact k3|exact i3|].
  intros x1 x2 now ? g4 k4 i4 (<- & _). cbv zeta.
  assert (Ed : newDevice (m_hdr inc) r y now = newDevice (m_hdr inc) r x now) by (unfold newDevice; rewrite E1, E2; reflexivity).
  rewrite Ed. assert (Ep : d_phone (newDevice (m_hdr inc) r x now) = q) by exact Hq. rewrite Ep.
  apply par_enrol; [exact k4|exact i4|exact Ep|exact Hw].
Qed.
Lemma par_register e s1 s2 sl p : sim s1 s2 -> iok s2 -> is_Some (st_sess s1 !! sl) -> h_phone (pk_hdr p) = q -> h_id (pk_hdr p) = 0x0100 ->
  (fragment (pk_hdr p) = true -> pk_segdone p = true) ->
  (forall now m r, msgDecode (e_o e) now K0100 p = Ok m -> m_body m = B0100 r -> r_plate r = w) ->
  parF simr (both any) s1 (process e sl p) s2 (process e sl p).
Proof.
  intros Hs Hi Hx Hq Hid Hf Hw. unfold process. rewrite Hid.
  change (lookupN optionTable 0x0100) with (Some (K0100, Some K8100)). cbv iota beta.
  destruct (isFragmented (pk_hdr p) && negb (pk_segdone p)) eqn:Ef.
  { apply andb_true_iff in Ef. destruct Ef as (E1 & E2). rewrite (Hf E1) in E2. discriminate. }
  assert (Done : forall A s1 s2 (x : A), sim s1 s2 -> iok s2 -> parF simr (both any) s1 (ret x) s2 (ret x)).
  { intros A a b x H Hb. constructor. intros t Ht Hg. split; [eapply sim_end; eassumption|]. split; [reflexivity|exact Logic.I]. }
  eapply par_bindF; [exact sim_end|apply par_getNow; exact Hs|exact Hi|]. intros t1 t2 now ? g1 k1 i1 (<- & _).
  eapply par_bindF; [exact sim_end|apply par_lift; exact k1|exact i1|]. intros u1 u2 inc ? g2 k2 i2 (<- & h2).
  pose proof (msgDecode_ok _ _ _ _ _ h2) as (Hh & Hk). rewrite <- Hh in Hq.
  eapply par_bindF; [exact sim_end|apply par_getNow; exact k2|exact i2|]. intros v1 v2 now2 ? g3 k3 i3 (<- & _).
  eapply par_bindF; [exact sim_end|apply par_lift; exact k3|exact i3|]. intros x1 x2 o ? g4 k4 i4 (<- & h4).
  destruct o as [out|]; [|apply Done; assumption].
  destruct (m_body inc) eqn:Eb; try discriminate Hk.
  eapply (par_bindF q pv simr); [exact simr_guar| |exact i4|].
  - apply par_0100; [exact k4|exact i4| |exact Hq|exact (Hw _ _ _ h2 Eb)].
    assert (G : grows s1 x1) by (eauto using grows_trans). destruct Hx as (x & Hx). destruct (gr_sess _ _ G _ _ Hx) as (y & Hy & _). exists y. exact Hy.
  - intros y1 y2 a ? g5 k5 i5 (<- & _). constructor. intros t Ht Hg. split; [eapply simr_guar; eassumption|]. split; [reflexivity|exact Logic.I].
Qed.
End Reg.
Lemma registration_alone e sl p w : h_id (pk_hdr p) = 0x0100 -> (fragment (pk_hdr p) = true -> pk_segdone p = true) ->
  (forall now m r, msgDecode (e_o e) now K0100 p = Ok m -> m_body m = B0100 r -> r_plate r = w) ->
  registers_alone e (h_phone (pk_hdr p)) w sl (process e sl p).
Proof.
  intros Hid Hf Hw gs s sch r Hs Ho Hsp Hx Hpl Ha Hav Ht Hr. set (q := h_phone (pk_hdr p)) in *.
  assert (Hi : iok q (Some w) s).
  { split; [exact Hs|]. split; [exact Ho|]. intros w' [= <-]. exact Hsp. }
  destruct (alone q (Some w) (simr q w) (process e sl p) e s) with (gs := gs) (sch := sch) (r := r) as (H1 & H2); try assumption.
  - exact (simr_guar q w).
  - intros _. apply par_register; auto. apply sim_refl. exact Hi.
  - intros w' [= <-]. exact Hav.
  - split; [exact H1|]. exact H2.
Qed.
Lemma spare_consistent q w s : consistent s ->
  (devWithPlate s w = None \/ exists d, devAt s q = Some d /\ d_plate d = w) -> plate_spare q w s.
Proof.
  intros C H.
  assert (K : forall ph d, devAt s ph = Some d -> devWithPlate s (d_plate d) = Some d /\ d_phone d = ph).
  { intros ph d. unfold devAt, devWithPlate. destruct (st_byPhone s !! ph) as [l|] eqn:E; [|discriminate]. intros Hd.
    destruct (cs_phone _ C _ _ E) as (d' & Hd' & Hp & Hb). rewrite Hd in Hd'. injection Hd' as <-. rewrite Hb, Hd. auto. }
  split.
  - intros ph d Hn Hd <-. destruct (K _ _ Hd) as (E & Hp). destruct H as [H|(d' & H & Hw)]; [congruence|].
    destruct (K _ _ H) as (E' & Hp'). rewrite Hw, E in E'. congruence.
  - intros d Hd. destruct H as [H|(d' & H & <-)]; [congruence|]. destruct (K _ _ H) as (E' & Hp'). congruence.
Qed.
