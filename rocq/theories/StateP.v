(** What each handler does when it runs alone in a consistent state *)
From stdpp Require Import gmap.
From Verif Require Import Base HexM TimeM HeaderM ParamsM GeoM MsgM PacketM ProgM ProgP RingM SpecRing RingP
  StateM ProcM ServerM SpecState.
Local Open Scope N_scope.

(** * Zooming into a part that exists *)
Lemma run_zoom_on {S T A} (P : S -> Prop) (get : S -> T) (put : T -> S -> S) (p : prog T A) :
  (forall t u, P u -> P (put t u)) ->
  (forall t u, P u -> get (put t u) = t) ->
  (forall t t' u, P u -> put t (put t' u) = put t u) ->
  (forall u, P u -> put (get u) u = u) ->
  forall s, P s -> run (zoom get put p) s = (fst (run p (get s)), put (snd (run p (get s))) s).
Proof.
  intros HP Hgp Hpp Hpg. induction p as [r|a f k IH]; intros s Hs; cbn.
  - rewrite Hpg by exact Hs. reflexivity.
  - rewrite IH by (apply HP; exact Hs). rewrite Hgp, Hpp by exact Hs. reflexivity.
Qed.

Lemma st_eta s : s = mkSt (st_devs s) (st_byPlate s) (st_byPhone s) (st_rings s) (st_geo s)
  (st_params s) (st_segs s) (st_sess s) (st_byID s) (st_jobs s) (st_conns s) (st_clock s).
Proof. destruct s. reflexivity. Qed.

Lemma run_onRing {A} l (p : prog (ring devgeo) A) s r : st_rings s !! l = Some r ->
  run (onRing l p) s = (fst (run p r), set_rings (<[l := snd (run p r)]>) s).
Proof.
  intros H. unfold onRing.
  rewrite (run_zoom_on (fun u => is_Some (st_rings u !! l))).
  - unfold ringAt. rewrite H. reflexivity.
  - intros t u _. cbn. rewrite lookup_insert. eauto.
  - intros t u _. unfold ringAt. cbn. rewrite lookup_insert. reflexivity.
  - intros t t' u _. unfold set_rings. cbn. rewrite insert_insert. reflexivity.
  - intros u (x & Hx). unfold ringAt, set_rings. rewrite Hx. cbn. rewrite insert_id by exact Hx.
    symmetry. apply st_eta.
  - eauto.
Qed.

Lemma run_nextSerial l s x : st_sess s !! l = Some x -> ss_sn x <= 65535 ->
  run (nextSerial l) s =
  (Ok ((ss_sn x + 1) mod 65536),
   set_sess (<[l := mkSession (ss_id x) (ss_conn x) ((ss_sn x + 1) mod 65536)]>) s).
Proof.
  intros H Hn. unfold nextSerial.
  rewrite (run_zoom_on (fun u => is_Some (st_sess u !! l))).
  - unfold serialAt. rewrite H. cbn [fmap option_fmap option_map default from_option id].
    rewrite run_serial by exact Hn. cbn [fst snd]. f_equal.
    unfold set_sess. f_equal. apply map_eq. intros i. destruct (decide (i = l)) as [->|Hi].
    + rewrite lookup_alter, lookup_insert, H. reflexivity.
    + rewrite lookup_alter_ne, lookup_insert_ne by congruence. reflexivity.
  - intros t u (y & Hy). cbn. rewrite lookup_alter, Hy. cbn. eauto.
  - intros t u (y & Hy). unfold serialAt. cbn. rewrite lookup_alter, Hy. reflexivity.
  - intros t t' u _. unfold set_sess. cbn. f_equal. rewrite <- alter_compose. reflexivity.
  - intros u (y & Hy). unfold serialAt, set_sess. rewrite Hy. cbn.
    rewrite (st_eta u) at 13. f_equal. apply map_eq. intros i. destruct (decide (i = l)) as [->|Hi].
    + rewrite lookup_alter, Hy. cbn. destruct y. reflexivity.
    + rewrite lookup_alter_ne by congruence. reflexivity.
  - eauto.
Qed.

Lemma holds_ok {A} n (ws : list A) r : (0 < n)%nat -> holds n ws r -> ring_ok r.
Proof.
  intros Hn (H1 & H2 & H3 & H4). apply (rinv_ok n ws 0). repeat split; auto; try apply H2.
  rewrite Nat.mod_0_l by lia. exact H4.
Qed.
Lemma holds_rinv {A} n (ws : list A) r : (0 < n)%nat -> holds n ws r <-> rinv n ws 0 r.
Proof.
  intros Hn. unfold holds, rinv. rewrite Nat.mod_0_l by lia. tauto.
Qed.
Lemma holds_new {A} : holds 100 [] (newRing ringCapacity : ring A).
Proof. apply (holds_rinv 100); [lia|]. apply (rinv_new 100). lia. Qed.
Lemma holds_write {A} n (ws : list A) r l v : (0 < n)%nat -> holds n ws r ->
  fst (run (ringWrite l (Some v)) r) = Ok tt /\ holds n (ws ++ [v]) (snd (run (ringWrite l (Some v)) r)).
Proof.
  intros Hn H. apply holds_rinv in H; [|exact Hn].
  destruct (rinv_write n ws 0 r l v H) as (r' & E & H'). rewrite E. split; [reflexivity|].
  apply holds_rinv; assumption.
Qed.

(** * Consistency of the index *)
Section Consistent.
Context (s : st) (C : consistent s).

Lemma dev_of_phone p l : st_byPhone s !! p = Some l ->
  exists d, st_devs s !! l = Some d /\ d_phone d = p /\ st_byPlate s !! d_plate d = Some l /\ devAt s p = Some d
            /\ devWithPlate s (d_plate d) = Some d.
Proof.
  intros H. destruct (cs_phone s C p l H) as (d & H1 & H2 & H3). exists d.
  unfold devAt, devWithPlate. rewrite H, H3. auto.
Qed.
Lemma phone_inj p q l : st_byPhone s !! p = Some l -> st_byPhone s !! q = Some l -> p = q.
Proof.
  intros H1 H2. destruct (cs_phone s C p l H1) as (d & A1 & A2 & _).
  destruct (cs_phone s C q l H2) as (d' & B1 & B2 & _). congruence.
Qed.
Lemma plate_inj p q l : st_byPlate s !! p = Some l -> st_byPlate s !! q = Some l -> p = q.
Proof.
  intros H1 H2. destruct (cs_plate s C p l H1) as (d & A1 & A2 & _).
  destruct (cs_plate s C q l H2) as (d' & B1 & B2 & _). congruence.
Qed.
Lemma devAt_None p : devAt s p = None <-> st_byPhone s !! p = None.
Proof.
  unfold devAt. destruct (st_byPhone s !! p) as [l|] eqn:E; [|tauto].
  destruct (cs_phone s C p l E) as (d & H & _). rewrite H. split; discriminate.
Qed.
Lemma devWithPlate_None p : devWithPlate s p = None <-> st_byPlate s !! p = None.
Proof.
  unfold devWithPlate. destruct (st_byPlate s !! p) as [l|] eqn:E; [|tauto].
  destruct (cs_plate s C p l E) as (d & H & _). rewrite H. split; discriminate.
Qed.
Lemma devAt_Some p d : devAt s p = Some d ->
  exists l, st_byPhone s !! p = Some l /\ st_devs s !! l = Some d /\ d_phone d = p
            /\ st_byPlate s !! d_plate d = Some l.
Proof.
  unfold devAt. destruct (st_byPhone s !! p) as [l|] eqn:E; [|discriminate]. intros H.
  exists l. destruct (cs_phone s C p l E) as (d' & H1 & H2 & H3).
  assert (d' = d) by congruence. subst. auto.
Qed.

(** storing a device again under its own keys changes nothing *)
Lemma recache l d : st_devs s !! l = Some d -> st_byPhone s !! d_phone d = Some l ->
  st_byPlate s !! d_plate d = Some l ->
  set_index (<[d_plate d := l]>) (<[d_phone d := l]>) s = s.
Proof.
  intros _ H1 H2. unfold set_index. rewrite !insert_id by assumption. symmetry. apply st_eta.
Qed.

(** changing a device without changing its keys *)
Lemma touch_ok f l d : st_devs s !! l = Some d ->
  d_phone (f d) = d_phone d -> d_plate (f d) = d_plate d -> consistent (set_devs (alter f l) s).
Proof.
  intros Hl Hp Hq. destruct C as [cs_phone0 cs_plate0 cs_jobs3 cs_jobs4 ? ? ? ? ? ?]. constructor; cbn; try assumption.
  - intros p l' H. destruct (cs_phone0 p l' H) as (d' & H1 & H2 & H3).
    destruct (decide (l' = l)) as [->|Hn].
    + exists (f d). rewrite lookup_alter, Hl. cbn. assert (d' = d) by congruence. subst d'.
      rewrite Hp, Hq. auto.
    + exists d'. rewrite lookup_alter_ne by congruence. auto.
  - intros p l' H. destruct (cs_plate0 p l' H) as (d' & H1 & H2 & H3).
    destruct (decide (l' = l)) as [->|Hn].
    + exists (f d). rewrite lookup_alter, Hl. cbn. assert (d' = d) by congruence. subst d'.
      rewrite Hp, Hq. auto.
    + exists d'. rewrite lookup_alter_ne by congruence. auto.
Qed.

Lemma touch_spec f ph l d : st_byPhone s !! ph = Some l -> st_devs s !! l = Some d ->
  devAt (set_devs (alter f l) s) ph = Some (f d)
  /\ devWithPlate (set_devs (alter f l) s) (d_plate d) = Some (f d)
  /\ others_kept ph (d_plate d) s (set_devs (alter f l) s).
Proof.
  intros H Hl. destruct (cs_phone s C ph l H) as (d' & H1 & H2 & H3).
  assert (d' = d) by congruence. subst d'.
  unfold devAt, devWithPlate, others_kept. cbn. rewrite H, H3, lookup_alter, Hl. cbn.
  split; [reflexivity|]. split; [reflexivity|]. split; intros q Hq.
  - unfold devAt. cbn. destruct (st_byPhone s !! q) as [l'|] eqn:E; [|reflexivity].
    rewrite lookup_alter_ne; [reflexivity|]. intros ->. apply Hq. eapply phone_inj; eassumption.
  - unfold devWithPlate. cbn. destruct (st_byPlate s !! q) as [l'|] eqn:E; [|reflexivity].
    rewrite lookup_alter_ne; [reflexivity|]. intros ->. apply Hq. eapply plate_inj; eassumption.
Qed.

(** a new device *)
Definition added (d : device) : st :=
  let l := fresh (dom (st_devs s)) in
  set_jobs (fun js => js ++ [d_phone d])
    (set_index (<[d_plate d := l]>) (<[d_phone d := l]>) (set_devs (<[l := d]>) s)).
Lemma fresh_dev : st_devs s !! fresh (dom (st_devs s)) = None.
Proof. apply not_elem_of_dom. apply is_fresh. Qed.
Lemma index_old p l : st_byPhone s !! p = Some l -> l <> fresh (dom (st_devs s)).
Proof.
  intros H ->. destruct (cs_phone s C p _ H) as (d & H1 & _). rewrite fresh_dev in H1. discriminate.
Qed.
Lemma index_old' p l : st_byPlate s !! p = Some l -> l <> fresh (dom (st_devs s)).
Proof.
  intros H ->. destruct (cs_plate s C p _ H) as (d & H1 & _). rewrite fresh_dev in H1. discriminate.
Qed.
Lemma added_ok d : st_byPhone s !! d_phone d = None -> st_byPlate s !! d_plate d = None ->
  consistent (added d).
Proof.
  intros Hp Hq. pose proof fresh_dev as Hf. pose proof index_old as Ho. pose proof index_old' as Ho'.
  set (l := fresh (dom (st_devs s))) in *. destruct C as [cs_phone0 cs_plate0 cs_jobs3 cs_jobs4 ? ? ? ? ? ?].
  constructor; cbn; fold l; try assumption.
  - intros p l'. destruct (decide (p = d_phone d)) as [->|Hn].
    + rewrite lookup_insert. intros [= <-]. exists d. rewrite !lookup_insert. auto.
    + rewrite lookup_insert_ne by congruence. intros H.
      destruct (cs_phone0 p l' H) as (d' & H1 & H2 & H3). exists d'.
      rewrite lookup_insert_ne by (intros <-; eapply Ho; [exact H|reflexivity]).
      rewrite lookup_insert_ne by (intros E; rewrite <- E in H3; congruence). auto.
  - intros p l'. destruct (decide (p = d_plate d)) as [->|Hn].
    + rewrite lookup_insert. intros [= <-]. exists d. rewrite !lookup_insert. auto.
    + rewrite lookup_insert_ne by congruence. intros H.
      destruct (cs_plate0 p l' H) as (d' & H1 & H2 & H3). exists d'.
      rewrite lookup_insert_ne by (intros <-; eapply Ho'; [exact H|reflexivity]).
      rewrite lookup_insert_ne by (intros E; rewrite <- E in H3; congruence). auto.
  - apply NoDup_app. split; [assumption|]. split; [|apply NoDup_singleton].
    intros x Hx ->%elem_of_list_singleton. apply cs_jobs4 in Hx. rewrite Hp in Hx.
    destruct Hx. discriminate.
  - intros p. rewrite elem_of_app, elem_of_list_singleton, cs_jobs4.
    destruct (decide (p = d_phone d)) as [->|Hn].
    + rewrite lookup_insert. split; eauto.
    + rewrite lookup_insert_ne by congruence. tauto.
Qed.
Lemma added_spec d : st_byPhone s !! d_phone d = None -> st_byPlate s !! d_plate d = None ->
  devAt (added d) (d_phone d) = Some d /\ devWithPlate (added d) (d_plate d) = Some d
  /\ others_kept (d_phone d) (d_plate d) s (added d)
  /\ st_jobs (added d) = st_jobs s ++ [d_phone d] /\ rest_kept s (added d).
Proof.
  intros Hp Hq. pose proof fresh_dev as Hf. pose proof index_old as Ho. pose proof index_old' as Ho'.
  unfold devAt, devWithPlate, others_kept, rest_kept. cbn.
  set (l := fresh (dom (st_devs s))) in *. rewrite !lookup_insert.
  split; [reflexivity|]. split; [reflexivity|]. split; [|tauto]. unfold devAt, devWithPlate. cbn. fold l.
  split; intros q Hn; rewrite lookup_insert_ne by congruence.
  - destruct (st_byPhone s !! q) as [l'|] eqn:E; [|reflexivity].
    rewrite lookup_insert_ne; [reflexivity|]. intros <-. eapply Ho; [exact E|reflexivity].
  - destruct (st_byPlate s !! q) as [l'|] eqn:E; [|reflexivity].
    rewrite lookup_insert_ne; [reflexivity|]. intros <-. eapply Ho'; [exact E|reflexivity].
Qed.

(** a device removed, with its job *)
Definition dropped (d : device) : st :=
  set_index (delete (d_plate d)) (delete (d_phone d))
    (set_jobs (base.filter (fun p => p <> d_phone d)) s).
Lemma dropped_ok d l : st_byPhone s !! d_phone d = Some l -> st_devs s !! l = Some d ->
  consistent (dropped d).
Proof.
  intros Hp Hl. assert (Hq : st_byPlate s !! d_plate d = Some l).
  { destruct (cs_phone s C _ _ Hp) as (d' & H1 & _ & H3). congruence. }
  pose proof phone_inj as Pi. pose proof plate_inj as Qi. destruct C as [cs_phone0 cs_plate0 cs_jobs3 cs_jobs4 ? ? ? ? ? ?].
  constructor; cbn; try assumption.
  - intros p l'. rewrite lookup_delete_Some. intros (Hn & H).
    destruct (cs_phone0 p l' H) as (d' & H1 & H2 & H3). exists d'. split; [exact H1|].
    split; [exact H2|]. rewrite lookup_delete_ne; [exact H3|]. intros E. rewrite <- E in H3.
    apply Hn. rewrite Hq in H3. injection H3 as <-. eapply Pi; eassumption.
  - intros p l'. rewrite lookup_delete_Some. intros (Hn & H).
    destruct (cs_plate0 p l' H) as (d' & H1 & H2 & H3). exists d'. split; [exact H1|].
    split; [exact H2|]. rewrite lookup_delete_ne; [exact H3|]. intros E. rewrite <- E in H3.
    apply Hn. rewrite Hp in H3. injection H3 as <-. eapply Qi; eassumption.
  - apply list.NoDup_filter. assumption.
  - intros p. rewrite elem_of_list_filter, cs_jobs4.
    destruct (decide (p = d_phone d)) as [->|Hn].
    + rewrite lookup_delete. split; [tauto|]. intros (? & ?). discriminate.
    + rewrite lookup_delete_ne by congruence. tauto.
Qed.
Lemma dropped_spec d l : st_byPhone s !! d_phone d = Some l -> st_devs s !! l = Some d ->
  devAt (dropped d) (d_phone d) = None /\ devWithPlate (dropped d) (d_plate d) = None
  /\ others_kept (d_phone d) (d_plate d) s (dropped d)
  /\ (forall p, p ∈ st_jobs (dropped d) <-> p ∈ st_jobs s /\ p <> d_phone d)
  /\ rest_kept s (dropped d).
Proof.
  intros Hp Hl. unfold devAt, devWithPlate, others_kept, rest_kept. cbn.
  rewrite !lookup_delete. split; [reflexivity|]. split; [reflexivity|].
  split; [|split; [intros p; rewrite elem_of_list_filter; tauto|tauto]].
  unfold devAt, devWithPlate. cbn. split; intros q Hn; rewrite lookup_delete_ne by congruence; reflexivity.
Qed.
End Consistent.

(** * The handlers *)
Section Handlers.
Context (e : env) (s : st) (C : consistent s).

Lemma run_0002 inc out l : st_byPhone s !! h_phone (m_hdr inc) = Some l ->
  run (process0002 inc out) s = (Ok out, set_devs (alter (fun d => dset_last d (st_clock s)) l) s).
Proof.
  intros H. destruct (cs_phone s C _ _ H) as (d & H1 & H2 & H3).
  cbn. rewrite H. cbn. rewrite lookup_alter, H1. cbn. f_equal.
  change (d_plate d) with (d_plate (dset_last d (st_clock s))).
  change (d_phone d) with (d_phone (dset_last d (st_clock s))).
  unfold set_index. cbn. rewrite !insert_id by congruence. reflexivity.
Qed.
Lemma run_0002_none inc out : st_byPhone s !! h_phone (m_hdr inc) = None ->
  run (process0002 inc out) s = (Err ErrDeviceNotFound, s).
Proof. intros H. cbn. rewrite H. reflexivity. Qed.

Lemma run_del d l : st_byPhone s !! d_phone d = Some l -> st_devs s !! l = Some d ->
  run (timerCancel (d_phone d) ;;; delDeviceByPhone (d_phone d))%prog s = (Ok tt, dropped s d).
Proof. intros H H1. cbn. rewrite H, H1. reflexivity. Qed.

Lemma run_0003 inc out l d : st_byPhone s !! h_phone (m_hdr inc) = Some l -> st_devs s !! l = Some d ->
  run (process0003 inc out) s = (Ok out, dropped s d).
Proof.
  intros H H1. assert (Hp : d_phone d = h_phone (m_hdr inc)).
  { destruct (cs_phone s C _ _ H) as (d' & ? & ? & _). congruence. }
  cbn. rewrite H. cbn. rewrite H1. cbn. rewrite Hp, H, H1. unfold dropped. rewrite Hp. reflexivity.
Qed.
Lemma run_0003_none inc out : st_byPhone s !! h_phone (m_hdr inc) = None ->
  run (process0003 inc out) s = (Err ErrDeviceNotFound, s).
Proof. intros H. cbn. rewrite H. reflexivity. Qed.

Lemma run_0100 sl x inc r h sn c code : st_sess s !! sl = Some x ->
  run (process0100 sl inc r (mkMsg h (B8100 sn c code))) s =
  match st_byPlate s !! r_plate r, st_byPhone s !! h_phone (m_hdr inc) with
  | Some _, _ => (Ok (mkMsg h (B8100 sn 1 code)), s)
  | None, Some _ => (Ok (mkMsg h (B8100 sn 3 code)), s)
  | None, None =>
      let d := newDevice (m_hdr inc) r x (st_clock s) in
      (Ok (mkMsg h (B8100 sn 0 (genAuthCode d))), added s d)
  end.
Proof.
  intros Hx. cbn. destruct (st_byPlate s !! r_plate r) as [l|] eqn:Eq; [reflexivity|]. cbn.
  destruct (st_byPhone s !! h_phone (m_hdr inc)) as [l|] eqn:Ep; [reflexivity|]. cbn.
  rewrite Hx. cbn. rewrite lookup_insert. cbn. rewrite lookup_insert. reflexivity.
Qed.

Lemma run_0102 inc code imei sw out l d : st_byPhone s !! h_phone (m_hdr inc) = Some l ->
  st_devs s !! l = Some d ->
  run (process0102 inc code imei sw out) s =
  (if bool_decide (code = genAuthCode d) then
     (Ok out, set_devs (alter (fun d => dset_auth (dset_last (dset_status d Online) (st_clock s)) code imei sw) l) s)
   else (Ok (match m_body out with
             | B8001 sn id _ => mkMsg (m_hdr out) (B8001 sn id 1) | _ => out end), dropped s d)).
Proof.
  intros H H1. destruct (cs_phone s C _ _ H) as (d' & H1' & Hp & H3).
  assert (d' = d) by congruence. subst d'.
  cbn. rewrite H. cbn. rewrite H1. cbn. case_bool_decide as Hc; cbn.
  - rewrite !lookup_alter, H1. cbn. f_equal. unfold set_index, set_devs. cbn.
    rewrite <- !alter_compose. cbn. rewrite !insert_id by congruence. reflexivity.
  - rewrite Hp, H, H1. unfold dropped. rewrite Hp. reflexivity.
Qed.
Lemma run_0102_none inc code imei sw out : st_byPhone s !! h_phone (m_hdr inc) = None ->
  run (process0102 inc code imei sw out) s = (Err ErrDeviceNotFound, s).
Proof. intros H. cbn. rewrite H. reflexivity. Qed.

(** ** Locations *)
Definition onlyGeo (s s' : st) : Prop :=
  st_devs s' = st_devs s /\ st_byPlate s' = st_byPlate s /\ st_byPhone s' = st_byPhone s
  /\ st_params s' = st_params s /\ st_segs s' = st_segs s /\ st_sess s' = st_sess s
  /\ st_byID s' = st_byID s /\ st_jobs s' = st_jobs s /\ st_conns s' = st_conns s
  /\ st_clock s' = st_clock s.
End Handlers.

Lemma consistent_onlyGeo s s' : consistent s -> onlyGeo s s' ->
  (forall p l, st_geo s' !! p = Some l -> exists r ws, st_rings s' !! l = Some r
    /\ holds 100 ws r /\ Forall (fun g => dg_phone g = p) ws) ->
  (forall p q l, st_geo s' !! p = Some l -> st_geo s' !! q = Some l -> p = q) -> consistent s'.
Proof.
  intros C (H1 & H2 & H3 & H4 & H5 & H6 & H7 & H8 & H9 & H10) Hg Hi.
  destruct C. constructor; rewrite ?H1, ?H2, ?H3, ?H4, ?H5, ?H6, ?H7, ?H8, ?H9; assumption.
Qed.

Lemma run_getRing s ph : consistent s ->
  exists rl r s', run (getGeoRingByPhone ph) s = (Ok rl, s')
    /\ st_geo s' !! ph = Some rl /\ st_rings s' !! rl = Some r
    /\ (forall ws, track s ph ws -> holds 100 ws r)
    /\ (forall q, q <> ph -> ringOf s' q = ringOf s q)
    /\ onlyGeo s s' /\ consistent s'.
Proof.
  intros C. unfold getGeoRingByPhone. cbn. unfold track, ringOf.
  destruct (st_geo s !! ph) as [rl|] eqn:E.
  - destruct (cs_geo s C ph rl E) as (r & ws & H1 & H2 & H3).
    exists rl, r, s. rewrite H1. split_and!; auto. unfold onlyGeo. tauto.
  - set (l := fresh (dom (st_rings s))). assert (Hf : st_rings s !! l = None).
    { apply not_elem_of_dom. apply is_fresh. }
    assert (Ho : forall q l', st_geo s !! q = Some l' -> l' <> l).
    { intros q l' H ->. destruct (cs_geo s C q l H) as (r & ws & H1 & _). congruence. }
    exists l, (newRing ringCapacity). eexists. split; [reflexivity|]. cbn. rewrite !lookup_insert.
    split; [reflexivity|]. split; [reflexivity|]. split; [intros ws ->; apply holds_new|]. split.
    { intros q Hq. rewrite lookup_insert_ne by congruence.
      destruct (st_geo s !! q) as [l'|] eqn:E'; [|reflexivity].
      rewrite lookup_insert_ne by (intros H; eapply Ho; [exact E'|congruence]). reflexivity. }
    split; [unfold onlyGeo; repeat split|].
    eapply consistent_onlyGeo; [exact C|unfold onlyGeo; repeat split|..]; cbn.
    + intros p l'. destruct (decide (p = ph)) as [->|Hn].
      * rewrite lookup_insert. intros [= <-]. exists (newRing ringCapacity), []. rewrite lookup_insert.
        split; [reflexivity|]. split; [apply holds_new|constructor].
      * rewrite lookup_insert_ne by congruence. intros H.
        rewrite lookup_insert_ne by (intros H'; eapply Ho; [exact H|congruence]).
        exact (cs_geo s C p l' H).
    + intros p q l'. destruct (decide (p = ph)) as [->|Hn], (decide (q = ph)) as [->|Hm];
        rewrite ?lookup_insert, ?lookup_insert_ne by congruence; try congruence.
      * intros [= <-] H. exfalso. eapply Ho; [exact H|reflexivity].
      * intros H [= <-]. exfalso. eapply Ho; [exact H|reflexivity].
      * apply (cs_geo_inj s C).
Qed.

Lemma run_addGeo {A} s ph dg (out : A) : consistent s -> dg_phone dg = ph ->
  exists s', run (rl <- getGeoRingByPhone ph ;; onRing rl (ringWrite rl (Some dg)) ;;; ret out)%prog s
             = (Ok out, s')
    /\ (forall ws, track s ph ws -> track s' ph (ws ++ [dg]))
    /\ (forall q, q <> ph -> ringOf s' q = ringOf s q)
    /\ onlyGeo s s' /\ consistent s'.
Proof.
  intros C Hdg. destruct (run_getRing s ph C) as (rl & r & s1 & E & Hg & Hr & Ht & Ho & Hon & C1).
  rewrite run_bind, E. rewrite run_bind, (run_onRing _ _ _ _ Hr).
  assert (Hw : forall ws, holds 100 ws r -> fst (run (ringWrite rl (Some dg)) r) = Ok tt
    /\ holds 100 (ws ++ [dg]) (snd (run (ringWrite rl (Some dg)) r))).
  { intros ws Hws. apply holds_write; [lia|exact Hws]. }
  destruct (cs_geo s1 C1 ph rl Hg) as (r' & ws0 & Hr' & Hh & HF).
  assert (r' = r) by congruence. subst r'.
  destruct (run (ringWrite rl (Some dg)) r) as [x r'] eqn:Er. cbn [fst snd] in *.
  destruct (Hw ws0 Hh) as (-> & Hh'). cbn. eexists. split; [reflexivity|].
  assert (Hon' : onlyGeo s (set_rings (<[rl:=r']>) s1)) by (unfold onlyGeo in *; cbn; exact Hon).
  split; [|split; [|split; [exact Hon'|]]].
  - intros ws Hws. unfold track, ringOf. cbn. rewrite Hg, lookup_insert. apply Hw. apply Ht. exact Hws.
  - intros q Hq. rewrite <- (Ho q Hq). unfold ringOf. cbn.
    destruct (st_geo s1 !! q) as [l'|] eqn:E'; [|reflexivity].
    rewrite lookup_insert_ne; [reflexivity|]. intros ->. apply Hq. eapply (cs_geo_inj s1 C1); eassumption.
  - eapply consistent_onlyGeo; [exact C|exact Hon'|..]; cbn.
    + intros p l' H. destruct (decide (l' = rl)) as [->|Hn].
      * assert (p = ph) as -> by (eapply (cs_geo_inj s1 C1); eassumption).
        exists r', (ws0 ++ [dg]). rewrite lookup_insert. split; [reflexivity|]. split; [exact Hh'|].
        apply Forall_app. split; [exact HF|]. constructor; [exact Hdg|constructor].
      * rewrite lookup_insert_ne by congruence. exact (cs_geo s1 C1 p l' H).
    + apply (cs_geo_inj s1 C1).
Qed.

Lemma set_devs_id s l f d : st_devs s !! l = Some d -> f d = d -> set_devs (alter f l) s = s.
Proof.
  intros H E. rewrite (st_eta s) at 2. unfold set_devs. f_equal. apply map_eq. intros i.
  destruct (decide (i = l)) as [->|Hn].
  - rewrite lookup_alter, H. cbn. congruence.
  - rewrite lookup_alter_ne by congruence. reflexivity.
Qed.

(** what a location report does to the device record *)
Definition dozed (t : Z) (m : locrep) (d : device) : device :=
  if N.testbit (l_status m) 0 then d else dset_last (dset_status d Sleeping) t.
Lemma acc_bit n : (g_acc (geoDecode n) =? 0) = negb (N.testbit n 0).
Proof.
  unfold geoDecode. cbn [g_acc]. change 1 with (N.ones 1). rewrite N.land_ones, N.shiftr_0_r.
  rewrite N.bit0_odd. rewrite <- N.bit0_odd. change (2 ^ 1) with 2.
  pose proof (N.bit0_mod n) as Hb. destruct (N.testbit n 0); cbn in Hb; rewrite <- Hb; reflexivity.
Qed.

Lemma run_0200 e s inc m out l d : consistent s -> st_byPhone s !! h_phone (m_hdr inc) = Some l ->
  st_devs s !! l = Some d ->
  exists s', run (process0200 e inc m out) s = (Ok out, s')
    /\ let ph := h_phone (m_hdr inc) in
       let s1 := set_devs (alter (dozed (st_clock s) m) l) s in
       let dg := geoOf (e_civil e (st_clock s)) ph m in
       consistent s1
       /\ (forall ws, track s ph ws -> track s' ph (ws ++ [dg]))
       /\ (forall q, q <> ph -> ringOf s' q = ringOf s q)
       /\ onlyGeo s1 s' /\ consistent s'.
Proof.
  intros C H H1. destruct (cs_phone s C _ _ H) as (d' & H1' & Hp & H3).
  assert (d' = d) by congruence. subst d'. cbn zeta.
  set (ph := h_phone (m_hdr inc)) in *.
  set (s1 := set_devs (alter (dozed (st_clock s) m) l) s).
  set (dg := geoOf (e_civil e (st_clock s)) ph m).
  assert (C1 : consistent s1).
  { apply (touch_ok s C _ l d H1); unfold dozed; destruct (N.testbit _ _); reflexivity. }
  destruct (run_addGeo s1 ph dg out C1 eq_refl) as (s' & E & Ht & Ho & Hon & C').
  exists s'. split.
  2:{ split; [exact C1|]. split; [exact Ht|]. split; [exact Ho|]. split; [exact Hon|exact C']. }
  rewrite <- E. unfold process0200. unfold getDeviceByPhone, rd1. cbn [pbind pbindR run]. fold ph. rewrite H.
  unfold ret. cbn [pbind pbindR run]. unfold readConst. cbn [pbind pbindR run]. rewrite H1. unfold ret.
  cbn [pbind pbindR run]. unfold getNow, rd1. cbn [pbind pbindR run]. unfold ret. cbn [pbind pbindR run].
  rewrite Hp. fold dg.
  replace (g_acc (dg_meta dg) =? 0) with (negb (N.testbit (l_status m) 0)) by (symmetry; apply acc_bit).
  unfold s1, dozed. destruct (N.testbit (l_status m) 0) eqn:Eb; cbn [negb].
  - cbn [pbind pbindR]. rewrite (set_devs_id s l _ d H1 eq_refl). reflexivity.
  - cbn. rewrite !lookup_alter, H1. cbn. unfold set_index, set_devs. cbn.
    rewrite <- !alter_compose. cbn. rewrite !insert_id by congruence. reflexivity.
Qed.
Lemma run_0200_none e s inc m out : st_byPhone s !! h_phone (m_hdr inc) = None ->
  run (process0200 e inc m out) s = (Err ErrDeviceNotFound, s).
Proof. intros H. cbn. rewrite H. reflexivity. Qed.
