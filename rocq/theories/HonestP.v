(** The lists of accesses name all shared memory that an action touches *)
From stdpp Require Import gmap.
From Verif Require Import Base HexM TimeM HeaderM ParamsM GeoM MsgM PacketM FrameM ProgM ProgP RingM
  StateM ProcM ServerM ConcM ParamHeapM SpecHonest RaceP.
Local Open Scope N_scope.

(** ** Any state *)
Section Gen.
Context {S : Type} (wc : cell -> S -> S -> S) (at_ : cell -> S -> Prop) (mem : cell -> Prop).
Notation hnext := (honest_next wc at_ mem).
Fixpoint honest {A} (p : prog S A) : Prop :=
  match p with
  | Ret _ => True
  | Act a f k => hnext (Act a f k) /\ forall s, honest (k s)
  end.
Lemma honest_bindR {A B} (p : prog S A) (g : res A -> prog S B) :
  honest p -> (forall r, honest (g r)) -> honest (pbindR p g).
Proof.
  induction p as [r|a f k IH]; intros Hp Hg; cbn; [apply Hg|]. destruct Hp as (H1 & H2). split; [|auto].
  intros c Hc. destruct (H1 c Hc) as ([L|I] & W); (split; [|exact W]).
  - left. exact L.
  - right. intros t s Hs. destruct (I t s Hs) as (If & Ik). split; [exact If|]. rewrite Ik. reflexivity.
Qed.
Lemma honest_bind {A B} (p : prog S A) (g : A -> prog S B) :
  honest p -> (forall a, honest (g a)) -> honest (pbind p g).
Proof. intros Hp Hg. apply honest_bindR; [exact Hp|]. intros [a|e|]; cbn; auto. Qed.
Lemma honest_step {A} (ps : list (prog S A)) s i :
  (forall j p, nth_error ps j = Some p -> honest p) ->
  forall j p, nth_error (fst (pstep ps s i)) j = Some p -> honest p.
Proof.
  intros H. unfold pstep. destruct (nth_error ps i) as [[r|a f k]|] eqn:E; cbn; auto.
  intros j p Hj. rewrite (nth_error_upd ps i j (k s) _ E) in Hj.
  destruct (Nat.eqb i j); [|eauto]. injection Hj as <-. destruct (H i _ E) as (_ & Hk). apply Hk.
Qed.
Lemma honest_steps {A} sch : forall (ps : list (prog S A)) s,
  (forall j p, nth_error ps j = Some p -> honest p) ->
  forall j p, nth_error (fst (psteps ps s sch)) j = Some p -> honest p.
Proof.
  induction sch as [|i t IH]; intros ps s H; cbn; [exact H|].
  pose proof (honest_step ps s i H) as H'. destruct (pstep ps s i) as [ps' s']. cbn in *. apply IH. exact H'.
Qed.
Lemma honest_now {A} (p : prog S A) : honest p -> hnext p.
Proof.
  destruct p as [r|a f k]; [|intros (H & _); exact H]. intros _ c _. split; right; exact Logic.I.
Qed.
Lemma cell_eqb_refl c : mem c -> (forall m, c <> CHold m) -> (forall m, c <> CFree m) -> cell_eqb c c = true.
Proof. intros _ H1 H2. destruct c; cbn; try reflexivity; try apply Nat.eqb_refl; [destruct (H1 m)|destruct (H2 m)]; reflexivity. Qed.
Lemma honest_apart {A} (P : cell -> Prop) (ps : list (prog S A)) :
  (forall c, mem c -> (forall m, c <> CHold m) /\ (forall m, c <> CFree m)) ->
  (forall j p, nth_error ps j = Some p -> hnext p) -> ~ races_on P ps ->
  forall i j p q c, i <> j -> nth_error ps i = Some p -> nth_error ps j = Some q -> mem c -> P c -> apart wc at_ c p q.
Proof.
  intros Hm H Hr i j p q c Hij Hp Hq Hc HP.
  destruct (H i p Hp c Hc) as ([Lp|Ip] & Wp); [|left; exact Ip].
  destruct (H j q Hq c Hc) as ([Lq|Iq] & Wq); [|right; left; exact Iq].
  destruct (Hm c Hc) as (Hh & Hf). pose proof (cell_eqb_refl c Hc Hh Hf) as Ec.
  assert (K : (exists x y, In x (accesses p) /\ In y (accesses q) /\ ac_cell x = c /\ ac_cell y = c
                /\ (ac_write x || ac_write y)%bool = true) \/ (keeps wc at_ c p /\ keeps wc at_ c q)).
  { destruct Wp as [(x & Hx & Cx & Wx)|Kp].
    - left. destruct Lq as (y & Hy & Cy). exists x, y. rewrite Wx. auto 6.
    - destruct Wq as [(y & Hy & Cy & Wy)|Kq]; [|right; auto].
      left. destruct Lp as (x & Hx & Cx). exists x, y. rewrite Wy, Bool.orb_true_r. auto 6. }
  destruct K as [(x & y & Hx & Hy & Cx & Cy & Wxy)|K]; [|right; right; left; exact K].
  right; right; right. exists x, y. repeat split; auto.
  destruct (synced (ac_sync x) (ac_sync y)) eqn:E; [reflexivity|]. exfalso. apply Hr.
  exists i, j, p, q, x, y. repeat split; auto; [rewrite Cx; exact HP|].
  unfold conflict. rewrite Cx, Cy, Ec, Wxy, E. reflexivity.
Qed.
End Gen.

(** ** The server's state *)
Notation hon := (honest with_cell here memory).
Lemma alter_id_ext {V} (g : V -> V) l (m : gmap nat V) : (forall v, m !! l = Some v -> g v = v) -> alter g l m = m.
Proof.
  intros H. apply map_eq. intros i. destruct (decide (i = l)) as [->|Hn].
  - rewrite lookup_alter. destruct (m !! l) as [v|] eqn:E; cbn; [rewrite (H v eq_refl)|]; reflexivity.
  - rewrite lookup_alter_ne by congruence. reflexivity.
Qed.
Lemma patch_same {V} (g : V -> V -> V) l (t m : gmap nat V) :
  (forall v v', m !! l = Some v -> t !! l = Some v' -> g v' v = v) -> patch g l t m = m.
Proof. intros H. apply alter_id_ext. intros v Hv. destruct (t !! l) as [v'|] eqn:E; [|reflexivity]. eauto. Qed.
Lemma patch_self {V} (g : V -> V -> V) l (m : gmap nat V) : (forall v, g v v = v) -> patch g l m m = m.
Proof. intros H. apply patch_same. intros v v' Hv Hv'. assert (v = v') by congruence. subst. apply H. Qed.
Lemma dom_patch {V} (g : V -> V -> V) l (t m : gmap nat V) : dom (patch g l t m) = dom m.
Proof. apply dom_alter_L. Qed.
Lemma with_self c s : with_cell c s s = s.
Proof.
  destruct s, c; try reflexivity; unfold with_cell, set_devs, set_rings, set_sess; cbn; rewrite patch_self; try reflexivity;
    intros []; reflexivity.
Qed.
Lemma set_devs_ext f g s : f (st_devs s) = g (st_devs s) -> set_devs f s = set_devs g s.
Proof. unfold set_devs. intros ->. reflexivity. Qed.

(** reading *)
Lemma hon_act {A} a f (k : st -> sp A) : honest_next with_cell here memory (Act a f k) -> (forall s, hon (k s)) -> hon (Act a f k).
Proof. intros H1 H2. split; assumption. Qed.
Lemma next_read {A} a (k : st -> sp A) :
  (forall c, memory c -> listed c a \/ forall t s, here c s -> k (with_cell c t s) = k s) ->
  honest_next with_cell here memory (Act a (fun s => s) k).
Proof.
  intros H c Hc. split.
  - destruct (H c Hc) as [L|I]; [left; exact L|right]. intros t s Hs. split; [reflexivity|apply I; exact Hs].
  - right. intros s _. apply with_self.
Qed.

Ltac lst := left; eexists; split; [left; reflexivity|]; first [reflexivity|split; reflexivity].
Ltac hn := let c := fresh "c" in let Hc := fresh "Hc" in intros c Hc; destruct c; cbn [memory] in Hc; try contradiction; split;
  first [ lst
        | right; intros ? ? ?; split; reflexivity
        | right; intros ? ?; match goal with |- with_cell ?c _ ?s = _ => exact (with_self c s) end
        | idtac ].
Lemma hon_ret {A} (r : res A) : hon (Ret r).
Proof. exact Logic.I. Qed.
Ltac h1 := apply hon_act; [hn|intros ?; exact Logic.I].
Lemma hon_lock m : hon (lock m).  Proof. unfold lock, wr1. h1. Qed.
Lemma hon_unlock m : hon (unlock m).  Proof. unfold unlock, wr1. h1. Qed.
Lemma hon_getNow : hon getNow.  Proof. unfold getNow, rd1. h1. Qed.
Lemma hon_clock t : hon (wr1 [] (set_clock t)).  Proof. unfold wr1. h1. Qed.
Lemma hon_opened c : hon (opened c).  Proof. unfold opened, wr1. h1. Qed.
Lemma hon_list : hon listDevice.  Proof. unfold listDevice, rd1. h1. Qed.
Lemma hon_byPlate q : hon (getDeviceByPlate q).  Proof. unfold getDeviceByPlate, rd1. h1. Qed.
Lemma hon_byPhone q : hon (getDeviceByPhone q).  Proof. unfold getDeviceByPhone, rd1. h1. Qed.
Lemma hon_delGeo q : hon (delGeoByPhone q).  Proof. unfold delGeoByPhone, wr1. h1. Qed.
Lemma hon_getParams q : hon (getDeviceParamsByPhone q).  Proof. unfold getDeviceParamsByPhone, rd1. h1. Qed.
Lemma hon_params q : hon (cacheDeviceParams q).  Proof. unfold cacheDeviceParams, wr1. h1. Qed.
Lemma hon_seg q : hon (cacheSegment q).
Proof. unfold cacheSegment. apply hon_act; [hn|]. intros s. destruct (_ !! _); exact Logic.I. Qed.
Lemma hon_getSession q : hon (getSession q).  Proof. unfold getSession, rd1. h1. Qed.
Lemma hon_store q l : hon (storeSession q l).  Proof. unfold storeSession, wr1. h1. Qed.
Lemma hon_clear q : hon (clearSession q).  Proof. unfold clearSession, wr1. h1. Qed.
Lemma hon_count : hon countSession.  Proof. unfold countSession, rd1. h1. Qed.
Lemma hon_add q : hon (timerAdd q).  Proof. unfold timerAdd, wr1. h1. Qed.
Lemma hon_cancel q : hon (timerCancel q).  Proof. unfold timerCancel, wr1. h1. Qed.
Lemma hon_send c b w : hon (connSend c b w).
Proof.
  unfold connSend. apply hon_act; [hn|]. intros s. destruct (st_conns s !! c) as [x|]; [|exact Logic.I].
  destruct (cn_open x), w as [[? ?]|]; exact Logic.I.
Qed.
Lemma hon_close c : hon (connClose c).  Proof. unfold connClose, wr1. h1. Qed.

(** objects *)
Lemma lookup_patch {V} (g : V -> V -> V) l (t m : gmap nat V) i :
  patch g l t m !! i = (if decide (i = l) then (fun v => match t !! l with Some v' => g v' v | None => v end) <$> m !! i else m !! i).
Proof.
  unfold patch. destruct (decide (i = l)) as [->|Hn]; [apply lookup_alter|apply lookup_alter_ne; congruence].
Qed.
Lemma patch_alter_ne {V} (g : V -> V -> V) l (t m : gmap nat V) h j : j <> l ->
  alter h j (patch g l t m) = patch g l t (alter h j m).
Proof. intros H. unfold patch. apply alter_commute. exact H. Qed.
Lemma patch_insert_ne {V} (g : V -> V -> V) l (t m : gmap nat V) v j : j <> l ->
  <[j := v]> (patch g l t m) = patch g l t (<[j := v]> m).
Proof.
  intros H. unfold patch. apply map_eq. intros i.
  destruct (decide (i = j)) as [->|Hj].
  - rewrite lookup_insert, lookup_alter_ne by congruence. rewrite lookup_insert. reflexivity.
  - rewrite lookup_insert_ne by congruence. destruct (decide (i = l)) as [->|Hl].
    + rewrite !lookup_alter, lookup_insert_ne by congruence. reflexivity.
    + rewrite !lookup_alter_ne by congruence. rewrite lookup_insert_ne by congruence. reflexivity.
Qed.
Lemma patch_same_ne {V} (g : V -> V -> V) l (m m' : gmap nat V) : m' !! l = m !! l -> (forall v, g v v = v) -> patch g l m' m = m.
Proof. intros H Hg. apply patch_same. intros v v' Hv Hv'. assert (v = v') by congruence. subst. apply Hg. Qed.
Lemma mix_self d : with_fields d d = d.  Proof. destruct d; reflexivity. Qed.
Lemma slots_self (r : ring devgeo) : set_slots r (rg_slots r) = r.  Proof. destruct r; reflexivity. Qed.
Lemma reader_self (r : ring devgeo) : set_reader r (rg_reader r) = r.  Proof. destruct r; reflexivity. Qed.
Lemma writer_self (r : ring devgeo) : set_writer r (rg_writer r) = r.  Proof. destruct r; reflexivity. Qed.
Lemma sn_self x : sset_sn x (ss_sn x) = x.  Proof. destruct x; reflexivity. Qed.

Lemma hon_readConst {B} l (g : device -> sp B) :
  (forall d t, g (with_fields t d) = g d) -> (forall d, hon (g d)) -> hon (pbind (readConst l) g).
Proof.
  intros Hg Hd. unfold readConst, pbind. cbn [pbindR]. apply hon_act.
  - hn. right. intros t s Hs. split; [reflexivity|]. cbn [with_cell]. unfold set_devs. cbn [st_devs].
    rewrite lookup_patch. destruct (decide (l = l0)) as [->|_]; [|reflexivity].
    destruct Hs as (d & Hd'). rewrite Hd'. cbn. destruct (st_devs t !! l0) as [d'|]; [|reflexivity]. apply Hg.
  - intros s. destruct (st_devs s !! l); [apply Hd|exact Logic.I].
Qed.
Lemma hon_readSess {B} l (g : session -> sp B) :
  (forall x n, g (sset_sn x n) = g x) -> (forall x, hon (g x)) -> hon (pbind (readSess l) g).
Proof.
  intros Hg Hd. unfold readSess, pbind. cbn [pbindR]. apply hon_act.
  - hn. right. intros t s Hs. split; [reflexivity|]. cbn [with_cell]. unfold set_sess. cbn [st_sess].
    rewrite lookup_patch. destruct (decide (l = l0)) as [->|_]; [|reflexivity].
    destruct Hs as (d & Hd'). rewrite Hd'. cbn. destruct (st_sess t !! l0) as [d'|]; [|reflexivity]. apply Hg.
  - intros s. destruct (st_sess s !! l); [apply Hd|exact Logic.I].
Qed.
Lemma hon_readDev l : hon (readDev l).
Proof.
  unfold readDev. apply hon_act.
  - hn. destruct (decide (l = l0)) as [->|Hn]; [lst|]. right. intros t s Hs. split; [reflexivity|].
    cbn [with_cell]. unfold set_devs. cbn [st_devs]. rewrite lookup_patch, decide_False by exact Hn. reflexivity.
  - intros s. destruct (st_devs s !! l); exact Logic.I.
Qed.
Lemma hon_writeDev l f : hon (writeDev l f).
Proof.
  unfold writeDev, wr1. apply hon_act; [|intros ?; exact Logic.I].
  hn; (destruct (decide (l = l0)) as [->|Hn]; [lst|]); right.
  - intros t s Hs. split; [|reflexivity]. cbn [with_cell]. unfold set_devs. cbn.
    rewrite patch_alter_ne by exact Hn. reflexivity.
  - intros s Hs. cbn [with_cell]. unfold set_devs. cbn. rewrite patch_same_ne; [destruct s; reflexivity| |exact mix_self].
    apply lookup_alter_ne. exact Hn.
Qed.
Lemma hon_allocDev d : hon (allocDev d).
Proof.
  unfold allocDev. apply hon_act; [|intros ?; exact Logic.I]. hn; right.
  - intros t s Hs. cbn [with_cell]. unfold set_devs. cbn [st_devs st_byPlate st_byPhone st_rings st_geo st_params st_segs st_sess st_byID st_jobs st_conns st_clock].
    rewrite dom_patch. split; [|reflexivity]. f_equal. apply patch_insert_ne.
    cbn in Hs. intros E. rewrite <- E in Hs. apply elem_of_dom in Hs. exact (is_fresh (dom (st_devs s)) Hs).
  - intros s Hs. cbn [with_cell]. unfold set_devs. cbn. rewrite patch_same_ne; [destruct s; reflexivity| |exact mix_self].
    apply lookup_insert_ne. cbn in Hs. intros E. rewrite <- E in Hs. apply elem_of_dom in Hs. exact (is_fresh (dom (st_devs s)) Hs).
Qed.
Lemma hon_allocSess x : hon (Act [] (fun s => set_sess (<[fresh (dom (st_sess s)) := x]>) s) (fun s => ret (fresh (dom (st_sess s))))).
Proof.
  apply hon_act; [|intros ?; exact Logic.I]. hn; right.
  - intros t s Hs. cbn [with_cell]. unfold set_sess. cbn [st_devs st_byPlate st_byPhone st_rings st_geo st_params st_segs st_sess st_byID st_jobs st_conns st_clock].
    rewrite dom_patch. split; [|reflexivity]. f_equal. apply patch_insert_ne.
    cbn in Hs. intros E. rewrite <- E in Hs. apply elem_of_dom in Hs. exact (is_fresh (dom (st_sess s)) Hs).
  - intros s Hs. cbn [with_cell]. unfold set_sess. cbn. rewrite patch_same_ne; [destruct s; reflexivity| |exact sn_self].
    apply lookup_insert_ne. cbn in Hs. intros E. rewrite <- E in Hs. apply elem_of_dom in Hs. exact (is_fresh (dom (st_sess s)) Hs).
Qed.
Lemma hon_cacheDevice l : hon (cacheDevice l).
Proof.
  unfold cacheDevice, wr1. apply hon_act; [|intros ?; exact Logic.I].
  hn; right.
  all: try (intros t s Hs; split; [|reflexivity]; cbn; destruct (st_devs s !! l); reflexivity).
  all: try (intros s Hs; destruct (st_devs s !! l); match goal with |- with_cell ?c _ ?s = _ => exact (with_self c s) end).
  intros t s Hs. split; [|reflexivity]. cbn [with_cell]. unfold set_devs at 1. cbn [st_devs]. rewrite lookup_patch.
  destruct (decide (l = l0)) as [->|_]; [|destruct (st_devs s !! l); reflexivity].
  destruct Hs as (d & Hd). rewrite Hd. cbn. destruct (st_devs t !! l0); reflexivity.
Qed.
Lemma hon_delDevice q : hon (delDeviceByPhone q).
Proof.
  unfold delDeviceByPhone, wr1. apply hon_act; [|intros ?; exact Logic.I].
  hn; right.
  all: try (intros t s Hs; split; [|reflexivity]; cbn; destruct (st_byPhone s !! q) as [l1|]; [|reflexivity];
            destruct (st_devs s !! l1); reflexivity).
  all: try (intros s Hs; destruct (st_byPhone s !! q) as [l1|]; [destruct (st_devs s !! l1)|];
            match goal with |- with_cell ?c _ ?s = _ => exact (with_self c s) end).
  intros t s Hs. split; [|reflexivity]. cbn [with_cell]. unfold set_devs at 1 2. cbn [st_devs st_byPhone].
  destruct (st_byPhone s !! q) as [l1|]; [|reflexivity]. rewrite lookup_patch.
  destruct (decide (l1 = l)) as [->|_]; [|destruct (st_devs s !! l1); reflexivity].
  destruct Hs as (d & Hd). rewrite Hd. cbn. destruct (st_devs t !! l); reflexivity.
Qed.
Ltac sts := cbn [st_devs st_byPlate st_byPhone st_rings st_geo st_params st_segs st_sess st_byID st_jobs st_conns st_clock].
Lemma not_fresh {V} (m : gmap nat V) l : is_Some (m !! l) -> fresh (dom m) <> l.
Proof. intros H E. rewrite <- E in H. apply elem_of_dom in H. exact (is_fresh (dom m) H). Qed.
Lemma hon_getRing q : hon (getGeoRingByPhone q).
Proof.
  unfold getGeoRingByPhone. apply hon_act; [|intros ?; exact Logic.I].
  hn; right.
  all: try (intros t s Hs; split; [|reflexivity]; cbn; destruct (st_geo s !! q); reflexivity).
  all: try (intros s Hs; destruct (st_geo s !! q); match goal with |- with_cell ?c _ ?s = _ => exact (with_self c s) end).
  all: try (intros t s Hs; cbn [with_cell]; unfold set_rings, set_geo; sts; rewrite dom_patch; (split; [|reflexivity]);
            destruct (st_geo s !! q); [reflexivity|]; sts; f_equal; apply patch_insert_ne, not_fresh; exact Hs).
  all: intros s Hs; cbn [with_cell]; unfold set_rings, set_geo; destruct (st_geo s !! q); sts;
       rewrite patch_same_ne; try (destruct s; reflexivity); try reflexivity.
  all: try exact slots_self; try exact reader_self; try exact writer_self.
  all: apply lookup_insert_ne, not_fresh; exact Hs.
Qed.

(** ring buffers *)
Definition rwc (c : cell) (t r : ring devgeo) : ring devgeo :=
  match c with
  | CRingSlots _ => set_slots r (rg_slots t)
  | CRingReader _ => set_reader r (rg_reader t)
  | CRingWriter _ => set_writer r (rg_writer t)
  | _ => r
  end.
Definition rmem (l : nat) (c : cell) : Prop := c = CRingSlots l \/ c = CRingReader l \/ c = CRingWriter l.
Notation rhon l := (honest rwc (fun _ _ => True) (rmem l)).
Lemma rwc_self c r : rwc c r r = r.
Proof. destruct r, c; reflexivity. Qed.
Lemma rhon_act {A} l a f (k : ring devgeo -> prog (ring devgeo) A) :
  honest_next rwc (fun _ _ => True) (rmem l) (Act a f k) -> (forall s, rhon l (k s)) -> rhon l (Act a f k).
Proof. intros H1 H2. split; assumption. Qed.
Ltac rn := let c := fresh "c" in intros c [ -> |[ -> | -> ] ]; split;
  first [ lst
        | right; intros ? ? ?; split; reflexivity
        | right; intros ? ?; match goal with |- rwc ?c _ ?s = _ => exact (rwc_self c s) end
        | idtac ].
Lemma rhon_loadW l : rhon l (loadWriter l).  Proof. unfold loadWriter, rd1. apply rhon_act; [rn|intros ?; exact Logic.I]. Qed.
Lemma rhon_plainW l : rhon l (rd1 [mkAcc (CRingWriter l) false Plain] rg_writer).
Proof. unfold rd1. apply rhon_act; [rn|intros ?; exact Logic.I]. Qed.
Lemma rhon_storeW l x : rhon l (storeWriter l x).  Proof. unfold storeWriter, wr1. apply rhon_act; [rn|intros ?; exact Logic.I]. Qed.
Lemma rhon_size l : rhon l (rd1 [] rg_size).  Proof. unfold rd1. apply rhon_act; [rn|intros ?; exact Logic.I]. Qed.
Lemma rhon_get l i : rhon l (getSlot l i).
Proof. unfold getSlot. apply rhon_act; [rn|]. intros s. destruct (inRange _ _); exact Logic.I. Qed.
Lemma rhon_set l i v : rhon l (setSlot l i v).
Proof.
  unfold setSlot. apply rhon_act; [|intros s; destruct (inRange _ _); exact Logic.I]. rn; right.
  all: try (intros t s Hs; split; [|reflexivity]; cbn; destruct (inRange _ _); reflexivity).
  all: intros s Hs; destruct (inRange _ _); match goal with |- rwc ?c _ ?s = _ => exact (rwc_self c s) end.
Qed.
Lemma rhon_write l v : rhon l (ringWrite l v).
Proof.
  unfold ringWrite. apply honest_bind; [apply rhon_loadW|intros w]. apply honest_bind; [apply rhon_set|intros _].
  apply honest_bind; [apply rhon_size|intros n]. apply rhon_storeW.
Qed.
Lemma rhon_latest l : rhon l (ringLatest l).
Proof.
  unfold ringLatest. apply honest_bind; [apply rhon_plainW|intros w]. destruct (_ =? _)%Z; [exact Logic.I|].
  apply honest_bind; [apply rhon_loadW|intros w']. apply honest_bind; [apply rhon_size|intros n]. apply rhon_get.
Qed.
Lemma insert_patch {V} (g : V -> V -> V) l (t m : gmap nat V) v : <[l := v]> (patch g l t m) = <[l := v]> m.
Proof.
  unfold patch. apply map_eq. intros i. destruct (decide (i = l)) as [->|Hn].
  - rewrite !lookup_insert. reflexivity.
  - rewrite !lookup_insert_ne by congruence. apply lookup_alter_ne. congruence.
Qed.
Lemma patch_insert {V} (g : V -> V -> V) l (t m : gmap nat V) v :
  patch g l t (<[l := v]> m) = <[l := match t !! l with Some v' => g v' v | None => v end]> m.
Proof. unfold patch. rewrite alter_insert. reflexivity. Qed.
Lemma insert_same {V} (g : V -> V -> V) l (m : gmap nat V) v r : m !! l = Some r -> g v r = r -> patch g l (<[l := v]> m) m = m.
Proof.
  intros Hr Hg. apply patch_same. intros u u' Hu Hu'. rewrite lookup_insert in Hu'. congruence.
Qed.
Lemma ringAt_rings l s m : ringAt l (set_rings (fun _ => m) s) = default (newRing 0) (m !! l).
Proof. reflexivity. Qed.
Lemma hon_ring_cell l (c : cell) (g : ring devgeo -> ring devgeo -> ring devgeo) {A} a f (k : ring devgeo -> prog (ring devgeo) A) :
  (forall t s, with_cell c t s = set_rings (patch g l (st_rings t)) s) -> (forall t r, rwc c t r = g t r) ->
  (forall s, here c s -> is_Some (st_rings s !! l)) ->
  (listed c a \/ forall t r, f (rwc c t r) = rwc c t (f r) /\ k (rwc c t r) = k r) ->
  (listed_write c a \/ forall r, rwc c (f r) r = r) ->
  let p := onRing l (Act a f k) in
  (listed c (accesses p) \/ ignores with_cell here c p) /\ (listed_write c (accesses p) \/ keeps with_cell here c p).
Proof.
  intros Hw Hr Hh HI HK p. subst p. unfold onRing. cbn [zoom accesses ignores keeps]. split.
  - destruct HI as [L|I]; [left; exact L|right]. intros t s Hs. destruct (Hh s Hs) as (r & Er). rewrite !Hw.
    assert (Ea : ringAt l s = r) by (unfold ringAt; rewrite Er; reflexivity).
    assert (Ep : ringAt l (set_rings (patch g l (st_rings t)) s)
                 = match st_rings t !! l with Some r' => rwc c r' r | None => r end).
    { unfold ringAt, set_rings. sts. rewrite lookup_patch, decide_True by reflexivity. rewrite Er. cbn.
      destruct (st_rings t !! l); [rewrite Hr|]; reflexivity. }
    rewrite Ea, Ep. split.
    + unfold set_rings. sts. f_equal. rewrite insert_patch, patch_insert. f_equal.
      destruct (st_rings t !! l) as [r'|]; [|reflexivity]. rewrite (proj1 (I r' r)). apply Hr.
    + destruct (st_rings t !! l) as [r'|]; [|reflexivity]. rewrite (proj2 (I r' r)). reflexivity.
  - destruct HK as [L|K]; [left; exact L|right]. intros s Hs. destruct (Hh s Hs) as (r & Er). rewrite Hw.
    assert (Ea : ringAt l s = r) by (unfold ringAt; rewrite Er; reflexivity). rewrite Ea.
    unfold set_rings. sts. rewrite (insert_same g l (st_rings s) (f r) r); [destruct s; reflexivity|exact Er|].
    rewrite <- Hr. apply K.
Qed.
Lemma hon_ring_other l l0 (c : cell) (g : ring devgeo -> ring devgeo -> ring devgeo) {A} a f (k : ring devgeo -> prog (ring devgeo) A) :
  l <> l0 -> (forall t s, with_cell c t s = set_rings (patch g l0 (st_rings t)) s) -> (forall r, g r r = r) ->
  ignores with_cell here c (onRing l (Act a f k)) /\ keeps with_cell here c (onRing l (Act a f k)).
Proof.
  intros Hn Hw Hg. unfold onRing. cbn [zoom ignores keeps]. split.
  - intros t s Hs. rewrite !Hw.
    assert (Ep : ringAt l (set_rings (patch g l0 (st_rings t)) s) = ringAt l s).
    { unfold ringAt, set_rings. sts. rewrite lookup_patch, decide_False by exact Hn. reflexivity. }
    rewrite Ep. split; [|reflexivity]. unfold set_rings. sts. f_equal. apply patch_insert_ne. exact Hn.
  - intros s Hs. rewrite Hw. unfold set_rings. sts. rewrite patch_same_ne; [destruct s; reflexivity| |exact Hg].
    apply lookup_insert_ne. exact Hn.
Qed.
Lemma hon_onRing {A} l (p : prog (ring devgeo) A) : rhon l p -> hon (onRing l p).
Proof.
  unfold onRing. induction p as [r|a f k IH]; intros Hp; [exact Logic.I|]. destruct Hp as (H & Hk).
  split; [|intros s; apply IH, Hk].
  intros c Hc. destruct c; cbn [memory] in Hc; try contradiction.
  all: try (split; right; [intros ? ? ?; split; reflexivity|intros ? ?; match goal with |- with_cell ?c _ ?s = _ => exact (with_self c s) end]; fail).
  - destruct (decide (l = l0)) as [->|Hn].
    + destruct (H (CRingSlots l0) ltac:(left; reflexivity)) as (H1 & H2).
      apply (hon_ring_cell l0 (CRingSlots l0) (fun r' r => set_slots r (rg_slots r')) a f k); try reflexivity; try (intros ? X; exact X).
      * destruct H1 as [L|I]; [left; exact L|right; intros; apply I; exact Logic.I].
      * destruct H2 as [L|I]; [left; exact L|right; intros; apply I; exact Logic.I].
    + destruct (hon_ring_other l l0 (CRingSlots l0) (fun r' r => set_slots r (rg_slots r')) a f k Hn) as (H1 & H2); [reflexivity|exact slots_self|].
      split; right; assumption.
  - destruct (decide (l = l0)) as [->|Hn].
    + destruct (H (CRingReader l0) ltac:(right; left; reflexivity)) as (H1 & H2).
      apply (hon_ring_cell l0 (CRingReader l0) (fun r' r => set_reader r (rg_reader r')) a f k); try reflexivity; try (intros ? X; exact X).
      * destruct H1 as [L|I]; [left; exact L|right; intros; apply I; exact Logic.I].
      * destruct H2 as [L|I]; [left; exact L|right; intros; apply I; exact Logic.I].
    + destruct (hon_ring_other l l0 (CRingReader l0) (fun r' r => set_reader r (rg_reader r')) a f k Hn) as (H1 & H2); [reflexivity|exact reader_self|].
      split; right; assumption.
  - destruct (decide (l = l0)) as [->|Hn].
    + destruct (H (CRingWriter l0) ltac:(right; right; reflexivity)) as (H1 & H2).
      apply (hon_ring_cell l0 (CRingWriter l0) (fun r' r => set_writer r (rg_writer r')) a f k); try reflexivity; try (intros ? X; exact X).
      * destruct H1 as [L|I]; [left; exact L|right; intros; apply I; exact Logic.I].
      * destruct H2 as [L|I]; [left; exact L|right; intros; apply I; exact Logic.I].
    + destruct (hon_ring_other l l0 (CRingWriter l0) (fun r' r => set_writer r (rg_writer r')) a f k Hn) as (H1 & H2); [reflexivity|exact writer_self|].
      split; right; assumption.
Qed.
(** serial numbers *)
Definition nwc (c : cell) (t n : N) : N := match c with CSerial _ => t | _ => n end.
Notation nhon l := (honest nwc (fun _ _ => True) (fun c => c = CSerial l)).
Lemma nhon_next l : nhon l (getNextSerialNum l).
Proof.
  unfold getNextSerialNum. split.
  - intros c ->. split; lst.
  - intros n. cbv zeta. destruct (_ <=? _); [exact Logic.I|]. apply honest_bind; [|intros _]; (split; [|intros ?; exact Logic.I]).
    + intros c ->. split; lst.
    + intros c ->. split; [lst|]. right. intros s _. reflexivity.
Qed.
Lemma hon_serial {A} l (p : prog N A) : nhon l p -> hon (zoom (serialAt l) (fun n => set_sess (alter (fun x => sset_sn x n) l)) p).
Proof.
  induction p as [r|a f k IH]; intros Hp; [exact Logic.I|]. destruct Hp as (H & Hk).
  split; [|intros s; apply IH, Hk].
  intros c Hc. destruct c; cbn [memory] in Hc; try contradiction.
  all: try (split; right; [intros ? ? ?; split; reflexivity|intros ? ?; match goal with |- with_cell ?c _ ?s = _ => exact (with_self c s) end]; fail).
  destruct (decide (l = l0)) as [->|Hn].
  - destruct (H (CSerial l0) eq_refl) as (H1 & H2). cbn [zoom accesses ignores keeps] in *. split.
    + destruct H1 as [L|I]; [left; exact L|right]. intros t s Hs. cbn [here] in Hs. destruct Hs as (x & Ex).
      cbn [with_cell]. unfold set_sess. sts.
      assert (Ea : serialAt l0 s = ss_sn x) by (unfold serialAt; rewrite Ex; reflexivity).
      match goal with |- context [serialAt l0 ?u] => assert (Ep : serialAt l0 u = match st_sess t !! l0 with Some x' => ss_sn x' | None => ss_sn x end) end.
      { unfold serialAt. sts. rewrite lookup_patch, decide_True by reflexivity. rewrite Ex. cbn. destruct (st_sess t !! l0); reflexivity. }
      rewrite Ep, Ea. destruct (st_sess t !! l0) as [x'|] eqn:Et.
      * destruct (I (ss_sn x') (ss_sn x) Logic.I) as (If & Ik). cbn in If, Ik. rewrite Ik. split; [|reflexivity]. f_equal.
        apply map_eq. intros i. unfold patch. destruct (decide (i = l0)) as [->|Hi].
        -- rewrite !lookup_alter, Ex, Et. cbn. rewrite If. reflexivity.
        -- rewrite !lookup_alter_ne by congruence. reflexivity.
      * split; [|reflexivity]. f_equal. apply map_eq. intros i. unfold patch. destruct (decide (i = l0)) as [->|Hi].
        -- rewrite !lookup_alter, Ex, Et. reflexivity.
        -- rewrite !lookup_alter_ne by congruence. reflexivity.
    + destruct H2 as [L|K]; [left; exact L|right]. intros s Hs. cbn [here] in Hs. destruct Hs as (x & Ex).
      assert (Ea : serialAt l0 s = ss_sn x) by (unfold serialAt; rewrite Ex; reflexivity). rewrite Ea.
      specialize (K (ss_sn x) Logic.I). cbn in K. rewrite K.
      cbn [with_cell]. unfold set_sess. sts. rewrite patch_same; [destruct s; reflexivity|].
      intros v v' Hv Hv'. rewrite lookup_alter, Ex in Hv'. cbn in Hv'. injection Hv' as <-.
      assert (v = x) by congruence. subst v. destruct x; reflexivity.
  - cbn [zoom accesses ignores keeps]. split; right.
    + intros t s Hs. cbn [with_cell]. unfold set_sess. sts.
      match goal with |- context [serialAt l ?u] => assert (Ep : serialAt l u = serialAt l s) end.
      { unfold serialAt. sts. rewrite lookup_patch, decide_False by exact Hn. reflexivity. }
      rewrite Ep. split; [|reflexivity]. f_equal. apply patch_alter_ne. exact Hn.
    + intros s Hs. cbn [with_cell]. unfold set_sess. sts. rewrite patch_same_ne; [destruct s; reflexivity| |exact sn_self].
      apply lookup_alter_ne. exact Hn.
Qed.
Lemma hon_nextSerial l : hon (nextSerial l).
Proof. apply hon_serial, nhon_next. Qed.

(** ** All goroutines *)
Ltac hh := repeat match goal with
  | |- honest _ _ _ (pbind (readConst _) _) => apply hon_readConst; [intros; reflexivity|intros ?]
  | |- honest _ _ _ (pbind (readSess _) _) => apply hon_readSess; [intros; reflexivity|intros ?]
  | |- honest _ _ _ (pbind _ _) => apply honest_bind; [|intros ?]
  | |- honest _ _ _ (pbindR _ _) => apply honest_bindR; [|intros ?]
  | |- honest _ _ _ (ret _) => exact Logic.I
  | |- honest _ _ _ (fail _) => exact Logic.I
  | |- honest _ _ _ panic => exact Logic.I
  | |- honest _ _ _ (lift _) => exact Logic.I
  | |- honest _ _ _ (Ret _) => exact Logic.I
  | |- honest _ _ _ (match ?x with _ => _ end) => destruct x
  | |- honest _ _ _ getNow => apply hon_getNow
  | |- honest _ _ _ (getDeviceByPlate _) => apply hon_byPlate
  | |- honest _ _ _ (getDeviceByPhone _) => apply hon_byPhone
  | |- honest _ _ _ (delGeoByPhone _) => apply hon_delGeo
  | |- honest _ _ _ (getDeviceParamsByPhone _) => apply hon_getParams
  | |- honest _ _ _ (cacheDeviceParams _) => apply hon_params
  | |- honest _ _ _ (cacheSegment _) => apply hon_seg
  | |- honest _ _ _ (getSession _) => apply hon_getSession
  | |- honest _ _ _ (storeSession _ _) => apply hon_store
  | |- honest _ _ _ (clearSession _) => apply hon_clear
  | |- honest _ _ _ countSession => apply hon_count
  | |- honest _ _ _ (timerAdd _) => apply hon_add
  | |- honest _ _ _ (timerCancel _) => apply hon_cancel
  | |- honest _ _ _ (connSend _ _ _) => apply hon_send
  | |- honest _ _ _ (connClose _) => apply hon_close
  | |- honest _ _ _ (readDev _) => apply hon_readDev
  | |- honest _ _ _ (writeDev _ _) => apply hon_writeDev
  | |- honest _ _ _ (allocDev _) => apply hon_allocDev
  | |- honest _ _ _ (cacheDevice _) => apply hon_cacheDevice
  | |- honest _ _ _ (delDeviceByPhone _) => apply hon_delDevice
  | |- honest _ _ _ (getGeoRingByPhone _) => apply hon_getRing
  | |- honest _ _ _ (nextSerial _) => apply hon_nextSerial
  | |- honest _ _ _ (lock _) => apply hon_lock
  | |- honest _ _ _ (unlock _) => apply hon_unlock
  | |- honest _ _ _ listDevice => apply hon_list
  | |- honest _ _ _ (opened _) => apply hon_opened
  | |- honest _ _ _ (wr1 [] (set_clock _)) => apply hon_clock
  end.
Lemma hon_process e sl p : hon (process e sl p).
Proof.
  unfold process, processSegment, process8001, process0002, process0003, process0100, process0102, process0200,
    process8100, process8103, process8104, process9205, timerRegister, hasPlate, hasPhone.
  hh. apply hon_onRing, rhon_write.
Qed.
Lemma hon_remove sl : hon (remove sl).
Proof. unfold remove. hh. Qed.
Lemma hon_write e c o w : hon (processConnWrite e c o w).
Proof. unfold processConnWrite. hh. Qed.
Lemma hon_serve e sl ins : hon (serveLoop e sl ins).
Proof.
  induction ins as [|[r w] t IH]; cbn [serveLoop]; [exact Logic.I|].
  unfold serveOne, processConnRead, decodeP. hh; first [apply hon_process|apply hon_write|apply hon_remove|exact IH].
Qed.
Lemma hon_ssend e i m w : hon (serverSend e i m w).
Proof. unfold serverSend. hh; first [apply hon_write|apply hon_remove]. Qed.
Lemma hon_code e g : hon (code e g).
Proof.
  destruct g as [c addr ins|sl ins|sl p|ph| |ph|ph w|ph bad ps w|now|]; cbn [code].
  - unfold connThread, accept. hh; first [apply hon_allocSess|apply hon_serve].
  - hh. apply hon_serve.
  - hh. apply hon_process.
  - unfold checkKeepalive, shouldTurnOffline, shouldClear. hh.
  - unfold apiList. hh.
  - unfold apiGeo, getGeoLatestByPhone. hh. apply hon_onRing, rhon_latest.
  - unfold apiGetParams, apiSession. hh; apply hon_ssend.
  - unfold apiPutParams, apiSession. hh; apply hon_ssend.
  - hh.
  - hh.
Qed.
Lemma memory_cells c : memory c -> (forall m, c <> CHold m) /\ (forall m, c <> CFree m).
Proof. destruct c; cbn; try contradiction; split; discriminate. Qed.
Lemma running_honest e gs s sch i p : nth_error (fst (running e gs s sch)) i = Some p ->
  honest_next with_cell here memory p.
Proof.
  intros H. apply honest_now. revert i p H. apply honest_steps. intros j q Hq. apply nth_error_In, in_map_iff in Hq.
  destruct Hq as (g & <- & _). apply hon_code.
Qed.
Lemma running_apart e gs s sch P : ~ races_on P (fst (running e gs s sch)) ->
  forall i j p q c, i <> j -> nth_error (fst (running e gs s sch)) i = Some p ->
    nth_error (fst (running e gs s sch)) j = Some q -> memory c -> P c -> apart with_cell here c p q.
Proof.
  intros Hr. apply honest_apart; [exact memory_cells| |exact Hr]. intros j p. apply running_honest.
Qed.

(** ** The parameter objects *)
Notation phon := (honest with_pcell phere pmemory).
Lemma phon_act {A} a f (k : pheap -> hp A) : honest_next with_pcell phere pmemory (Act a f k) -> (forall s, phon (k s)) -> phon (Act a f k).
Proof. intros H1 H2. split; assumption. Qed.
Lemma pwith_self c s : with_pcell c s s = s.
Proof.
  destruct s, c; try reflexivity; unfold with_pcell, set_obj; cbn; rewrite patch_self; try reflexivity; intros []; reflexivity.
Qed.
Ltac pn := let c := fresh "c" in let Hc := fresh "Hc" in intros c Hc; destruct c; cbn [pmemory] in Hc; try contradiction; split;
  first [ lst
        | right; intros ? ? ?; split; reflexivity
        | right; intros ? ?; match goal with |- with_pcell ?c _ ?s = _ => exact (pwith_self c s) end
        | idtac ].
Lemma phon_get ph : phon (hGet ph).
Proof. unfold hGet, rd1. apply phon_act; [pn|intros ?; exact Logic.I]. Qed.
Lemma phon_list l : phon (hList l).
Proof.
  unfold hList. apply phon_act; [|intros s; destruct (_ !! _); exact Logic.I].
  pn; (destruct (decide (l = l0)) as [->|Hn]; [try lst|]); right; intros t s Hs; (split; [reflexivity|]);
    cbn [with_pcell]; unfold set_obj; cbn [ph_obj]; rewrite lookup_patch;
    first [rewrite decide_False by exact Hn; reflexivity|rewrite decide_True by reflexivity].
  destruct (ph_obj s !! l0); cbn; [|reflexivity]. destruct (ph_obj t !! l0); reflexivity.
Qed.
Lemma phon_cnt l : phon (hCnt l).
Proof.
  unfold hCnt. apply phon_act; [|intros s; destruct (_ !! _); exact Logic.I].
  pn; (destruct (decide (l = l0)) as [->|Hn]; [try lst|]); right; intros t s Hs; (split; [reflexivity|]);
    cbn [with_pcell]; unfold set_obj; cbn [ph_obj]; rewrite lookup_patch;
    first [rewrite decide_False by exact Hn; reflexivity|rewrite decide_True by reflexivity].
  destruct (ph_obj s !! l0); cbn; [|reflexivity]. destruct (ph_obj t !! l0); reflexivity.
Qed.
Lemma patch_alter_eq {V} (g : V -> V -> V) l (t m : gmap nat V) h : (forall v' v, h (g v' v) = g v' (h v)) ->
  alter h l (patch g l t m) = patch g l t (alter h l m).
Proof.
  intros H. unfold patch. apply map_eq. intros i. destruct (decide (i = l)) as [->|Hn].
  - rewrite !lookup_alter. destruct (m !! l); cbn; [|reflexivity]. destruct (t !! l); [rewrite H|]; reflexivity.
  - rewrite !lookup_alter_ne by congruence. reflexivity.
Qed.
Lemma phon_alter l (h : devparams -> devparams) (c0 : cell) :
  (c0 = CParamList l /\ (forall d, dp_phone (h d) = dp_phone d /\ dp_cnt (h d) = dp_cnt d)
     /\ (forall d d', h (mkParams (dp_phone d) (dp_cnt d') (dp_list d)) = mkParams (dp_phone (h d)) (dp_cnt d') (dp_list (h d))))
  \/ (c0 = CParamCnt l /\ (forall d, dp_phone (h d) = dp_phone d /\ dp_list (h d) = dp_list d)
     /\ (forall d d', h (mkParams (dp_phone d) (dp_cnt d) (dp_list d')) = mkParams (dp_phone (h d)) (dp_cnt (h d)) (dp_list d'))) ->
  phon (wr1 [mkAcc c0 true Plain] (set_obj (alter h l))).
Proof.
  intros H. unfold wr1. apply phon_act; [|intros ?; exact Logic.I].
  assert (Hne : forall l0 g, l <> l0 -> (forall v, g v v = v) ->
     (forall t s, set_obj (alter h l) (set_obj (patch g l0 (ph_obj t)) s) = set_obj (patch g l0 (ph_obj t)) (set_obj (alter h l) s))
     /\ forall s, set_obj (patch g l0 (ph_obj (set_obj (alter h l) s))) s = s).
  { intros l0 g Hn Hg. split.
    - intros t s. unfold set_obj. cbn. f_equal. apply patch_alter_ne. exact Hn.
    - intros s. unfold set_obj. cbn. rewrite patch_same_ne; [destruct s; reflexivity| |exact Hg]. apply lookup_alter_ne. exact Hn. }
  intros c Hc. destruct c; cbn [pmemory] in Hc; try contradiction.
  - split; right; [intros ? ? ?; split; reflexivity|intros ? ?; match goal with |- with_pcell ?c _ ?s = _ => exact (pwith_self c s) end].
  - destruct (decide (l = l0)) as [<-|Hn].
    + destruct H as [( -> & _)|( -> & Hk & Hh)]; [split; lst|]. split; right.
      * intros t s Hs. split; [|reflexivity]. cbn [with_pcell]. unfold set_obj. cbn. f_equal. apply patch_alter_eq.
        intros v' v. apply Hh.
      * intros s Hs. cbn [with_pcell]. unfold set_obj. cbn. rewrite patch_same; [destruct s; reflexivity|].
        intros v v' Hv Hv'. rewrite lookup_alter, Hv in Hv'. cbn in Hv'. injection Hv' as <-.
        rewrite (proj2 (Hk v)). destruct v; reflexivity.
    + destruct (Hne l0 (fun d' d => mkParams (dp_phone d) (dp_cnt d) (dp_list d')) Hn) as (H1 & H2); [intros []; reflexivity|].
      split; right; [intros t s _; split; [apply H1|reflexivity]|intros s _; apply H2].
  - destruct (decide (l = l0)) as [<-|Hn].
    + destruct H as [( -> & Hk & Hh)|( -> & _)]; [|split; lst]. split; right.
      * intros t s Hs. split; [|reflexivity]. cbn [with_pcell]. unfold set_obj. cbn. f_equal. apply patch_alter_eq.
        intros v' v. apply Hh.
      * intros s Hs. cbn [with_pcell]. unfold set_obj. cbn. rewrite patch_same; [destruct s; reflexivity|].
        intros v v' Hv Hv'. rewrite lookup_alter, Hv in Hv'. cbn in Hv'. injection Hv' as <-.
        rewrite (proj2 (Hk v)). destruct v; reflexivity.
    + destruct (Hne l0 (fun d' d => mkParams (dp_phone d) (dp_cnt d') (dp_list d)) Hn) as (H1 & H2); [intros []; reflexivity|].
      split; right; [intros t s _; split; [apply H1|reflexivity]|intros s _; apply H2].
Qed.
Lemma phon_setList l ps : phon (hSetList l ps).
Proof. apply phon_alter. left. repeat split. Qed.
Lemma phon_setCnt l n : phon (hSetCnt l n).
Proof. apply phon_alter. right. repeat split. Qed.
Lemma phon_new d : phon (hNew d).
Proof.
  unfold hNew. apply phon_act; [|intros ?; exact Logic.I]. pn; right.
  1,3: intros t s Hs; cbn [with_pcell]; unfold set_obj; cbn [ph_obj ph_map]; rewrite dom_patch; (split; [|reflexivity]);
       f_equal; apply patch_insert_ne, not_fresh; exact Hs.
  all: intros s Hs; cbn [with_pcell]; unfold set_obj; cbn; rewrite patch_same_ne; [destruct s; reflexivity| |intros []; reflexivity];
       apply lookup_insert_ne, not_fresh; exact Hs.
Qed.
Lemma phon_cache l : phon (hCache l).
Proof.
  unfold hCache. apply phon_act; [|intros s; destruct (_ !! _); exact Logic.I]. pn; right.
  all: try (intros s Hs; destruct (ph_obj s !! l); match goal with |- with_pcell ?c _ ?s = _ => exact (pwith_self c s) end).
  all: intros t s Hs; cbn [with_pcell]; unfold set_obj; cbn [ph_obj ph_map]; rewrite lookup_patch;
       (destruct (decide (l = l0)) as [->|_]; [|split; [destruct (ph_obj s !! l)|]; reflexivity]);
       destruct Hs as (d & Hd); rewrite Hd; cbn; destruct (ph_obj t !! l0); split; reflexivity.
Qed.
Lemma phon_code m : phon (pcode m).
Proof.
  destruct m as [ph d|ph d]; cbn [pcode].
  - unfold hSet, hUpdate. apply honest_bind; [|intros _; exact Logic.I]. apply honest_bind; [apply phon_get|intros [l|]].
    + apply honest_bind; [|intros l'; apply phon_cache]. apply honest_bind; [|intros _; exact Logic.I].
      apply honest_bind; [apply phon_list|intros ps]. apply honest_bind; [apply phon_setList|intros _; apply phon_setCnt].
    + apply honest_bind; [apply phon_new|intros l'; apply phon_cache].
  - unfold hQuery. apply honest_bind; [|intros x; exact Logic.I]. apply honest_bind; [apply phon_get|intros c].
    apply honest_bind.
    + destruct c; [exact Logic.I|]. apply honest_bind; [apply phon_new|intros l]. apply honest_bind; [apply phon_cache|intros _; exact Logic.I].
    + intros l. apply honest_bind; [apply phon_cnt|intros n]. apply honest_bind; [apply phon_list|intros ps; exact Logic.I].
Qed.
Lemma pmemory_cells c : pmemory c -> (forall m, c <> CHold m) /\ (forall m, c <> CFree m).
Proof. destruct c; cbn; try contradiction; split; discriminate. Qed.
Lemma prunning_honest ms h sch i p : nth_error (fst (prunning ms h sch)) i = Some p -> honest_next with_pcell phere pmemory p.
Proof.
  intros H. apply honest_now. revert i p H. apply honest_steps. intros j q Hq. apply nth_error_In, in_map_iff in Hq.
  destruct Hq as (m & <- & _). apply phon_code.
Qed.
Lemma prunning_apart ms h sch P : ~ races_on P (fst (prunning ms h sch)) ->
  forall i j p q c, i <> j -> nth_error (fst (prunning ms h sch)) i = Some p ->
    nth_error (fst (prunning ms h sch)) j = Some q -> pmemory c -> P c -> apart with_pcell phere c p q.
Proof.
  intros Hr. apply honest_apart; [exact pmemory_cells| |exact Hr]. intros j p. apply prunning_honest.
Qed.
