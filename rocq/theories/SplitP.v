(** Goroutines of two groups of terminals that share no phone, plate, address and connection: every
    interleaving is one of each group alone *)
From stdpp Require Import gmap.
From Verif Require Import Base HexM TimeM HeaderM ParamsM GeoM MsgM PacketM FrameM ProgM ProgP RingM SpecRing
  StateM ProcM ServerM ConcM SpecState SpecConc SpecSplit ProcP IsoP.
Local Open Scope N_scope.

Section Split.
Context (k : group).
Notation P := (in_phone k).
Notation W := (in_plate k).
Notation A := (in_addr k).
Notation C := (in_conn k).

(** The objects of a side may lie at different places when the side runs alone and when it runs
    with the other one.  A world tells which places correspond. *)
Record wld : Type := mkWld { wd : nat -> nat -> Prop; wr : nat -> nat -> Prop; ws : nat -> nat -> Prop }.
Definition wle (a b : wld) : Prop :=
  (forall x y, wd a x y -> wd b x y) /\ (forall x y, wr a x y -> wr b x y) /\ (forall x y, ws a x y -> ws b x y).
Lemma wle_refl a : wle a a.
Proof. repeat split; auto. Qed.
Lemma wle_trans a b c : wle a b -> wle b c -> wle a c.
Proof. intros (A1 & A2 & A3) (B1 & B2 & B3). repeat split; auto. Qed.
Definition bij (R : nat -> nat -> Prop) : Prop :=
  (forall x y y', R x y -> R x y' -> y = y') /\ (forall x x' y, R x y -> R x' y -> x = x').
Definition orel (R : nat -> nat -> Prop) (x y : option nat) : Prop :=
  match x, y with None, None => True | Some a, Some b => R a b | _, _ => False end.
Definition add (R : nat -> nat -> Prop) (a b : nat) : nat -> nat -> Prop := fun x y => R x y \/ (x = a /\ y = b).
Lemma orel_le (R R' : nat -> nat -> Prop) x y : (forall a b, R a b -> R' a b) -> orel R x y -> orel R' x y.
Proof. destruct x, y; cbn; auto. Qed.
Lemma bij_add (R : nat -> nat -> Prop) a b : bij R -> (forall y, ~ R a y) -> (forall x, ~ R x b) -> bij (add R a b).
Proof.
  intros (H1 & H2) Ha Hb. split; unfold add.
  - intros x y y' [H|[-> ->]] [H'|[E ->]]; eauto; try subst; firstorder.
  - intros x x' y [H|[-> ->]] [H'|[E E']]; eauto; try subst; firstorder.
Qed.

(** the side [b] in the state [u] of its own run and in the state [s] of the common run *)
Record sim (b : bool) (w : wld) (u s : st) : Prop := {
  sm_dev : forall x y, wd w x y -> exists d, st_devs u !! x = Some d /\ st_devs s !! y = Some d /\ dev_in k b d;
  sm_dbij : bij (wd w);
  sm_phone : forall ph, P ph = b -> orel (wd w) (st_byPhone u !! ph) (st_byPhone s !! ph);
  sm_plate : forall p, W p = b -> orel (wd w) (st_byPlate u !! p) (st_byPlate s !! p);
  sm_ring : forall x y, wr w x y -> exists r, st_rings u !! x = Some r /\ st_rings s !! y = Some r;
  sm_rbij : bij (wr w);
  sm_geo : forall ph, P ph = b -> orel (wr w) (st_geo u !! ph) (st_geo s !! ph);
  sm_params : forall ph, P ph = b -> st_params u !! ph = st_params s !! ph;
  sm_dp : forall ph d, P ph = b -> st_params u !! ph = Some d -> P (dp_phone d) = b;
  sm_segs : forall ph id, P ph = b -> ~ In 47 ph -> st_segs u !! segKey ph id = st_segs s !! segKey ph id;
  sm_sess : forall x y, ws w x y -> exists z, st_sess u !! x = Some z /\ st_sess s !! y = Some z /\ sess_in k b z;
  sm_sbij : bij (ws w);
  sm_id : forall a, A a = b -> orel (ws w) (st_byID u !! a) (st_byID s !! a);
  sm_conn : forall c, C c = b -> st_conns u !! c = st_conns s !! c;
  sm_jobs : base.filter (fun ph => P ph = b) (st_jobs u) = base.filter (fun ph => P ph = b) (st_jobs s);
  sm_clock : st_clock u = st_clock s
}.
Definition Inv (b : bool) (w : wld) (u : st) (w' : wld) (u' : st) (s : st) : Prop :=
  sim b w u s /\ sim (negb b) w' u' s /\ (forall x x' y, wr w x y -> wr w' x' y -> False).

Lemma Inv_sym b w u w' u' s : Inv b w u w' u' s -> Inv (negb b) w' u' w u s.
Proof. intros (H1 & H2 & H3). split; [exact H2|]. split; [rewrite negb_involutive; exact H1|]. intros; eapply H3; eauto. Qed.

(** The same results, up to the places of objects. *)
Definition agr {X} (Q : X -> X -> Prop) (r1 r2 : res X) : Prop :=
  match r1, r2 with Ok a, Ok b => Q a b | Err e, Err e' => e = e' | Panic, Panic => True | _, _ => False end.

(** [p1] in the run of the side alone and [p2] in the common run go hand in hand. *)
Fixpoint lk {X} (b : bool) (Q : wld -> X -> X -> Prop) (w0 : wld) (p1 p2 : sp X) {struct p1} : Prop :=
  match p1, p2 with
  | Ret r1, Ret r2 => agr (Q w0) r1 r2
  | Act _ f1 k1, Act _ f2 k2 =>
      forall w w' u u' s, wle w0 w -> Inv b w u w' u' s ->
        exists w2, wle w w2 /\ Inv b w2 (f1 u) w' u' (f2 s) /\ lk b Q w2 (k1 u) (k2 s)
  | _, _ => False
  end.

Section Side.
Context (b : bool).
Notation L := (lk b).
Definition mono {X} (Q : wld -> X -> X -> Prop) : Prop := forall w w' x y, wle w w' -> Q w x y -> Q w' x y.
Lemma lk_mono {X} (Q : wld -> X -> X -> Prop) w w' p1 p2 : mono Q -> wle w w' -> L Q w p1 p2 -> L Q w' p1 p2.
Proof.
  intros Hm Hw. destruct p1 as [r1|a1 f1 k1], p2 as [r2|a2 f2 k2]; cbn; try tauto.
  - unfold agr. destruct r1, r2; try tauto. apply Hm. exact Hw.
  - intros H v v' u u' s Hv Hi. exact (H v v' u u' s (wle_trans _ _ _ Hw Hv) Hi).
Qed.
Lemma lk_bindR {X Y} (Q : wld -> X -> X -> Prop) (Q' : wld -> Y -> Y -> Prop) g1 g2 p1 : forall w p2,
  L Q w p1 p2 -> (forall v r1 r2, wle w v -> agr (Q v) r1 r2 -> L Q' v (g1 r1) (g2 r2)) -> L Q' w (pbindR p1 g1) (pbindR p2 g2).
Proof.
  induction p1 as [r1|a1 f1 k1 IH]; intros w [r2|a2 f2 k2]; cbn; try tauto.
  - intros H Hg. apply Hg; [apply wle_refl|exact H].
  - intros H Hg v v' u u' s Hv Hi. destruct (H v v' u u' s Hv Hi) as (w2 & H1 & H2 & H3). exists w2. split; [exact H1|]. split; [exact H2|].
    apply IH; [exact H3|]. intros x r1 r2 Hx. apply Hg. eapply wle_trans; [exact Hv|]. eapply wle_trans; [exact H1|exact Hx].
Qed.
Lemma lk_bind {X Y} (Q : wld -> X -> X -> Prop) (Q' : wld -> Y -> Y -> Prop) w p1 p2 g1 g2 :
  L Q w p1 p2 -> (forall v x y, wle w v -> Q v x y -> L Q' v (g1 x) (g2 y)) -> L Q' w (pbind p1 g1) (pbind p2 g2).
Proof.
  intros H Hg. unfold pbind. eapply lk_bindR; [exact H|]. intros v [x|x|] [y|y|] Hv; cbn; try tauto; auto.
Qed.
Definition anyQ {X} : wld -> X -> X -> Prop := fun _ _ _ => True.
Definition eqQ {X} : wld -> X -> X -> Prop := fun _ x y => x = y.
Lemma lk_ret {X} (Q : wld -> X -> X -> Prop) w x y : Q w x y -> L Q w (ret x) (ret y).
Proof. intros H. exact H. Qed.
Lemma lk_fail {X} (Q : wld -> X -> X -> Prop) w e : L Q w (fail e) (fail e).
Proof. reflexivity. Qed.
Lemma lk_panic {X} (Q : wld -> X -> X -> Prop) w : L Q w panic panic.
Proof. exact I. Qed.
Lemma lk_lift {X} w (r : res X) : L (fun _ x y => x = y /\ r = Ok x) w (lift r) (lift r).
Proof. destruct r; cbn; auto. Qed.
Lemma lk_weak {X} (Q Q' : wld -> X -> X -> Prop) p1 : forall w p2,
  (forall v x y, wle w v -> Q v x y -> Q' v x y) -> L Q w p1 p2 -> L Q' w p1 p2.
Proof.
  induction p1 as [r1|a1 f1 k1 IH]; intros w [r2|a2 f2 k2] HQ; cbn; try tauto.
  - unfold agr. destruct r1, r2; try tauto. apply HQ, wle_refl.
  - intros H v v' u u' s Hv Hi. destruct (H v v' u u' s Hv Hi) as (w2 & H1 & H2 & H3). exists w2. split; [exact H1|]. split; [exact H2|].
    apply IH; [|exact H3]. intros v2 x y Hx. apply HQ. eapply wle_trans; [exact Hv|]. eapply wle_trans; [exact H1|exact Hx].
Qed.
Lemma lk_any {X} (Q : wld -> X -> X -> Prop) w p1 p2 : L Q w p1 p2 -> L anyQ w p1 p2.
Proof. apply lk_weak. intros; exact I. Qed.

(** an action that only looks *)
Lemma lk_look {X} (Q : wld -> X -> X -> Prop) w a1 a2 k1 k2 :
  (forall v u s, wle w v -> sim b v u s -> L Q v (k1 u) (k2 s)) -> L Q w (Act a1 (fun s => s) k1) (Act a2 (fun s => s) k2).
Proof.
  intros H v v' u u' s Hv Hi. exists v. split; [apply wle_refl|]. split; [exact Hi|]. apply H; [exact Hv|apply Hi].
Qed.
Lemma lk_rd {X} (Q : wld -> X -> X -> Prop) w a1 a2 g1 g2 :
  (forall v u s, wle w v -> sim b v u s -> Q v (g1 u) (g2 s)) -> L Q w (rd1 a1 g1) (rd1 a2 g2).
Proof. intros H. apply lk_look. intros v u s Hv Hs. apply lk_ret. apply H; assumption. Qed.
(** an action that changes objects the world knows *)
Lemma lk_act {X} (Q : wld -> X -> X -> Prop) w a1 a2 f1 f2 k1 k2 :
  (forall v u s, wle w v -> sim b v u s -> sim b v (f1 u) (f2 s) /\ L Q v (k1 u) (k2 s)) ->
  (forall v v' u u' s, wle w v -> Inv b v u v' u' s -> sim (negb b) v' u' (f2 s)) ->
  L Q w (Act a1 f1 k1) (Act a2 f2 k2).
Proof.
  intros H H' v v' u u' s Hv Hi. exists v. split; [apply wle_refl|]. destruct (H v u s Hv (proj1 Hi)) as (H1 & H2).
  split; [|exact H2]. split; [exact H1|]. split; [exact (H' v v' u u' s Hv Hi)|apply Hi].
Qed.
Lemma lk_wr w a1 a2 f1 f2 :
  (forall v u s, wle w v -> sim b v u s -> sim b v (f1 u) (f2 s)) ->
  (forall v v' u u' s, wle w v -> Inv b v u v' u' s -> sim (negb b) v' u' (f2 s)) ->
  L anyQ w (wr1 a1 f1) (wr1 a2 f2).
Proof. intros H H'. apply lk_act; [|exact H']. intros v u s Hv Hs. split; [apply H; assumption|exact I]. Qed.

Lemma other x : x = b -> x = negb b -> False.
Proof. intros -> H. destruct b; discriminate. Qed.

(** ** Devices *)
Definition devQ : wld -> nat -> nat -> Prop := fun w x y => wd w x y.
Definition optQ {X} (Q : wld -> X -> X -> Prop) : wld -> option X -> option X -> Prop :=
  fun w x y => match x, y with None, None => True | Some a, Some c => Q w a c | _, _ => False end.
Lemma mono_dev : mono devQ.
Proof. intros w w' x y H. apply H. Qed.

Lemma k_byPhone w ph : P ph = b -> L (optQ devQ) w (getDeviceByPhone ph) (getDeviceByPhone ph).
Proof. intros H. apply lk_rd. intros v u s _ Hs. exact (sm_phone _ _ _ _ Hs ph H). Qed.
Lemma k_hasPhone w ph : P ph = b -> L eqQ w (hasPhone ph) (hasPhone ph).
Proof.
  intros H. unfold hasPhone. eapply lk_bind; [apply k_byPhone; exact H|]. intros v [x|] [y|] _ Hx; cbn in Hx; try tauto; reflexivity.
Qed.
Lemma k_hasPlate w p : W p = b -> L eqQ w (hasPlate p) (hasPlate p).
Proof.
  intros H. unfold hasPlate. eapply (lk_bind (optQ devQ)).
  - apply lk_rd. intros v u s _ Hs. exact (sm_plate _ _ _ _ Hs p H).
  - intros v [x|] [y|] _ Hx; cbn in Hx; try tauto; reflexivity.
Qed.
Definition oneD : wld -> device -> device -> Prop := fun _ d d' => d = d' /\ dev_in k b d.
Lemma k_readDevA w a1 a2 x y : wd w x y ->
  L oneD w (Act a1 (fun s => s) (fun s => match st_devs s !! x with Some d => ret d | None => panic end))
           (Act a2 (fun s => s) (fun s => match st_devs s !! y with Some d => ret d | None => panic end)).
Proof.
  intros H. apply lk_look. intros v u s Hv Hs. destruct (sm_dev _ _ _ _ Hs x y (proj1 Hv _ _ H)) as (d & -> & -> & Hd).
  apply lk_ret. split; [reflexivity|exact Hd].
Qed.
Lemma k_readConst w x y : wd w x y -> L oneD w (readConst x) (readConst y).
Proof. apply k_readDevA. Qed.
Lemma k_readDev w x y : wd w x y -> L oneD w (readDev x) (readDev y).
Proof. apply k_readDevA. Qed.

Ltac keep H := destruct H; constructor; cbn; try assumption; auto.
Lemma k_writeDev w x y f : wd w x y -> (forall d, dev_in k b d -> dev_in k b (f d)) -> L anyQ w (writeDev x f) (writeDev y f).
Proof.
  intros H Hf. apply lk_wr.
  - intros v u s Hv Hs. pose proof (proj1 Hv _ _ H) as Hxy. pose proof (sm_dev _ _ _ _ Hs) as Hd. pose proof (sm_dbij _ _ _ _ Hs) as (B1 & B2).
    keep Hs. intros x' y' H'. destruct (Hd x' y' H') as (d & E1 & E2 & E3). destruct (decide (x = x')) as [<-|Hn].
    + assert (y' = y) as -> by (eapply B1; eassumption). exists (f d). rewrite !lookup_alter, E1, E2. cbn. auto.
    + exists d. rewrite !lookup_alter_ne; [auto| |congruence]. intros <-. apply Hn. eapply B2; eassumption.
  - intros v v' u u' s Hv (Hs & Hs' & _). destruct (sm_dev _ _ _ _ Hs x y (proj1 Hv _ _ H)) as (d & _ & E & Hd).
    pose proof (sm_dev _ _ _ _ Hs') as Hd'. keep Hs'. intros x' y' H'. destruct (Hd' x' y' H') as (d' & E1 & E2 & E3).
    exists d'. rewrite lookup_alter_ne; [auto|]. intros <-. assert (d' = d) as -> by congruence.
    exact (other _ (proj1 Hd) (proj1 E3)).
Qed.

Lemma orel_insert (R : nat -> nat -> Prop) (m m' : gmap str nat) p q x y : R x y -> orel R (m !! q) (m' !! q) -> orel R (<[p := x]> m !! q) (<[p := y]> m' !! q).
Proof. intros H H'. destruct (decide (p = q)) as [<-|Hn]; [rewrite !lookup_insert; exact H|rewrite !lookup_insert_ne by exact Hn; exact H']. Qed.
Lemma orel_delete (R : nat -> nat -> Prop) (m m' : gmap str nat) p q : orel R (m !! q) (m' !! q) -> orel R (delete p m !! q) (delete p m' !! q).
Proof. intros H'. destruct (decide (p = q)) as [<-|Hn]; [rewrite !lookup_delete; exact I|rewrite !lookup_delete_ne by exact Hn; exact H']. Qed.
Lemma k_cacheDevice w x y : wd w x y -> L anyQ w (cacheDevice x) (cacheDevice y).
Proof.
  intros H. apply lk_wr.
  - intros v u s Hv Hs. pose proof (proj1 Hv _ _ H) as Hxy. destruct (sm_dev _ _ _ _ Hs x y Hxy) as (d & -> & -> & Hd).
    keep Hs.
    + intros ph Hp. apply orel_insert; auto.
    + intros p Hp. apply orel_insert; auto.
  - intros v v' u u' s Hv (Hs & Hs' & _). destruct (sm_dev _ _ _ _ Hs x y (proj1 Hv _ _ H)) as (d & _ & -> & Hd).
    keep Hs'.
    + intros ph Hp. rewrite lookup_insert_ne; [auto|]. intros <-. exact (other _ (proj1 Hd) Hp).
    + intros p Hp. rewrite lookup_insert_ne; [auto|]. intros <-. exact (other _ (proj1 (proj2 Hd)) Hp).
Qed.
Lemma k_delDevice w ph : P ph = b -> L anyQ w (delDeviceByPhone ph) (delDeviceByPhone ph).
Proof.
  intros H. apply lk_wr.
  - intros v u s Hv Hs. pose proof (sm_phone _ _ _ _ Hs ph H) as Hp. destruct (st_byPhone u !! ph) as [x|], (st_byPhone s !! ph) as [y|]; cbn in Hp; try tauto.
    destruct (sm_dev _ _ _ _ Hs x y Hp) as (d & -> & -> & Hd). keep Hs.
    + intros q Hq. apply orel_delete; auto.
    + intros p Hq. apply orel_delete; auto.
  - intros v v' u u' s Hv (Hs & Hs' & _). pose proof (sm_phone _ _ _ _ Hs ph H) as Hp.
    destruct (st_byPhone u !! ph) as [x|], (st_byPhone s !! ph) as [y|]; cbn in Hp; try tauto.
    destruct (sm_dev _ _ _ _ Hs x y Hp) as (d & _ & -> & Hd). keep Hs'.
    + intros q Hq. rewrite lookup_delete_ne; [auto|]. intros <-. exact (other _ (proj1 Hd) Hq).
    + intros p Hq. rewrite lookup_delete_ne; [auto|]. intros <-. exact (other _ (proj1 (proj2 Hd)) Hq).
Qed.
Lemma fresh_dev s : st_devs s !! fresh (dom (st_devs s)) = None.
Proof. apply not_elem_of_dom, is_fresh. Qed.
Lemma k_allocDev w d : dev_in k b d -> L devQ w (allocDev d) (allocDev d).
Proof.
  intros Hd v v' u u' s Hv (Hs & Hs' & Hr).
  set (x := fresh (dom (st_devs u))). set (y := fresh (dom (st_devs s))).
  pose proof (fresh_dev u) as Fu. pose proof (fresh_dev s) as Fs. fold x in Fu. fold y in Fs.
  exists (mkWld (add (wd v) x y) (wr v) (ws v)). split; [repeat split; auto; intros ? ? ?; left; assumption|].
  split; [|cbn; right; auto]. split; [|split; [|exact Hr]].
  - pose proof (sm_dev _ _ _ _ Hs) as Sd. keep Hs.
    + intros x' y' [H|[-> ->]].
      * destruct (Sd x' y' H) as (d' & E1 & E2 & E3). exists d'. rewrite !lookup_insert_ne by congruence. auto.
      * exists d. rewrite !lookup_insert. auto.
    + apply bij_add; [assumption|..].
      * intros y' H. destruct (Sd _ _ H) as (d' & E1 & E2 & E3). congruence.
      * intros x' H. destruct (Sd _ _ H) as (d' & E1 & E2 & E3). congruence.
    + intros ph Hp. eapply orel_le; [|eauto]. intros ? ? ?; left; assumption.
    + intros ph Hp. eapply orel_le; [|eauto]. intros ? ? ?; left; assumption.
  - pose proof (sm_dev _ _ _ _ Hs') as Sd. keep Hs'. intros x' y' H.
    destruct (Sd x' y' H) as (d' & E1 & E2 & E3). exists d'. rewrite !lookup_insert_ne by congruence. auto.
Qed.
Lemma k_getNow w : L eqQ w getNow getNow.
Proof. apply lk_rd. intros v u s _ Hs. exact (sm_clock _ _ _ _ Hs). Qed.

(** ** Location buffers *)
Definition ringQ : wld -> nat -> nat -> Prop := fun w x y => wr w x y.
Lemma k_getRing w ph : P ph = b -> L ringQ w (getGeoRingByPhone ph) (getGeoRingByPhone ph).
Proof.
  intros H v v' u u' s Hv (Hs & Hs' & Hr). pose proof (sm_geo _ _ _ _ Hs ph H) as Hg. cbv beta.
  destruct (st_geo u !! ph) as [x|] eqn:Eu, (st_geo s !! ph) as [y|] eqn:Es; cbn in Hg; try tauto.
  - exists v. split; [apply wle_refl|]. split; [exact (conj Hs (conj Hs' Hr))|exact Hg].
  - set (x := fresh (dom (st_rings u))). set (y := fresh (dom (st_rings s))).
    pose proof (fresh_ring u) as Fu. pose proof (fresh_ring s) as Fs. fold x in Fu. fold y in Fs.
    exists (mkWld (wd v) (add (wr v) x y) (ws v)). split; [repeat split; auto; intros ? ? ?; left; assumption|].
    split; [|cbn; right; auto]. split; [|split].
    + pose proof (sm_ring _ _ _ _ Hs) as Sd. keep Hs.
      * intros x' y' [H1|[-> ->]].
        -- destruct (Sd x' y' H1) as (d' & E1 & E2). exists d'. rewrite !lookup_insert_ne by congruence. auto.
        -- eexists. rewrite !lookup_insert. auto.
      * apply bij_add; [assumption|..].
        -- intros y' H1. destruct (Sd _ _ H1) as (d' & E1 & E2). congruence.
        -- intros x' H1. destruct (Sd _ _ H1) as (d' & E1 & E2). congruence.
      * intros q Hq. apply orel_insert; [right; auto|]. eapply orel_le; [|eauto]. intros ? ? ?; left; assumption.
    + pose proof (sm_ring _ _ _ _ Hs') as Sd. keep Hs'.
      * intros x' y' H1. destruct (Sd x' y' H1) as (d' & E1 & E2). exists d'. rewrite !lookup_insert_ne by congruence. auto.
      * intros q Hq. rewrite lookup_insert_ne; [auto|]. intros <-. exact (other _ H Hq).
    + intros a a' z [H1|[-> ->]] H2; [exact (Hr _ _ _ H1 H2)|].
      destruct (sm_ring _ _ _ _ Hs' _ _ H2) as (d' & E1 & E2). congruence.
Qed.
(** programs that differ in their labels only *)
Fixpoint like {T X} (p1 p2 : prog T X) {struct p1} : Prop :=
  match p1, p2 with
  | Ret r1, Ret r2 => r1 = r2
  | Act _ f1 k1, Act _ f2 k2 => forall t, f1 t = f2 t /\ like (k1 t) (k2 t)
  | _, _ => False
  end.
Lemma lk_zoom {T X} (get1 get2 : st -> T) put1 put2 (p1 : prog T X) : forall w p2, like p1 p2 ->
  (forall v u s, wle w v -> sim b v u s -> get1 u = get2 s /\ forall t, sim b v (put1 t u) (put2 t s)) ->
  (forall v v' u u' s t, wle w v -> Inv b v u v' u' s -> sim (negb b) v' u' (put2 t s)) ->
  L eqQ w (zoom get1 put1 p1) (zoom get2 put2 p2).
Proof.
  induction p1 as [r1|a1 f1 k1 IH]; intros w [r2|a2 f2 k2]; cbn [like zoom]; try tauto.
  - intros -> _ _. cbn. destruct r2; cbn; auto. reflexivity.
  - intros Hl H1 H2. apply lk_act.
    + intros v u s Hv Hs. destruct (H1 v u s Hv Hs) as (E & H3). rewrite <- E. destruct (Hl (get1 u)) as (E1 & H4). rewrite <- E1.
      split; [apply H3|]. apply IH; [exact H4|..].
      * intros v2 u2 s2 Hv2. apply H1. eapply wle_trans; eassumption.
      * intros v2 v2' u2 u2' s2 t Hv2. apply H2. eapply wle_trans; eassumption.
    + intros v v' u u' s Hv Hi. eapply H2; eassumption.
Qed.
Lemma k_onRing {X} w x y (p1 p2 : prog (ring devgeo) X) : wr w x y -> like p1 p2 -> L eqQ w (onRing x p1) (onRing y p2).
Proof.
  intros H Hl. unfold onRing. apply lk_zoom; [exact Hl|..].
  - intros v u s Hv Hs. pose proof (proj1 (proj2 Hv) _ _ H) as Hxy. destruct (sm_ring _ _ _ _ Hs x y Hxy) as (r & E1 & E2).
    split; [unfold ringAt; rewrite E1, E2; reflexivity|]. intros t. pose proof (sm_ring _ _ _ _ Hs) as Hd. pose proof (sm_rbij _ _ _ _ Hs) as (B1 & B2).
    keep Hs. intros x' y' H'. destruct (Hd x' y' H') as (d & F1 & F2). destruct (decide (x = x')) as [<-|Hn].
    + assert (y' = y) as -> by (eapply B1; eassumption). exists t. rewrite !lookup_insert. auto.
    + exists d. rewrite !lookup_insert_ne; [auto| |congruence]. intros <-. apply Hn. eapply B2; eassumption.
  - intros v v' u u' s t Hv (Hs & Hs' & Hr). pose proof (proj1 (proj2 Hv) _ _ H) as Hxy.
    pose proof (sm_ring _ _ _ _ Hs') as Hd'. keep Hs'. intros x' y' H'. destruct (Hd' x' y' H') as (d' & E1 & E2).
    exists d'. rewrite lookup_insert_ne; [auto|]. intros <-. exact (Hr _ _ _ Hxy H').
Qed.
Lemma like_refl {T X} (p : prog T X) : like p p.
Proof. induction p as [r|a f g IH]; cbn; auto. Qed.
Lemma like_bindR {T X Y} (p1 : prog T X) : forall p2 (g1 g2 : res X -> prog T Y),
  like p1 p2 -> (forall r, like (g1 r) (g2 r)) -> like (pbindR p1 g1) (pbindR p2 g2).
Proof.
  induction p1 as [r1|a1 f1 k1 IH]; intros [r2|a2 f2 k2] g1 g2; cbn; try tauto.
  - intros -> H. apply H.
  - intros H Hg t. destruct (H t) as (E & H'). auto.
Qed.
Lemma like_bind {T X Y} (p1 p2 : prog T X) (g1 g2 : X -> prog T Y) : like p1 p2 -> (forall x, like (g1 x) (g2 x)) -> like (pbind p1 g1) (pbind p2 g2).
Proof. intros H Hg. apply like_bindR; [exact H|]. intros [x| |]; cbn; auto. Qed.
Lemma like_write {X} x y (v : option X) : like (ringWrite x v) (ringWrite y v).
Proof.
  unfold ringWrite. apply like_bind; [cbn; auto|]. intros c. apply like_bind; [intros t; split; [reflexivity|apply like_refl]|].
  intros _. apply like_bind; [cbn; auto|]. intros z. cbn. auto.
Qed.
Lemma like_latest {X} x y : like (ringLatest (A := X) x) (ringLatest y).
Proof.
  unfold ringLatest. apply like_bind; [cbn; auto|]. intros c. destruct (c =? 0)%Z; [apply like_refl|].
  apply like_bind; [cbn; auto|]. intros z. apply like_bind; [cbn; auto|]. intros z'. intros t. split; [reflexivity|apply like_refl].
Qed.
Lemma k_delGeo w ph : P ph = b -> L anyQ w (delGeoByPhone ph) (delGeoByPhone ph).
Proof.
  intros H. apply lk_wr.
  - intros v u s _ Hs. keep Hs. intros q Hq. apply orel_delete; auto.
  - intros v v' u u' s _ (Hs & Hs' & Hr). keep Hs'. intros q Hq. rewrite lookup_delete_ne; [auto|]. intros <-. exact (other _ H Hq).
Qed.
Lemma k_geoLatest w ph : P ph = b -> L eqQ w (getGeoLatestByPhone ph) (getGeoLatestByPhone ph).
Proof.
  intros H. unfold getGeoLatestByPhone. eapply lk_bind; [apply k_getRing; exact H|]. intros v x y _ Hxy.
  apply k_onRing; [exact Hxy|apply like_latest].
Qed.

(** ** Parameters, segments, jobs *)
Lemma k_getParams w ph : P ph = b -> L (fun _ c c' => c = c' /\ forall d, c = Some d -> P (dp_phone d) = b) w (getDeviceParamsByPhone ph) (getDeviceParamsByPhone ph).
Proof.
  intros H. apply lk_rd. intros v u s _ Hs. split; [exact (sm_params _ _ _ _ Hs ph H)|]. intros d. exact (sm_dp _ _ _ _ Hs ph d H).
Qed.
Lemma k_cacheParams w d : P (dp_phone d) = b -> L anyQ w (cacheDeviceParams d) (cacheDeviceParams d).
Proof.
  intros H. apply lk_wr.
  - intros v u s _ Hs. keep Hs.
    + intros q Hq. destruct (decide (dp_phone d = q)) as [<-|Hn]; [rewrite !lookup_insert; reflexivity|rewrite !lookup_insert_ne by exact Hn; auto].
    + intros q d' Hq. destruct (decide (dp_phone d = q)) as [<-|Hn]; [rewrite lookup_insert; intros [= <-]; exact H|rewrite lookup_insert_ne by exact Hn; eauto].
  - intros v v' u u' s _ (Hs & Hs' & Hr). keep Hs'. intros q Hq. rewrite lookup_insert_ne; [auto|]. intros <-. exact (other _ H Hq).
Qed.
Lemma key_phone p i q j : ~ In 47 p -> ~ In 47 q -> segKey p i = segKey q j -> p = q.
Proof.
  unfold segKey. revert q. induction p as [|a p IH]; intros [|c q]; cbn; intros Hp Hq; try congruence.
  - intros [= <- _]. exfalso. apply Hq. auto.
  - intros [= -> _]. exfalso. apply Hp. auto.
  - intros [= -> E]. f_equal. apply IH; tauto.
Qed.
Lemma k_cacheSegment w x : P (sg_phone x) = b -> ~ In 47 (sg_phone x) -> L eqQ w (cacheSegment x) (cacheSegment x).
Proof.
  intros H Hd. unfold cacheSegment. apply lk_act.
  - intros v u s _ Hs. rewrite (sm_segs _ _ _ _ Hs _ (sg_id x) H Hd). split.
    + keep Hs. intros q i Hq Hi. match goal with |- context [<[?key := _]> (st_segs u)] => destruct (decide (key = segKey q i)) as [<-|Hn] end.
      * rewrite !lookup_insert. reflexivity.
      * rewrite !lookup_insert_ne by exact Hn. auto.
    + destruct (st_segs s !! _); [reflexivity|exact I].
  - intros v v' u u' s _ (Hs & Hs' & Hr). keep Hs'. intros q i Hq Hi. rewrite lookup_insert_ne; [auto|].
    intros E. apply key_phone in E; [|assumption..]. subst q. exact (other _ H Hq).
Qed.
Lemma k_timerAdd w ph : P ph = b -> L anyQ w (timerAdd ph) (timerAdd ph).
Proof.
  intros H. apply lk_wr.
  - intros v u s _ Hs. keep Hs. rewrite !list.filter_app. congruence.
  - intros v v' u u' s _ (Hs & Hs' & Hr). keep Hs'. rewrite list.filter_app, (filter_cons_False (fun q => P q = negb b)) by (intros E; exact (other _ H E)).
    rewrite filter_nil, app_nil_r. assumption.
Qed.
Lemma filter_swap (X Y : str -> Prop) `{forall x, Decision (X x)} `{forall x, Decision (Y x)} (l : list str) :
  base.filter X (base.filter Y l) = base.filter Y (base.filter X l).
Proof.
  rewrite !list_filter_filter. apply list_filter_iff. intros x. tauto.
Qed.
Lemma k_timerCancel w ph : P ph = b -> L anyQ w (timerCancel ph) (timerCancel ph).
Proof.
  intros H. apply lk_wr.
  - intros v u s _ Hs. keep Hs. rewrite filter_swap, (filter_swap _ _ (st_jobs s)). congruence.
  - intros v v' u u' s _ (Hs & Hs' & Hr). keep Hs'. rewrite list_filter_filter.
    rewrite sm_jobs0. apply list_filter_iff. intros q. split; [|tauto]. intros Hq. split; [exact Hq|]. intros ->. exact (other _ H Hq).
Qed.

(** ** Sessions and connections *)
Definition sessQ : wld -> nat -> nat -> Prop := fun w x y => ws w x y.
Definition oneS : wld -> session -> session -> Prop := fun _ z z' => z = z' /\ sess_in k b z.
Lemma k_getSession w a : A a = b -> L (optQ sessQ) w (getSession a) (getSession a).
Proof. intros H. apply lk_rd. intros v u s _ Hs. exact (sm_id _ _ _ _ Hs a H). Qed.
Lemma k_readSess w x y : ws w x y -> L oneS w (readSess x) (readSess y).
Proof.
  intros H. apply lk_look. intros v u s Hv Hs. destruct (sm_sess _ _ _ _ Hs x y (proj2 (proj2 Hv) _ _ H)) as (z & -> & -> & Hz).
  apply lk_ret. split; [reflexivity|exact Hz].
Qed.
Lemma k_storeSession w a x y : A a = b -> ws w x y -> L anyQ w (storeSession a x) (storeSession a y).
Proof.
  intros Ha H. apply lk_wr.
  - intros v u s Hv Hs. keep Hs. intros i Hi. apply orel_insert; auto. apply Hv. exact H.
  - intros v v' u u' s _ (Hs & Hs' & Hr). keep Hs'. intros i Hi. rewrite lookup_insert_ne; [auto|]. intros <-. exact (other _ Ha Hi).
Qed.
Lemma k_clearSession w a : A a = b -> L anyQ w (clearSession a) (clearSession a).
Proof.
  intros Ha. apply lk_wr.
  - intros v u s Hv Hs. keep Hs. intros i Hi. apply orel_delete; auto.
  - intros v v' u u' s _ (Hs & Hs' & Hr). keep Hs'. intros i Hi. rewrite lookup_delete_ne; [auto|]. intros <-. exact (other _ Ha Hi).
Qed.
Lemma like_serial x y : like (getNextSerialNum x) (getNextSerialNum y).
Proof. intros t. split; [reflexivity|]. cbv zeta. destruct (_ <=? _); cbn; auto. Qed.
Lemma k_nextSerial w x y : ws w x y -> L eqQ w (nextSerial x) (nextSerial y).
Proof.
  intros H. unfold nextSerial. apply lk_zoom; [apply like_serial|..].
  - intros v u s Hv Hs. pose proof (proj2 (proj2 Hv) _ _ H) as Hxy. destruct (sm_sess _ _ _ _ Hs x y Hxy) as (r & E1 & E2 & _).
    split; [unfold serialAt; rewrite E1, E2; reflexivity|]. intros t. pose proof (sm_sess _ _ _ _ Hs) as Hd. pose proof (sm_sbij _ _ _ _ Hs) as (B1 & B2).
    keep Hs. intros x' y' H'. destruct (Hd x' y' H') as (d & F1 & F2 & F3). destruct (decide (x = x')) as [<-|Hn].
    + assert (y' = y) as -> by (eapply B1; eassumption). exists (sset_sn d t). rewrite !lookup_alter, F1, F2. cbn. auto.
    + exists d. rewrite !lookup_alter_ne; [auto| |congruence]. intros <-. apply Hn. eapply B2; eassumption.
  - intros v v' u u' s t Hv (Hs & Hs' & _). destruct (sm_sess _ _ _ _ Hs x y (proj2 (proj2 Hv) _ _ H)) as (d & _ & E & Hd).
    pose proof (sm_sess _ _ _ _ Hs') as Hd'. keep Hs'. intros x' y' H'. destruct (Hd' x' y' H') as (d' & E1 & E2 & E3).
    exists d'. rewrite lookup_alter_ne; [auto|]. intros <-. assert (d' = d) as -> by congruence.
    exact (other _ (proj1 Hd) (proj1 E3)).
Qed.
Lemma fresh_sess s : st_sess s !! fresh (dom (st_sess s)) = None.
Proof. apply not_elem_of_dom, is_fresh. Qed.
Lemma k_lock w m : L anyQ w (lock m) (lock m).
Proof. apply lk_wr; [auto|]. intros v v' u u' s _ (_ & H & _). exact H. Qed.
Lemma k_unlock w m : L anyQ w (unlock m) (unlock m).
Proof. apply lk_wr; [auto|]. intros v v' u u' s _ (_ & H & _). exact H. Qed.
Lemma k_accept w c a : C c = b -> A a = b -> L sessQ w (accept c a) (accept c a).
Proof.
  intros Hc Ha. unfold accept. eapply lk_bind; [apply k_lock|]. intros v0 _ _ _ _.
  eapply (lk_bind sessQ).
  - intros v v' u u' s Hv (Hs & Hs' & Hr).
    set (x := fresh (dom (st_sess u))). set (y := fresh (dom (st_sess s))).
    pose proof (fresh_sess u) as Fu. pose proof (fresh_sess s) as Fs. fold x in Fu. fold y in Fs.
    exists (mkWld (wd v) (wr v) (add (ws v) x y)). split; [repeat split; auto; intros ? ? ?; left; assumption|].
    split; [|cbn; right; auto]. split; [|split; [|exact Hr]].
    + pose proof (sm_sess _ _ _ _ Hs) as Sd. keep Hs.
      * intros x' y' [H|[-> ->]].
        -- destruct (Sd x' y' H) as (d' & E1 & E2 & E3). exists d'. rewrite !lookup_insert_ne by congruence. auto.
        -- eexists. rewrite !lookup_insert. split; [reflexivity|]. split; [reflexivity|]. split; assumption.
      * apply bij_add; [assumption|..].
        -- intros y' H. destruct (Sd _ _ H) as (d' & E1 & E2 & E3). congruence.
        -- intros x' H. destruct (Sd _ _ H) as (d' & E1 & E2 & E3). congruence.
      * intros i Hi. eapply orel_le; [|eauto]. intros ? ? ?; left; assumption.
    + pose proof (sm_sess _ _ _ _ Hs') as Sd. keep Hs'. intros x' y' H.
      destruct (Sd x' y' H) as (d' & E1 & E2 & E3). exists d'. rewrite !lookup_insert_ne by congruence. auto.
  - intros v x y _ Hxy. eapply lk_bind; [apply k_storeSession; assumption|]. intros v2 _ _ H2 _.
    eapply lk_bind; [apply k_unlock|]. intros v3 _ _ H3 _. apply lk_ret. apply H3, H2, Hxy.
Qed.
Lemma conn_same f c : C c = b -> forall w a1 a2, L anyQ w (wr1 a1 (set_conns (alter f c))) (wr1 a2 (set_conns (alter f c))).
Proof.
  intros H w a1 a2. apply lk_wr.
  - intros v u s _ Hs. keep Hs. intros i Hi. destruct (decide (c = i)) as [<-|Hn]; [rewrite !lookup_alter, sm_conn0 by assumption; reflexivity|].
    rewrite !lookup_alter_ne by exact Hn. auto.
  - intros v v' u u' s _ (Hs & Hs' & Hr). keep Hs'. intros i Hi. rewrite lookup_alter_ne; [auto|]. intros <-. exact (other _ H Hi).
Qed.
Lemma k_connClose w c : C c = b -> L anyQ w (connClose c) (connClose c).
Proof. intros H. apply conn_same. exact H. Qed.
Lemma k_connSend w c x r : C c = b -> L eqQ w (connSend c x r) (connSend c x r).
Proof.
  intros H. unfold connSend. apply lk_act.
  - intros v u s _ Hs. split.
    + keep Hs. intros i Hi. destruct (decide (c = i)) as [<-|Hn]; [rewrite !lookup_alter, sm_conn0 by assumption; reflexivity|].
      rewrite !lookup_alter_ne by exact Hn. auto.
    + rewrite (sm_conn _ _ _ _ Hs c H). destruct (st_conns s !! c) as [z|]; [|exact I]. destruct (cn_open z); [|reflexivity]. destruct r as [[? ?]|]; reflexivity.
  - intros v v' u u' s _ (Hs & Hs' & Hr). keep Hs'. intros i Hi. rewrite lookup_alter_ne; [auto|]. intros <-. exact (other _ H Hi).
Qed.
Lemma k_opened w c : C c = b -> L anyQ w (opened c) (opened c).
Proof.
  intros H. apply lk_wr.
  - intros v u s _ Hs. keep Hs. intros i Hi. destruct (decide (c = i)) as [<-|Hn]; [rewrite !lookup_insert; reflexivity|].
    rewrite !lookup_insert_ne by exact Hn. auto.
  - intros v v' u u' s _ (Hs & Hs' & Hr). keep Hs'. intros i Hi. rewrite lookup_insert_ne; [auto|]. intros <-. exact (other _ H Hi).
Qed.

(** ** Handlers *)
Ltac bd q := eapply (lk_bind q).
Lemma wd_le w v x y : wle w v -> wd w x y -> wd v x y.
Proof. intros H. apply H. Qed.
Lemma ws_le w v x y : wle w v -> ws w x y -> ws v x y.
Proof. intros H. apply H. Qed.
Ltac up := repeat match goal with
  | Hv : wle ?w ?v, H : wd ?w ?x ?y |- _ => lazymatch goal with _ : wd v x y |- _ => fail | _ => pose proof (wd_le _ _ _ _ Hv H) end
  | Hv : wle ?w ?v, H : ws ?w ?x ?y |- _ => lazymatch goal with _ : ws v x y |- _ => fail | _ => pose proof (ws_le _ _ _ _ Hv H) end
  end.
Lemma in_last d t : dev_in k b d -> dev_in k b (dset_last d t).
Proof. exact (fun H => H). Qed.
Lemma in_status d t : dev_in k b d -> dev_in k b (dset_status d t).
Proof. exact (fun H => H). Qed.
Lemma in_auth d x y z : dev_in k b d -> dev_in k b (dset_auth d x y z).
Proof. exact (fun H => H). Qed.
Ltac look H := bd (optQ devQ); [apply k_byPhone; exact H|];
  let v := fresh "v" in let x := fresh "x" in let y := fresh "y" in let Hv := fresh "Hv" in let Hxy := fresh "Hxy" in
  intros v [x|] [y|] Hv Hxy; cbn in Hxy; try (exfalso; exact Hxy); try change (wd v x y) in Hxy.
Ltac unit1 := let v := fresh "v" in let Hv := fresh "Hv" in intros v _ _ Hv _; up.
Ltac now1 := bd (@eqQ Z); [apply k_getNow|]; let v := fresh "v" in let t := fresh "t" in let t' := fresh "t" in let Hv := fresh "Hv" in let E := fresh "E" in intros v t t' Hv E; unfold eqQ in E; subst t'; up.
Ltac dev1 x y := let v := fresh "v" in let d := fresh "d" in let Hv := fresh "Hv" in let Hd := fresh "Hd" in
  bd oneD; [first [eapply (k_readConst _ x y)|eapply (k_readDev _ x y)]; assumption|]; intros v d _ Hv (<- & Hd); up.
Ltac wr1t := bd (@anyQ unit); [apply k_writeDev; [assumption|intros; first [apply in_last|apply in_status|apply in_auth]; assumption]|]; unit1.

Lemma k_segment w p : P (h_phone (pk_hdr p)) = b -> L eqQ w (processSegment p) (processSegment p).
Proof.
  intros H. unfold processSegment. look H; [|apply lk_fail]. dev1 x y.
  bd (optQ sessQ); [apply k_getSession; apply Hd|]. intros v2 [a|] [c|] Hv2 Hac; cbn in Hac; try (exfalso; exact Hac); [|apply lk_panic].
  bd (@eqQ N); [apply k_nextSerial; exact Hac|]. intros v3 sn _ _ <-. apply lk_ret. reflexivity.
Qed.
Lemma k_0002 w inc out : P (h_phone (m_hdr inc)) = b -> L eqQ w (process0002 inc out) (process0002 inc out).
Proof.
  intros H. unfold process0002. look H; [|apply lk_fail]. now1. wr1t.
  bd (@anyQ unit); [apply k_cacheDevice; assumption|]. unit1. apply lk_ret. reflexivity.
Qed.
Lemma k_0003 w inc out : P (h_phone (m_hdr inc)) = b -> L eqQ w (process0003 inc out) (process0003 inc out).
Proof.
  intros H. unfold process0003. look H; [|apply lk_fail]. dev1 x y.
  bd (@anyQ unit); [apply k_timerCancel; apply Hd|]. unit1. bd (@anyQ unit); [apply k_delDevice; apply Hd|]. unit1. apply lk_ret. reflexivity.
Qed.
Lemma k_timerRegister w ph : P ph = b -> L anyQ w (timerRegister ph) (timerRegister ph).
Proof. intros H. unfold timerRegister. look H; [apply k_timerAdd; exact H|apply lk_ret; exact I]. Qed.
Lemma k_0100 w sl1 sl2 inc r out : ws w sl1 sl2 -> P (h_phone (m_hdr inc)) = b -> W (r_plate r) = b ->
  L eqQ w (process0100 sl1 inc r out) (process0100 sl2 inc r out).
Proof.
  intros Hx H Hw. unfold process0100. bd (@eqQ bool); [apply k_hasPlate; exact Hw|]. intros v c _ Hv <-. up. destruct c; [apply lk_ret; reflexivity|].
  bd (@eqQ bool); [apply k_hasPhone; exact H|]. intros v2 c _ Hv2 <-. up. destruct c; [apply lk_ret; reflexivity|].
  bd oneS; [apply k_readSess; assumption|]. intros v3 z _ Hv3 (<- & Hz). now1.
  bd devQ; [apply k_allocDev; split; [exact H|split; [exact Hw|exact Hz]]|]. intros v4 x y Hv4 Hxy. cbn in Hxy.
  bd (@anyQ unit); [apply k_cacheDevice; exact Hxy|]. unit1. bd (@anyQ unit); [apply k_timerRegister; exact H|]. unit1. apply lk_ret. reflexivity.
Qed.
Lemma k_0102 w inc c i f out : P (h_phone (m_hdr inc)) = b -> L eqQ w (process0102 inc c i f out) (process0102 inc c i f out).
Proof.
  intros H. unfold process0102. look H; [|apply lk_fail]. dev1 x y. destruct (bool_decide _).
  - wr1t. now1. wr1t. wr1t. bd (@anyQ unit); [apply k_cacheDevice; assumption|]. unit1. apply lk_ret. reflexivity.
  - bd (@anyQ unit); [apply k_timerCancel; apply Hd|]. unit1. bd (@anyQ unit); [apply k_delDevice; apply Hd|]. unit1. apply lk_ret. reflexivity.
Qed.
Lemma k_0200 e w inc m out : P (h_phone (m_hdr inc)) = b -> L eqQ w (process0200 e inc m out) (process0200 e inc m out).
Proof.
  intros H. unfold process0200. look H; [|apply lk_fail]. dev1 x y. now1. cbv zeta.
  bd (@anyQ unit).
  { destruct (_ =? _); [|apply lk_ret; exact I]. wr1t. now1. wr1t. apply k_cacheDevice. assumption. }
  unit1. bd ringQ; [apply k_getRing; apply Hd|]. intros v4 a c Hv4 Hac. bd (@eqQ unit); [apply k_onRing; [exact Hac|apply like_write]|].
  intros v5 _ _ _ _. apply lk_ret. reflexivity.
Qed.
Lemma k_8001 w inc r : P (h_phone (m_hdr inc)) = b -> L eqQ w (process8001 inc r) (process8001 inc r).
Proof.
  intros H. unfold process8001. destruct (_ =? _); [|apply lk_ret; reflexivity]. look H; [|apply lk_fail]. dev1 x y.
  destruct (_ =? _); [|apply lk_ret; reflexivity]. wr1t. now1. wr1t. eapply lk_weak; [|apply k_cacheDevice; assumption]. intros ? [] [] _ _. reflexivity.
Qed.
Lemma k_8100 w inc out : P (h_phone (m_hdr inc)) = b -> L eqQ w (process8100 inc out) (process8100 inc out).
Proof. intros H. unfold process8100. look H; [|apply lk_fail]. dev1 x y. apply lk_ret. reflexivity. Qed.
Lemma k_8103 w inc ps out : P (h_phone (m_hdr inc)) = b -> (forall d, ps = Some d -> P (dp_phone d) = b) ->
  L eqQ w (process8103 inc ps out) (process8103 inc ps out).
Proof.
  intros H Hd. unfold process8103. eapply lk_bind; [apply k_getParams; exact H|]. intros v c _ Hv (<- & Hc). destruct ps as [d|]; [|apply lk_panic].
  bd (@anyQ unit); [apply k_cacheParams|unit1; apply lk_ret; reflexivity]. destruct c as [old|]; [exact (Hc old eq_refl)|exact (Hd d eq_refl)].
Qed.
Lemma k_8104 e w out : P (h_phone (m_hdr out)) = b -> L eqQ w (process8104 e out) (process8104 e out).
Proof.
  intros H. unfold process8104. eapply lk_bind; [apply k_getParams; exact H|]. intros v c _ Hv (<- & Hc). destruct c as [d|]; [apply lk_ret; reflexivity|].
  eapply lk_bind; [apply lk_lift|]. intros v2 d _ Hv2 (<- & E). bd (@anyQ unit); [apply k_cacheParams|unit1; apply lk_ret; reflexivity].
  rewrite (paramsDecode_phone _ _ _ _ _ E). exact H.
Qed.
Lemma k_process e w sl1 sl2 p : ws w sl1 sl2 -> packet_in e k b p -> L eqQ w (process e sl1 p) (process e sl2 p).
Proof.
  intros Hx (Hq & Hv). unfold process. destruct (lookupN _ _) as [[ik ok]|] eqn:El; [|apply lk_fail].
  destruct (isFragmented (pk_hdr p) && negb (pk_segdone p)) eqn:Ef; [apply k_segment; exact Hq|].
  now1. eapply lk_bind; [apply lk_lift|]. intros v1 inc _ Hv1 (<- & h2). up.
  pose proof (msgDecode_ok _ _ _ _ _ h2) as (Hh & Hk). rewrite <- Hh in Hq. destruct ok as [ko|].
  - now1. eapply lk_bind; [apply lk_lift|]. intros v3 o _ Hv3 (<- & h4). up. destruct o as [out|]; [|apply lk_ret; reflexivity].
    bd (@eqQ msg); [|intros v4 m _ _ <-; apply lk_ret; reflexivity].
    destruct (m_body inc) eqn:Eb; try (apply lk_ret; reflexivity).
    + apply k_0002; assumption.
    + apply k_0003; assumption.
    + apply k_0100; [assumption..|]. cbn in Hk. subst ik. exact (Hv (table_0100 _ _ El) _ _ _ h2 Eb).
    + apply k_0102; assumption.
    + apply k_0200; assumption.
    + apply k_8100; assumption.
    + apply k_8103; [exact Hq|]. intros d ->. cbn in Hk. subst ik.
      destruct (msgDecode_8103 _ _ _ _ cnt (Some d) h2 Eb) as (d' & [= <-] & ->). rewrite <- Hh. exact Hq.
    + apply k_8104. rewrite (genOutgoing_phone _ _ _ _ h4). exact Hq.
  - destruct (m_body inc); try (apply lk_ret; reflexivity). bd (@eqQ unit); [apply k_8001; assumption|]. intros v2 _ _ _ _. apply lk_ret. reflexivity.
Qed.
Lemma k_turnOffline w x y : wd w x y -> L eqQ w (shouldTurnOffline x) (shouldTurnOffline y).
Proof.
  intros H. unfold shouldTurnOffline. now1. dev1 x y. destruct (_ =? _); [apply lk_ret; reflexivity|]. dev1 x y. apply lk_ret. reflexivity.
Qed.
Lemma k_clear w x y : wd w x y -> L eqQ w (shouldClear x) (shouldClear y).
Proof.
  intros H. unfold shouldClear. now1. dev1 x y. destruct (_ =? _); [|apply lk_ret; reflexivity]. dev1 x y. apply lk_ret. reflexivity.
Qed.
Lemma k_tick w ph : P ph = b -> L eqQ w (checkKeepalive ph) (checkKeepalive ph).
Proof.
  intros H. unfold checkKeepalive. look H; cycle 1.
  { bd (@anyQ unit); [apply k_timerCancel; exact H|]. unit1. apply lk_panic. }
  bd (@eqQ bool); [apply k_turnOffline; assumption|]. intros v2 b2 b2' Hv2 E2. unfold eqQ in E2. subst b2'. up. destruct b2.
  { wr1t. eapply lk_weak; [|apply k_cacheDevice; assumption]. intros ? [] [] _ _. reflexivity. }
  bd (@eqQ bool); [apply k_clear; assumption|]. intros v3 b3 b3' Hv3 E3. unfold eqQ in E3. subst b3'. up. destruct b3; [|apply lk_ret; reflexivity].
  dev1 x y.
  bd (@anyQ unit); [apply k_connClose; match goal with Hd : dev_in k b ?d |- C (d_conn ?d) = b => apply Hd end|]. unit1.
  bd (@anyQ unit); [apply k_delDevice; exact H|]. unit1. bd (@anyQ unit); [apply k_delGeo; exact H|]. unit1.
  eapply lk_weak; [|apply k_timerCancel; exact H]. intros ? [] [] _ _. reflexivity.
Qed.
Lemma k_geo w ph : P ph = b -> L eqQ w (apiGeo ph) (apiGeo ph).
Proof.
  intros H. unfold apiGeo. look H; [|apply lk_ret; reflexivity]. dev1 x y.
  bd (@eqQ (option devgeo)); [apply k_geoLatest; exact H|]. intros v2 g _ _ <-. destruct g; apply lk_ret; reflexivity.
Qed.

(** ** Connections *)
Lemma k_remove w x y : ws w x y -> L eqQ w (remove x) (remove y).
Proof.
  intros H. unfold remove. bd (@anyQ unit); [apply k_lock|]. unit1. eapply (lk_bindR (@eqQ unit)).
  - bd oneS; [apply k_readSess; assumption|]. intros v2 z _ Hv2 (<- & Hz). bd (@anyQ unit); [apply k_connClose; apply Hz|]. unit1.
    eapply lk_weak; [|apply k_clearSession; apply Hz]. intros ? [] [] _ _. reflexivity.
  - intros v2 r1 r2 Hv2 Hr. assert (r1 = r2) as <- by (destruct r1, r2; cbn in Hr; try tauto; congruence).
    bd (@anyQ unit); [apply k_unlock|]. unit1. destruct r1; cbn; auto.
Qed.
Lemma k_write e w c out r : C c = b -> L eqQ w (processConnWrite e c out r) (processConnWrite e c out r).
Proof.
  intros H. unfold processConnWrite. destruct out as [m|]; [|apply lk_ret; reflexivity].
  eapply lk_bind; [apply lk_lift|]. intros v x _ _ (<- & _). apply k_connSend. exact H.
Qed.
Lemma hexU_47 n : hexU n <> 47.
Proof. unfold hexU. destruct (_ <? _) eqn:E; lia. Qed.
Lemma bcd_47 l : ~ In 47 (bcd2NumberStr l).
Proof.
  assert (H : ~ In 47 (bcdHex l)).
  { unfold bcdHex. rewrite in_flat_map. intros (x & _ & [E|[E|[]]]); exact (hexU_47 _ E). }
  unfold bcd2NumberStr. cbv zeta. destruct (Nat.eqb _ _); [cbn; intros [E|[]]; discriminate|].
  intros E. apply H. rewrite <- (firstn_skipn (afterLastF (bcdHex l)) (bcdHex l)). apply in_or_app. right. exact E.
Qed.
Lemma readBCD_47 n sl i x : ReadBCD n sl i = Ok x -> ~ In 47 (fst x).
Proof. unfold ReadBCD. intros H. apply rd_bind_ok in H as (a & j & _ & H). injection H as <-. apply bcd_47. Qed.
Lemma phone_47 o frm p : decodePacket o frm = Ok p -> ~ In 47 (h_phone (pk_hdr p)).
Proof.
  unfold decodePacket. destruct frm as [|c frm]; [discriminate|]. destruct (verify _ _) as [pkt| |]; [|discriminate..]. cbn [rbind].
  destruct (decodeHeader pkt O) as [[h i]| |] eqn:E; [|discriminate..]. cbn [rbind fst snd].
  destruct (sl_from pkt i); [|discriminate..]. cbn. intros [= <-]. cbn.
  unfold decodeHeader in E. apply rd_bind_ok in E as (id & j1 & _ & E). apply rd_bind_ok in E as (wd0 & j2 & _ & E). cbv zeta in E.
  apply rd_bind_ok in E as (pv & j3 & _ & E). apply rd_bind_ok in E as (ph & j4 & E4 & E).
  apply rd_bind_ok in E as (sn & j5 & _ & E). apply rd_bind_ok in E as (fr & j6 & _ & E). injection E as <- _. cbn.
  destruct (version_eqb _ V2019); [exact (readBCD_47 _ _ _ _ E4)|]. destruct (version_eqb _ V2013); [exact (readBCD_47 _ _ _ _ E4)|discriminate].
Qed.
Lemma k_decodeP e w frm : (forall p, decodePacket (e_o e) frm = Ok p -> packet_in e k b p) ->
  L (fun _ p p' => p = p' /\ packet_in e k b p) w (decodeP e frm) (decodeP e frm).
Proof.
  intros H. unfold decodeP. eapply lk_bind; [apply lk_lift|]. intros v p _ Hv (<- & E). pose proof (H p E) as Hp.
  destruct (isFragmented _); [|apply lk_ret; auto]. destruct (h_frag _) as [f|]; [|apply lk_panic].
  bd (@eqQ bool); [apply k_cacheSegment; [apply Hp|exact (phone_47 _ _ _ E)]|]. intros v2 c _ _ <-. apply lk_ret. split; [reflexivity|].
  unfold packet_in, msgDecode in *. exact Hp.
Qed.
Lemma k_connRead e w x y c r a : ws w x y -> C c = b ->
  (forall frm p, r = Ok frm -> decodePacket (e_o e) frm = Ok p -> packet_in e k b p) ->
  L eqQ w (processConnRead e x c r a) (processConnRead e y c r a).
Proof.
  intros Hx Hc H. unfold processConnRead. eapply lk_bind; [apply lk_lift|]. intros v frm _ Hv (<- & ->). up.
  eapply lk_bind; [apply k_decodeP; intros p; apply H; reflexivity|]. intros v2 p _ Hv2 (<- & Hp). up.
  bd (@eqQ (option msg)); [apply k_process; assumption|]. intros v3 o _ Hv3 <-. apply k_write. exact Hc.
Qed.
Lemma k_serveOne e w x y r a : ws w x y ->
  (forall frm p, r = Ok frm -> decodePacket (e_o e) frm = Ok p -> packet_in e k b p) ->
  L eqQ w (serveOne e x r a) (serveOne e y r a).
Proof.
  intros Hx H. unfold serveOne. bd oneS; [apply k_readSess; assumption|]. intros v z _ Hv (<- & Hz). up.
  eapply (lk_bindR (@eqQ unit)); [apply k_connRead; [assumption|apply Hz|exact H]|].
  intros v2 r1 r2 Hv2 Hr. destruct r1, r2; cbn in Hr; try (exfalso; exact Hr); [apply lk_ret; reflexivity|subst; apply lk_ret; reflexivity|apply lk_panic].
Qed.
Lemma k_serve e ins : frames_in e k b ins -> forall w x y, ws w x y -> L eqQ w (serveLoop e x ins) (serveLoop e y ins).
Proof.
  induction ins as [|[r a] t IH]; intros H w x y Hx; cbn [serveLoop]; [apply lk_ret; reflexivity|].
  eapply (lk_bindR (@eqQ bool)); [apply k_serveOne; [exact Hx|]|].
  { intros frm p -> E. eapply H; [left; reflexivity|exact E]. }
  intros v r1 r2 Hv Hr. up.
  assert (Hend : L eqQ v (remove x ;;; ret true)%prog (remove y ;;; ret true)%prog).
  { bd (@eqQ unit); [apply k_remove; assumption|]. intros v2 _ _ _ _. apply lk_ret. reflexivity. }
  destruct r1 as [c| |], r2 as [c'| |]; cbn in Hr; try (exfalso; exact Hr); [|exact Hend..]. unfold eqQ in Hr. subst c'. destruct c; [|exact Hend].
  apply IH; [|assumption]. intros frm a' p Hi. eapply H. right. exact Hi.
Qed.
Lemma k_serverSend e w i m a : A i = b -> L eqQ w (serverSend e i m a) (serverSend e i m a).
Proof.
  intros H. unfold serverSend. bd (optQ sessQ); [apply k_getSession; exact H|]. intros v [x|] [y|] Hv Hxy; cbn in Hxy; try (exfalso; exact Hxy); [|apply lk_ret; reflexivity].
  assert (Hxy' : ws v x y) by exact Hxy. bd oneS; [apply k_readSess; assumption|]. intros v2 z _ Hv2 (<- & Hz). up.
  eapply (lk_bindR (@eqQ unit)); [apply k_write; apply Hz|]. intros v3 r1 r2 Hv3 Hr. up.
  destruct r1 as [[]|e1|], r2 as [[]|e2|]; cbn in Hr; try (exfalso; exact Hr); [apply lk_ret; reflexivity| |apply lk_panic].
  subst e2. destruct e1; try (apply lk_ret; reflexivity); apply k_remove; assumption.
Qed.
Lemma k_apiSession w d : dev_in k b d -> L (fun v p q => ws v (fst p) (fst q) /\ snd p = snd q) w (apiSession d) (apiSession d).
Proof.
  intros Hd. unfold apiSession. bd (optQ sessQ); [apply k_getSession; apply Hd|]. intros v [x|] [y|] Hv Hxy; cbn in Hxy; try (exfalso; exact Hxy); [|apply lk_panic].
  assert (Hxy' : ws v x y) by exact Hxy. bd (@eqQ N); [apply k_nextSerial; assumption|]. intros v2 sn _ Hv2 <-. up. apply lk_ret. cbn. auto.
Qed.
Lemma k_getParamsApi e w ph a : P ph = b -> L eqQ w (apiGetParams e ph a) (apiGetParams e ph a).
Proof.
  intros H. unfold apiGetParams. look H; [|apply lk_ret; reflexivity]. dev1 x y.
  eapply lk_bind; [apply k_apiSession; exact Hd|]. intros v2 [s1 n1] [s2 n2] Hv2 (Hs & En). cbn in Hs, En. subst n2. cbn [fst snd].
  bd oneS; [apply k_readSess; exact Hs|]. intros v3 z _ Hv3 (<- & Hz). bd (@eqQ unit); [apply k_serverSend; apply Hz|].
  intros v4 _ _ _ _. apply lk_ret. reflexivity.
Qed.
Lemma k_putParamsApi e w ph bad ps a : P ph = b -> L eqQ w (apiPutParams e ph bad ps a) (apiPutParams e ph bad ps a).
Proof.
  intros H. unfold apiPutParams. look H; [|apply lk_ret; reflexivity]. dev1 x y.
  eapply lk_bind; [apply k_apiSession; exact Hd|]. intros v2 [s1 n1] [s2 n2] Hv2 (Hs & En). cbn in Hs, En. subst n2. cbn [fst snd].
  bd oneS; [apply k_readSess; exact Hs|]. intros v3 z _ Hv3 (<- & Hz). bd (@eqQ unit); [apply k_serverSend; apply Hz|].
  intros v4 _ _ _ _. apply lk_ret. reflexivity.
Qed.
Lemma k_unit {X} (Q : wld -> X -> X -> Prop) w (p q : sp X) : L Q w p q -> L (@eqQ unit) w (p ;;; ret tt)%prog (q ;;; ret tt)%prog.
Proof. intros H. eapply lk_bind; [exact H|]. intros v _ _ _ _. apply lk_ret. reflexivity. Qed.
(** a goroutine of the side; the sessions it serves are known to the world *)
Lemma k_code e w s g : belongs e k s b g -> timeless g -> (forall sl x, st_sess s !! sl = Some x -> sess_in k b x -> ws w sl sl) ->
  L (@eqQ unit) w (code e g) (code e g).
Proof.
  intros H Ht Hw. destruct g as [c addr ins|sl ins|sl p|ph| |ph|ph a|ph bad ps a|t|]; cbn [code belongs timeless] in *.
  - destruct H as (Hc & Ha & Hf). bd (@anyQ unit); [apply k_opened; exact Hc|]. unit1. eapply k_unit. unfold connThread.
    bd sessQ; [apply k_accept; assumption|]. intros v2 x y _ Hxy. apply k_serve; assumption.
  - destruct H as ((x & Hx & Hb) & Hf). eapply k_unit. apply k_serve; [exact Hf|]. eapply Hw; eassumption.
  - destruct H as ((x & Hx & Hb) & Hf). eapply k_unit. apply k_process; [|exact Hf]. eapply Hw; eassumption.
  - apply k_tick. exact H.
  - eapply (k_unit anyQ). apply lk_rd. intros; exact I.
  - eapply k_unit. apply k_geo. exact H.
  - eapply k_unit. apply k_getParamsApi. exact H.
  - eapply k_unit. apply k_putParamsApi. exact H.
  - contradiction.
  - eapply (k_unit anyQ). apply lk_rd. intros; exact I.
Qed.
End Side.

(** ** Pools *)
(** a goroutine in the common run, in the run of the group, in the run of the rest *)
Definition trio (w w' : wld) (c : option bool) (p u v : sp unit) : Prop :=
  match c with
  | Some true => lk true (@eqQ unit) w u p /\ v = ret tt
  | Some false => lk false (@eqQ unit) w' v p /\ u = ret tt
  | None => p = u /\ p = v /\ ((exists t, p = wr1 [] (set_clock t)) \/ p = ret tt)
  end.
Definition trios (w w' : wld) (cs : list (option bool)) (ps us vs : list (sp unit)) : Prop :=
  forall i, match nth_error cs i, nth_error ps i, nth_error us i, nth_error vs i with
            | Some c, Some p, Some u, Some v => trio w w' c p u v
            | None, None, None, None => True
            | _, _, _, _ => False
            end.
Lemma mono_eq {X} : mono (@eqQ X).
Proof. intros w w' x y _ H. exact H. Qed.
Lemma trio_mono w w' w2 w2' c p u v : wle w w2 -> wle w' w2' -> trio w w' c p u v -> trio w2 w2' c p u v.
Proof.
  intros H H'. destruct c as [[]|]; cbn; [| |auto].
  - intros (H1 & H2). split; [|exact H2]. eapply lk_mono; [exact mono_eq|exact H|exact H1].
  - intros (H1 & H2). split; [|exact H2]. eapply lk_mono; [exact mono_eq|exact H'|exact H1].
Qed.
Lemma trios_step w u w' v s cs ps us vs i : Inv true w u w' v s -> trios w w' cs ps us vs ->
  exists w2 w2', wle w w2 /\ wle w' w2'
    /\ Inv true w2 (snd (pstep us u i)) w2' (snd (pstep vs v i)) (snd (pstep ps s i))
    /\ trios w2 w2' cs (fst (pstep ps s i)) (fst (pstep us u i)) (fst (pstep vs v i)).
Proof.
  intros Hi Ht. pose proof (Ht i) as Hn. unfold pstep.
  assert (Stay : exists w2 w2', wle w w2 /\ wle w' w2' /\ Inv true w2 u w2' v s /\ trios w2 w2' cs ps us vs)
    by (exists w, w'; split; [apply wle_refl|split; [apply wle_refl|auto]]).
  destruct (nth_error cs i) as [c|] eqn:Ec, (nth_error ps i) as [p|] eqn:Ep, (nth_error us i) as [p1|] eqn:Eu,
    (nth_error vs i) as [p2|] eqn:Ev; try contradiction; [|exact Stay].
  assert (Up : forall w2 w2' (p' u' v' : sp unit) (ps' us' vs' : list (sp unit)), wle w w2 -> wle w' w2' -> trio w2 w2' c p' u' v' ->
    (forall j, nth_error ps' j = if Nat.eqb i j then Some p' else nth_error ps j) ->
    (forall j, nth_error us' j = if Nat.eqb i j then Some u' else nth_error us j) ->
    (forall j, nth_error vs' j = if Nat.eqb i j then Some v' else nth_error vs j) -> trios w2 w2' cs ps' us' vs').
  { intros w2 w2' p' u' v' ps' us' vs' L1 L2 H3 H4 H5 H6 j. rewrite H4, H5, H6. destruct (Nat.eqb_spec i j) as [<-|_].
    - rewrite Ec. exact H3.
    - specialize (Ht j). destruct (nth_error cs j), (nth_error ps j), (nth_error us j), (nth_error vs j); try exact Ht.
      eapply trio_mono; eassumption. }
  assert (Same : forall (l : list (sp unit)) x, nth_error l i = Some x -> forall j, nth_error l j = if Nat.eqb i j then Some x else nth_error l j).
  { intros l x E j. destruct (Nat.eqb_spec i j) as [<-|_]; [exact E|reflexivity]. }
  destruct c as [[]|]; cbn in Hn.
  - destruct Hn as (H1 & ->). destruct p1 as [r1|a1 f1 k1], p as [r2|a2 f2 k2]; cbn in H1; try contradiction; [exact Stay|].
    destruct (H1 w w' u v s (wle_refl w) Hi) as (w2 & L2 & I2 & K2). exists w2, w'. split; [exact L2|]. split; [apply wle_refl|]. cbn [fst snd].
    split; [exact I2|]. eapply (Up w2 w' (k2 s) (k1 u) (ret tt)); [exact L2|apply wle_refl|split; [exact K2|reflexivity]|..].
    + intros j. exact (nth_error_upd ps i j _ _ Ep).
    + intros j. exact (nth_error_upd us i j _ _ Eu).
    + apply Same. exact Ev.
  - destruct Hn as (H1 & ->). destruct p2 as [r1|a1 f1 k1], p as [r2|a2 f2 k2]; cbn in H1; try contradiction; [exact Stay|].
    destruct (H1 w' w v u s (wle_refl w') (Inv_sym true _ _ _ _ _ Hi)) as (w2 & L2 & I2 & K2). exists w, w2. split; [apply wle_refl|]. split; [exact L2|]. cbn [fst snd].
    split; [exact (Inv_sym false _ _ _ _ _ I2)|]. eapply (Up w w2 (k2 s) (ret tt) (k1 v)); [apply wle_refl|exact L2|split; [exact K2|reflexivity]|..].
    + intros j. exact (nth_error_upd ps i j _ _ Ep).
    + apply Same. exact Eu.
    + intros j. exact (nth_error_upd vs i j _ _ Ev).
  - destruct Hn as (<- & <- & [(t & ->)| ->]); cbn [wr1]; [|exact Stay]. exists w, w'. split; [apply wle_refl|]. split; [apply wle_refl|]. cbn [fst snd].
    split.
    + destruct Hi as (S1 & S2 & S3). split; [|split; [|exact S3]]; [destruct S1|destruct S2]; constructor; cbn; auto.
    + eapply (Up w w' (ret tt) (ret tt) (ret tt)); [apply wle_refl|apply wle_refl|cbn; auto|..].
      * intros j. exact (nth_error_upd ps i j _ _ Ep).
      * intros j. exact (nth_error_upd us i j _ _ Eu).
      * intros j. exact (nth_error_upd vs i j _ _ Ev).
Qed.
Lemma trios_steps sch : forall w u w' v s cs ps us vs, Inv true w u w' v s -> trios w w' cs ps us vs ->
  exists w2 w2', Inv true w2 (snd (psteps us u sch)) w2' (snd (psteps vs v sch)) (snd (psteps ps s sch))
    /\ trios w2 w2' cs (fst (psteps ps s sch)) (fst (psteps us u sch)) (fst (psteps vs v sch)).
Proof.
  induction sch as [|i t IH]; intros w u w' v s cs ps us vs Hi Ht; cbn [psteps]; [exists w, w'; auto|].
  destruct (trios_step _ _ _ _ _ _ _ _ _ i Hi Ht) as (w2 & w2' & _ & _ & Hi2 & Ht2).
  destruct (pstep ps s i), (pstep us u i), (pstep vs v i). cbn [fst snd] in *. exact (IH _ _ _ _ _ _ _ _ _ Hi2 Ht2).
Qed.

(** ** From a common state *)
Definition first_world (s : st) (b : bool) : wld :=
  mkWld (fun x y => x = y /\ exists d, st_devs s !! x = Some d /\ dev_in k b d)
        (fun x y => x = y /\ exists ph, st_geo s !! ph = Some x /\ P ph = b)
        (fun x y => x = y /\ exists z, st_sess s !! x = Some z /\ sess_in k b z).
Lemma first_sim s b : sane s -> parted k s -> sim b (first_world s b) s s.
Proof.
  intros Hs (H1 & H2 & H3). destruct Hs as [Sp Sq Sg Sr Sd Si Sc].
  assert (B : forall (R : nat -> Prop), bij (fun x y => x = y /\ R x)).
  { intros R. split; [intros x y y' (-> & _) (-> & _); reflexivity|intros x x' y (-> & _) (-> & _); reflexivity]. }
  constructor; cbn; try reflexivity.
  - intros x y (<- & d & E & Hd). exists d. auto.
  - apply B.
  - intros ph Hp. destruct (st_byPhone s !! ph) as [l|] eqn:E; [|exact I]. destruct (Sp ph l E) as (d & Ed & _). cbn. split; [reflexivity|].
    exists d. split; [exact Ed|]. rewrite <- Hp. apply (H1 ph d). unfold devAt. rewrite E. exact Ed.
  - intros p Hp. destruct (st_byPlate s !! p) as [l|] eqn:E; [|exact I]. destruct (Sq p l E) as (d & Ed & _). cbn. split; [reflexivity|].
    exists d. split; [exact Ed|]. rewrite <- Hp. apply (H2 p d). unfold devWithPlate. rewrite E. exact Ed.
  - intros x y (<- & ph & E & _). destruct (Sg ph x E) as (r & Hr). eauto.
  - apply B.
  - intros ph Hp. destruct (st_geo s !! ph) as [l|] eqn:E; [|exact I]. cbn. eauto.
  - intros ph d Hp E. rewrite (Sd ph d E). exact Hp.
  - intros x y (<- & z & E & Hz). exists z. auto.
  - apply B.
  - intros a Ha. destruct (st_byID s !! a) as [l|] eqn:E; [|exact I]. destruct (Si a l E) as (z & Ez & _). cbn. split; [reflexivity|].
    exists z. split; [exact Ez|]. rewrite <- Ha. apply (H3 a z). unfold sessAt. rewrite E. exact Ez.
Qed.
Lemma first_Inv s : sane s -> own_rings s -> parted k s -> Inv true (first_world s true) s (first_world s false) s s.
Proof.
  intros Hs Ho Hp. split; [apply first_sim; assumption|]. split; [apply first_sim; assumption|].
  cbn. intros x x' y (-> & p & E & Ep) (-> & q & E' & Eq). assert (p = q) by (eapply Ho; eassumption). congruence.
Qed.
Lemma sim_agree b w u s : sim b w u s -> agree_on k b u s.
Proof.
  intros [Sd Sdb Sp Sq Sr Srb Sg Spa Sdp Sse Ss Ssb Si Sc Sj Sk]. constructor; try (intros; symmetry; eauto; fail).
  - intros ph H. specialize (Sp ph H). unfold devAt. destruct (st_byPhone u !! ph) as [x|], (st_byPhone s !! ph) as [y|]; cbn in Sp; try tauto.
    destruct (Sd x y Sp) as (d & -> & -> & _). reflexivity.
  - intros ph H. specialize (Sg ph H). unfold ringOf. destruct (st_geo u !! ph) as [x|], (st_geo s !! ph) as [y|]; cbn in Sg; try tauto.
    destruct (Sr x y Sg) as (d & -> & ->). reflexivity.
  - intros p H. specialize (Sq p H). unfold devWithPlate. destruct (st_byPlate u !! p) as [x|], (st_byPlate s !! p) as [y|]; cbn in Sq; try tauto.
    destruct (Sd x y Sq) as (d & -> & -> & _). reflexivity.
  - intros a H. specialize (Si a H). unfold sessAt. destruct (st_byID u !! a) as [x|], (st_byID s !! a) as [y|]; cbn in Si; try tauto.
    destruct (Ss x y Si) as (d & -> & -> & _). reflexivity.
Qed.
Definition kind_at (x : bool * goroutine) : option bool := match snd x with GClock _ => None | _ => Some (fst x) end.
Lemma first_trios e s gs : Forall (fun x => belongs e k s (fst x) (snd x)) gs ->
  trios (first_world s true) (first_world s false) (List.map kind_at gs)
    (List.map (fun x => code e (snd x)) gs) (List.map (side_code e true) gs) (List.map (side_code e false) gs).
Proof.
  intros H i. rewrite !nth_error_map. destruct (nth_error gs i) as [[c g]|] eqn:E; cbn [option_map]; [|exact I].
  apply nth_error_In in E. rewrite List.Forall_forall in H. specialize (H _ E). cbn [fst snd] in H.
  destruct (match g with GClock _ => true | _ => false end) eqn:Eg.
  { destruct g; try discriminate. cbn. split; [reflexivity|]. split; [reflexivity|]. left. eauto. }
  assert (Ht : timeless g) by (destruct g; try discriminate; exact I).
  assert (Ek : kind_at (c, g) = Some c) by (destruct g; try discriminate; reflexivity).
  assert (Es : forall b, side_code e b (c, g) = if Bool.eqb c b then code e g else ret tt) by (intros b; destruct g; try discriminate; reflexivity).
  rewrite Ek, !Es. cbn [snd]. destruct c; cbn [Bool.eqb trio]; (split; [|reflexivity]); eapply k_code; try eassumption; intros sl x Hx Hb; cbn; eauto.
Qed.

(** Every interleaving of two such groups is, for each of them, an interleaving of its own. *)
Lemma apart_same e gs s sch b : sane s -> own_rings s -> parted k s -> Forall (fun x => belongs e k s (fst x) (snd x)) gs ->
  agree_on k b (snd (apart e b gs s sch)) (snd (together e gs s sch))
  /\ forall i g r, nth_error gs i = Some (b, g) ->
       (nth_error (fst (together e gs s sch)) i = Some (Ret r) <-> nth_error (fst (apart e b gs s sch)) i = Some (Ret r)).
Proof.
  intros Hs Ho Hp Hg. unfold apart, together.
  destruct (trios_steps sch _ _ _ _ _ _ _ _ _ (first_Inv s Hs Ho Hp) (first_trios e s gs Hg)) as (w & w' & (I1 & I2 & _) & Ht).
  split.
  - destruct b; eapply sim_agree; [exact I1|exact I2].
  - intros i g r E. specialize (Ht i). rewrite nth_error_map, E in Ht. cbn [option_map] in Ht.
    set (ps := fst (psteps (List.map (fun x => code e (snd x)) gs) s sch)) in *.
    destruct (nth_error ps i) as [p|]; [|contradiction].
    destruct (nth_error (fst (psteps (List.map (side_code e true) gs) s sch)) i) as [u|] eqn:Eu; [|contradiction].
    destruct (nth_error (fst (psteps (List.map (side_code e false) gs) s sch)) i) as [v|] eqn:Ev; [|contradiction].
    assert (Eq : forall x y : sp unit, (forall b w, lk b (@eqQ unit) w x y -> Some y = Some (Ret r) <-> Some x = Some (Ret r))).
    { intros x y b0 w0. destruct x as [r1|], y as [r2|]; cbn; try tauto; [|intros _; split; discriminate].
      intros H. assert (r1 = r2) as ->; [|tauto]. destruct r1, r2; cbn in H; try tauto; unfold eqQ in H; congruence. }
    unfold kind_at in Ht. cbn [snd fst] in Ht.
    destruct g; cbn [trio] in Ht;
      try (destruct b; [rewrite Eu; exact (Eq _ _ _ _ (proj1 Ht))|rewrite Ev; exact (Eq _ _ _ _ (proj1 Ht))]).
    destruct Ht as (<- & <- & _). destruct b; [rewrite Eu|rewrite Ev]; tauto.
Qed.
End Split.

(** ** One goroutine among others *)
Lemma only_runs {X} sch : forall (ps : list (sp X)) s i p, nth_error ps i = Some p ->
  (forall j q, j <> i -> nth_error ps j = Some q -> exists r, q = Ret r) ->
  exists p', nth_error (fst (psteps ps s sch)) i = Some p' /\ run p' (snd (psteps ps s sch)) = run p s.
Proof.
  induction sch as [|j t IH]; intros ps s i p E H; cbn [psteps]; [exists p; auto|].
  destruct (pstep ps s j) as [ps' s'] eqn:Es. unfold pstep in Es.
  destruct (nth_error ps j) as [q|] eqn:Ej; [|injection Es as <- <-; apply IH; assumption].
  destruct q as [r|a f g]; [injection Es as <- <-; apply IH; assumption|]. injection Es as <- <-.
  destruct (decide (j = i)) as [->|Hn]; [|destruct (H j _ Hn Ej) as (r & Er); discriminate].
  rewrite E in Ej. injection Ej as ->. destruct (IH (firstn i ps ++ g s :: skipn (i + 1) ps) (f s) i (g s)) as (p' & E1 & E2).
  - rewrite (nth_error_upd ps i i _ _ E), Nat.eqb_refl. reflexivity.
  - intros j q Hj Hq. rewrite (nth_error_upd ps i j _ _ E) in Hq. destruct (Nat.eqb_spec i j); [congruence|]. exact (H j q Hj Hq).
  - exists p'. split; [exact E1|exact E2].
Qed.
Lemma nth_at {X} (l : list X) i : nth_error l i = l !! i.
Proof. revert i. induction l as [|x l IH]; intros [|i]; cbn; auto. Qed.
Lemma one_among k e gs s sch i g r : sane s -> own_rings s -> parted k s ->
  only e k s gs i -> Forall timeless gs -> nth_error gs i = Some g ->
  nth_error (fst (running e gs s sch)) i = Some (Ret r) ->
  fst (run (code e g) s) = r /\ agree_on k true (snd (run (code e g) s)) (snd (running e gs s sch)).
Proof.
  intros Hs Ho Hp Hg Hts Ei E. set (tg := imap (fun j g => (Nat.eqb i j, g)) gs).
  assert (Nt : forall j, nth_error tg j = option_map (fun g => (Nat.eqb i j, g)) (nth_error gs j)).
  { intros j. unfold tg. rewrite !nth_at, list_lookup_imap. destruct (gs !! j); reflexivity. }
  assert (Et : together e tg s sch = running e gs s sch).
  { unfold together, running. f_equal. assert (G : forall h : nat -> bool, List.map (fun x => code e (snd x)) (imap (fun j g => (h j, g)) gs) = List.map (code e) gs);
      [|apply (G (Nat.eqb i))]. clear. induction gs as [|g gs IH]; intros h; cbn; [reflexivity|]. f_equal. apply (IH (fun j => h (S j))). }
  assert (Hf : Forall (fun x => belongs e k s (fst x) (snd x)) tg).
  { apply List.Forall_forall. intros [c x] Hx. apply In_nth_error in Hx as (j & Hj). rewrite Nt in Hj.
    destruct (nth_error gs j) as [y|] eqn:Ej; [|discriminate]. injection Hj as <- <-. cbn [fst snd]. exact (Hg j y Ej). }
  destruct (apart_same k e tg s sch true Hs Ho Hp Hf) as (A1 & A2). rewrite Et in A1, A2.
  assert (Ti : nth_error tg i = Some (true, g)) by (rewrite Nt, Ei; cbn; rewrite Nat.eqb_refl; reflexivity).
  apply (A2 i g r Ti) in E. unfold apart in *.
  destruct (only_runs sch (List.map (side_code e true) tg) s i (code e g)) as (p' & E1 & E2).
  - rewrite nth_error_map, Ti. cbn [option_map]. destruct g; reflexivity.
  - intros j q Hn. rewrite nth_error_map, Nt. destruct (nth_error gs j) as [x|] eqn:Ej; [|discriminate]. cbn [option_map]. intros [= <-].
    exists (Ok tt). assert (Tx : timeless x) by (eapply List.Forall_forall; [exact Hts|eapply nth_error_In; exact Ej]).
    destruct (Nat.eqb_spec i j); [congruence|]. destruct x; try reflexivity. contradiction.
  - rewrite E in E1. injection E1 as <-. cbn [run] in E2. rewrite <- E2. cbn [fst snd]. auto.
Qed.
Lemma agree_sym k b s t : agree_on k b s t -> agree_on k b t s.
Proof. intros []. constructor; intros; symmetry; auto. Qed.
Lemma agree_trans k b s t u : agree_on k b s t -> agree_on k b t u -> agree_on k b s u.
Proof.
  intros [A1 A2 A3 A4 A5 A6 A7 A8 A9] [B1 B2 B3 B4 B5 B6 B7 B8 B9]. constructor; try congruence; intros.
  - rewrite B1 by assumption. auto.
  - rewrite B2 by assumption. auto.
  - rewrite B3 by assumption. auto.
  - rewrite B4 by assumption. auto.
  - rewrite B6 by assumption. auto.
  - rewrite B7 by assumption. auto.
  - rewrite B8 by assumption. auto.
Qed.
(** the result does not depend on the schedule *)
Lemma schedules k e gs s sch sch' i r r' : sane s -> own_rings s -> parted k s -> only e k s gs i -> Forall timeless gs ->
  nth_error (fst (running e gs s sch)) i = Some (Ret r) -> nth_error (fst (running e gs s sch')) i = Some (Ret r') ->
  r = r' /\ agree_on k true (snd (running e gs s sch)) (snd (running e gs s sch')).
Proof.
  intros Hs Ho Hp Hg Hts E E'. destruct (nth_error gs i) as [g|] eqn:Ei.
  - destruct (one_among k e gs s sch i g r Hs Ho Hp Hg Hts Ei E) as (<- & A1).
    destruct (one_among k e gs s sch' i g r' Hs Ho Hp Hg Hts Ei E') as (<- & A2).
    split; [reflexivity|]. eapply agree_trans; [apply agree_sym; exact A1|exact A2].
  - exfalso. unfold running in E. apply nth_error_None in Ei. assert (Hl : (i < length (fst (psteps (List.map (code e) gs) s sch)))%nat) by (apply nth_error_Some; congruence).
    rewrite psteps_length, map_length in Hl. lia.
Qed.

(** ** One connection and the history of its events *)
Lemma dead_frames e sl ins : forall s live, sl ∉ live ->
  fold_left (step e) (List.map (fun x => EFrame sl (fst x) (snd x)) ins) (mkWorld s live false) = mkWorld s live false.
Proof.
  induction ins as [|[r x] t IH]; intros s live H; cbn [List.map fold_left]; [reflexivity|].
  unfold step at 2. cbn [w_dead w_live w_st fst snd]. rewrite bool_decide_eq_false_2 by exact H. apply IH. exact H.
Qed.
Lemma serve_frames e sl ins : forall s live, sl ∈ live ->
  w_st (fold_left (step e) (List.map (fun x => EFrame sl (fst x) (snd x)) ins) (mkWorld s live false)) = snd (run (serveLoop e sl ins) s).
Proof.
  induction ins as [|[r x] t IH]; intros s live H; cbn [List.map fold_left fst snd]; [reflexivity|].
  unfold step at 2. cbn [w_dead w_live w_st]. rewrite bool_decide_eq_true_2 by exact H.
  cbn [serveLoop]. rewrite !run_bindR. destruct (run (serveOne e sl r x) s) as [q s1]. cbn [fst snd].
  assert (Hend : forall y s', w_st (fold_left (step e) (List.map (fun x => EFrame sl (fst x) (snd x)) t)
     (match (y, s') : res bool * st with
      | (Ok true, s') => mkWorld s' (live ∖ {[sl]}) false
      | (Ok false, s') => mkWorld s' live false
      | (_, s') => mkWorld s' (live ∖ {[sl]}) false
      end)) = s' \/ y = Ok false).
  { intros [[]| |] s'; [left|right; reflexivity|left..]; rewrite dead_frames by set_solver; reflexivity. }
  assert (Hr : fst (run (remove sl ;;; ret true)%prog s1) <> Ok false).
  { rewrite run_bind. destruct (run (remove sl) s1) as [[?| |] ?]; cbn; discriminate. }
  destruct q as [[]|er|]; cbn [fst snd].
  - apply IH. exact H.
  - destruct (run (remove sl ;;; ret true)%prog s1) as [y s'] eqn:E. cbn [fst snd] in *. destruct (Hend y s') as [->|Ey]; [reflexivity|contradiction].
  - destruct (run (remove sl ;;; ret true)%prog s1) as [y s'] eqn:E. cbn [fst snd] in *. destruct (Hend y s') as [->|Ey]; [reflexivity|contradiction].
  - destruct (run (remove sl ;;; ret true)%prog s1) as [y s'] eqn:E. cbn [fst snd] in *. destruct (Hend y s') as [->|Ey]; [reflexivity|contradiction].
Qed.
Lemma conn_dialogue e c addr ins s live : st_conns s !! c = None ->
  w_st (fold_left (step e) (dialogue c addr (fresh (dom (st_sess s))) ins) (mkWorld s live false)) = snd (run (code e (GConn c addr ins)) s).
Proof.
  intros Hc. unfold dialogue. cbn [fold_left]. unfold step at 2. cbn [w_dead w_live w_st]. rewrite Hc.
  unfold code, connThread. rewrite run_bind. cbn [opened wr1 run ret]. rewrite run_bind. unfold connThread. rewrite run_bind.
  destruct (run (accept c addr) (set_conns (<[c:=mkConn true []]>) s)) as [y s1] eqn:E.
  assert (y = Ok (fresh (dom (st_sess s)))) as ->. { cbn in E. injection E as <- _. reflexivity. }
  rewrite serve_frames by set_solver. destruct (run (serveLoop e _ ins) s1) as [[b| |] s2]; reflexivity.
Qed.
Lemma conn_among k e c addr ins gs s live sch i r : sane s -> own_rings s -> parted k s -> st_conns s !! c = None ->
  only e k s gs i -> Forall timeless gs -> nth_error gs i = Some (GConn c addr ins) ->
  nth_error (fst (running e gs s sch)) i = Some (Ret r) ->
  agree_on k true (w_st (fold_left (step e) (dialogue c addr (fresh (dom (st_sess s))) ins) (mkWorld s live false)))
                  (snd (running e gs s sch)).
Proof.
  intros Hs Ho Hp Hc Hg Hts Ei E. rewrite conn_dialogue by exact Hc. exact (proj2 (one_among k e gs s sch i _ r Hs Ho Hp Hg Hts Ei E)).
Qed.
(** the states stay parted *)
Lemma stays_parted k e gs s sch : sane s -> own_rings s -> parted k s -> Forall (fun x => belongs e k s (fst x) (snd x)) gs ->
  parted k (snd (together e gs s sch)).
Proof.
  intros Hs Ho Hp Hg. unfold together.
  destruct (trios_steps k sch _ _ _ _ _ _ _ _ _ (first_Inv k s Hs Ho Hp) (first_trios k e s gs Hg)) as (w & w' & (I1 & I2 & _) & _).
  set (t := snd (psteps (List.map (fun x => code e (snd x)) gs) s sch)) in *. clearbody t.
  assert (I : forall b, exists w u, sim k b w u t) by (intros []; eauto). clear I1 I2.
  split; [|split].
  - intros ph d. destruct (I (in_phone k ph)) as (v & u & S). pose proof (sm_phone _ _ _ _ _ S ph eq_refl) as H. unfold devAt.
    destruct (st_byPhone u !! ph) as [x|], (st_byPhone t !! ph) as [y|]; cbn in H; try contradiction; [|discriminate].
    destruct (sm_dev _ _ _ _ _ S x y H) as (d' & _ & -> & Hd). intros [= <-]. exact Hd.
  - intros ph d. destruct (I (in_plate k ph)) as (v & u & S). pose proof (sm_plate _ _ _ _ _ S ph eq_refl) as H. unfold devWithPlate.
    destruct (st_byPlate u !! ph) as [x|], (st_byPlate t !! ph) as [y|]; cbn in H; try contradiction; [|discriminate].
    destruct (sm_dev _ _ _ _ _ S x y H) as (d' & _ & -> & Hd). intros [= <-]. exact Hd.
  - intros ph d. destruct (I (in_addr k ph)) as (v & u & S). pose proof (sm_id _ _ _ _ _ S ph eq_refl) as H. unfold sessAt.
    destruct (st_byID u !! ph) as [x|], (st_byID t !! ph) as [y|]; cbn in H; try contradiction; [|discriminate].
    destruct (sm_sess _ _ _ _ _ S x y H) as (d' & _ & -> & Hd). intros [= <-]. exact Hd.
Qed.

(** ** Connections in turn *)
Lemma frames_alive e sl ins : forall w, w_dead w = false -> w_dead (fold_left (step e) (List.map (fun x => EFrame sl (fst x) (snd x)) ins) w) = false.
Proof.
  induction ins as [|[r x] t IH]; intros w H; cbn [List.map fold_left fst snd]; [exact H|]. apply IH.
  unfold step. rewrite H. destruct (bool_decide _); [|exact H]. destruct (run _ _) as [[[]| |] ?]; reflexivity.
Qed.
Lemma dialogue_alive e c addr sl ins w : w_dead w = false -> w_dead (fold_left (step e) (dialogue c addr sl ins) w) = false.
Proof.
  intros H. unfold dialogue. cbn [fold_left]. apply frames_alive. unfold step. rewrite H. destruct (st_conns _ !! c); [exact H|].
  cbn. reflexivity.
Qed.
(** all goroutines run one after the other, as a schedule *)
Fixpoint run_all (ps : list (sp unit)) (s : st) : st :=
  match ps with [] => s | p :: t => run_all t (snd (run p s)) end.
Lemma run_all_sched (ps : list (sp unit)) : forall (ds : list (sp unit)) s, exists sch rs,
  psteps (ds ++ ps) s sch = (ds ++ List.map Ret rs, run_all ps s) /\ length rs = length ps.
Proof.
  induction ps as [|p t IH]; intros ds s.
  - exists [], []. split; reflexivity.
  - destruct (psteps_alone p (ds ++ p :: t) s (length ds)) as (n & E1 & E2).
    { rewrite nth_error_app2 by lia. rewrite Nat.sub_diag. reflexivity. }
    set (ds' := ds ++ [Ret (fst (run p s))]).
    assert (E3 : firstn (length ds) (ds ++ p :: t) ++ Ret (fst (run p s)) :: skipn (length ds + 1) (ds ++ p :: t) = ds' ++ t).
    { unfold ds'. rewrite firstn_app, firstn_all, Nat.sub_diag. cbn [firstn]. rewrite app_nil_r, <- app_assoc. f_equal. cbn [app]. f_equal.
      rewrite skipn_app. rewrite skipn_all2 by lia. replace (length ds + 1 - length ds)%nat with 1%nat by lia. reflexivity. }
    rewrite E3 in E1. destruct (IH ds' (snd (run p s))) as (sch & rs & F1 & F2).
    exists (repeat (length ds) n ++ sch), (fst (run p s) :: rs). rewrite psteps_app.
    destruct (psteps (ds ++ p :: t) s (repeat (length ds) n)) as [qs q]. cbn [fst snd] in E1, E2. subst qs q. cbn [run_all List.map length].
    rewrite F2. split; [|reflexivity]. etransitivity; [exact F1|]. unfold ds'. rewrite <- app_assoc. reflexivity.
Qed.
Lemma run_all_app (a b : list (sp unit)) : forall s, run_all (a ++ b) s = run_all b (run_all a s).
Proof. induction a as [|p t IH]; intros s; cbn; [reflexivity|apply IH]. Qed.
Lemma rets_stay (rs : list (res unit)) (s : st) sch : psteps (List.map Ret rs) s sch = (List.map Ret rs, s).
Proof.
  induction sch as [|i sch IH]; cbn [psteps]; [reflexivity|]. unfold pstep. rewrite nth_error_map.
  destruct (nth_error rs i); cbn [option_map]; exact IH.
Qed.
(** goroutines of the rest, one after the other, leave the group's state *)
Lemma rest_in_turn k e gs s : sane s -> own_rings s -> parted k s -> Forall (belongs e k s false) gs ->
  Forall timeless gs -> agree_on k true s (run_all (List.map (code e) gs) s).
Proof.
  intros Hs Ho Hp Hg Hts. destruct (run_all_sched (List.map (code e) gs) [] s) as (sch & rs & E & _). cbn [app] in E.
  set (tg := List.map (fun g => (false, g)) gs).
  assert (Hf : Forall (fun x => belongs e k s (fst x) (snd x)) tg).
  { unfold tg. clear -Hg. induction Hg; cbn; constructor; assumption. }
  destruct (apart_same k e tg s sch true Hs Ho Hp Hf) as (A1 & _).
  assert (Et : together e tg s sch = psteps (List.map (code e) gs) s sch). { unfold together, tg. rewrite List.map_map. reflexivity. }
  rewrite Et, E in A1. replace (snd (apart e true tg s sch)) with s in A1; [exact A1|]. clear -Hts. unfold apart, tg. rewrite List.map_map.
  assert (Hr : List.map (fun x => side_code e true (false, x)) gs = List.map Ret (repeat (Ok tt) (length gs))).
  { induction Hts as [|g t Hg Ht IH]; cbn; [reflexivity|]. rewrite IH. destruct g; try reflexivity. destruct Hg. }
  rewrite Hr, rets_stay. reflexivity.
Qed.
Lemma conns_timeless cs : Forall timeless (conns_of cs).
Proof. induction cs; constructor; [exact Logic.I|assumption]. Qed.
Definition conn_of (x : nat * str * list (res bytes * wres)) : nat := fst (fst x).
Lemma in_turn_run e (K : nat -> group) s cs : forall pre w, sane s -> own_rings s ->
  (forall i, (i < length (pre ++ cs))%nat -> parted (K i) s /\ only e (K i) s (conns_of (pre ++ cs)) i) ->
  Forall (fun x => st_conns s !! conn_of x = None) cs ->
  w_dead w = false -> w_st w = run_all (List.map (code e) (conns_of pre)) s ->
  w_st (in_turn e cs w) = run_all (List.map (code e) (conns_of cs)) (w_st w).
Proof.
  induction cs as [|[[c addr] ins] t IH]; intros pre w Hs Ho Hk Hc Hd Hw; [reflexivity|].
  apply Forall_cons_iff in Hc as (Hc & Ht). cbn [in_turn conns_of List.map run_all fst snd]. destruct w as [u live dd]. cbn [w_st w_dead] in *. subst dd.
  destruct (Hk (length pre)) as (Hp & Hon); [rewrite app_length; cbn; lia|].
  assert (Hcu : st_conns u !! c = None).
  { rewrite Hw. erewrite ag_conn; [exact Hc|apply (rest_in_turn (K (length pre)) e (conns_of pre) s Hs Ho Hp)|].
    - apply List.Forall_forall. intros g Hg. apply In_nth_error in Hg as (j & Hj).
      assert (Hl : (j < length (conns_of pre))%nat) by (apply nth_error_Some; congruence).
      specialize (Hon j g). unfold conns_of in Hon, Hl, Hj. rewrite List.map_app in Hon. rewrite nth_error_app1 in Hon by exact Hl.
      specialize (Hon Hj). rewrite map_length in Hl. destruct (Nat.eqb_spec (length pre) j); [lia|exact Hon].
    - apply conns_timeless.
    - specialize (Hon (length pre) (GConn c addr ins)). rewrite Nat.eqb_refl in Hon. apply Hon. unfold conns_of. rewrite nth_error_map.
      rewrite nth_error_app2, Nat.sub_diag by lia. reflexivity. }
  rewrite (IH (pre ++ [(c, addr, ins)])).
  - rewrite conn_dialogue by exact Hcu. reflexivity.
  - exact Hs.
  - exact Ho.
  - intros i. rewrite <- app_assoc. apply Hk.
  - exact Ht.
  - apply dialogue_alive. reflexivity.
  - rewrite conn_dialogue by exact Hcu. unfold conns_of. rewrite !List.map_app, run_all_app. cbn [List.map run_all fst snd]. rewrite Hw. reflexivity.
Qed.
Lemma conns_serial e (K : nat -> group) cs s live sch : sane s -> own_rings s ->
  (forall i, (i < length cs)%nat -> parted (K i) s /\ only e (K i) s (conns_of cs) i) ->
  Forall (fun x => st_conns s !! fst (fst x) = None) cs ->
  forall i r, nth_error (fst (running e (conns_of cs) s sch)) i = Some (Ret r) ->
  agree_on (K i) true (w_st (in_turn e cs (mkWorld s live false))) (snd (running e (conns_of cs) s sch)).
Proof.
  intros Hs Ho Hk Hc i r E. rewrite (in_turn_run e K s cs [] (mkWorld s live false) Hs Ho Hk Hc eq_refl eq_refl). cbn [w_st].
  destruct (run_all_sched (List.map (code e) (conns_of cs)) [] s) as (sch' & rs & E' & Hl). cbn [app] in E'.
  assert (Hi : (i < length cs)%nat).
  { assert (H : nth_error (fst (running e (conns_of cs) s sch)) i <> None) by congruence. apply nth_error_Some in H. unfold running, conns_of in H.
    rewrite psteps_length, !map_length in H. exact H. }
  unfold conns_of in Hl. rewrite !map_length in Hl.
  destruct (nth_error rs i) as [r'|] eqn:Er; [|apply nth_error_None in Er; lia].
  destruct (Hk i Hi) as (Hp & Hon).
  destruct (schedules (K i) e (conns_of cs) s sch' sch i r' r Hs Ho Hp Hon (conns_timeless cs)) as (_ & A).
  - unfold running. rewrite E'. cbn [fst]. rewrite nth_error_map, Er. reflexivity.
  - exact E.
  - unfold running in A at 1. rewrite E' in A. exact A.
Qed.
