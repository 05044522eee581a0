(** A fleet of simulated terminals: the invariant *)
From Coq Require Import ZArith.
From stdpp Require Import gmap.
From Flocq Require Import IEEE754.Bits.
From Verif Require Import Base HexM TimeM HashM HeaderM ParamsM GeoM MsgM PacketM FrameM FloatM ProgM ProgP RingM SpecRing RingP
  StateM ProcM ServerM ClientM DatagenM NetM SpecState SpecCodec SpecSim SpecNet StateP HandshakeP CmdP DatagenP FleetP.
Local Open Scope N_scope.

(** heartbeats ([None]) and reports *)
Definition item : Type := option (locrep * civil).
Definition geo (ph : str) (it : item) : list devgeo :=
  match it with
  | Some (l, now) => [mkDevGeo ph (geoDecode (l_status l)) (l_lat l) (l_lon l) (l_altitude l) (l_speed l) (l_dir l) now]
  | None => []
  end.
Fixpoint geos (ph : str) (its : list item) : list devgeo :=
  match its with [] => [] | it :: t => geo ph it ++ geos ph t end.
Lemma geos_app ph a b : geos ph (a ++ b) = geos ph a ++ geos ph b.
Proof. induction a as [|i a IH]; [reflexivity|]. cbn. rewrite IH, app_assoc. reflexivity. Qed.
Lemma geos_one ph i : geos ph [i] = geo ph i.
Proof. cbn. apply app_nil_r. Qed.
Definition tells (o : oracle) (D : device) (it : item) (f : bytes) : Prop :=
  match it with
  | None => reads o f (simHeader 0x0002 D) B0002
  | Some (l, now) => reads o f (simHeader 0x0200 D) (B0200 l) /\ l_time l = FormatTime now /\ civil_valid now /\ year_window now
  end.
Definition confirms (o : oracle) (D : device) (f : bytes) : Prop := exists i, reads o f (simHeader 0x8001 D) (B8001 1 i 0).

Section Stage.
Context (o : oracle) (c : simconf) (x xc : session) (s sc : st).
Let D := genDevice c (ss_id xc) (ss_conn xc).
Let ph := number c.
Definition unknown : Prop := devAt s ph = None /\ devWithPlate s (sm_plate c) = None.
Definition owned (d : device) : Prop :=
  devAt s ph = Some d /\ devWithPlate s (sm_plate c) = Some d
  /\ d_id d = sm_id c /\ d_plate d = sm_plate c /\ d_phone d = ph /\ d_sid d = ss_id x /\ d_conn d = ss_conn x.
(** how far a terminal is: written by the client, written by the server, goroutine, frames read
    by the server, by the client, reports generated *)
Inductive stage : list bytes -> list bytes -> progress -> nat -> nat -> list devgeo -> Prop :=
| st_idle : unknown -> track s ph [] -> stage [] [] PIdle 0 0 []
| st_built : unknown -> track s ph [] -> devAt sc ph = Some D -> stage [] [] PBuilt 0 0 []
| st_1 f1 r : unknown -> track s ph [] -> devAt sc ph = Some D ->
    reads o f1 (simHeader 0x0100 D) (B0100 r) -> r_devid r = sm_id c -> r_plate r = sm_plate c ->
    stage [f1] [] PSent 0 0 []
| st_2 f1 f2 d code : owned d -> track s ph [] -> devAt sc ph = Some D ->
    reads o f2 (simHeader 0x8100 D) (B8100 1 0 code) -> is_code (sm_id c) (sm_plate c) ph code ->
    stage [f1] [f2] PSent 1 0 []
| st_3 f1 f2 f3 d code al imei sw : owned d -> track s ph [] -> devAt sc ph = Some D ->
    reads o f3 (simHeader 0x0102 D) (B0102 al code imei sw) -> is_code (sm_id c) (sm_plate c) ph code ->
    stage [f1; f3] [f2] PSent 1 1 []
| st_4 f1 f2 f3 f4 d : owned d -> track s ph [] -> devAt sc ph = Some D -> d_status d <> Offline ->
    is_code (sm_id c) (sm_plate c) ph (d_auth d) -> confirms o D f4 -> stage [f1; f3] [f2; f4] PSent 2 1 []
| st_5 f1 f2 f3 f4 d its tr rs dc a u w : owned d -> d_status d <> Offline ->
    is_code (sm_id c) (sm_plate c) ph (d_auth d) ->
    devAt sc ph = Some dc -> d_phone dc = d_phone D -> d_ver dc = d_ver D -> d_status dc = Online ->
    a = PSent /\ its = [] \/ a = POnline ->
    Forall2 (tells o D) its tr -> Forall (confirms o D) rs -> length rs = u -> (u <= length tr)%nat -> (w <= u)%nat ->
    track s ph (geos ph (firstn u its)) ->
    stage (f1 :: f3 :: tr) (f2 :: f4 :: rs) a (2 + u) (2 + w) (geos ph its).
End Stage.

(** the other terminals' steps *)
Lemma stage_kept o c x xc s sc s' sc' oc os a u w g :
  devAt s' (number c) = devAt s (number c) -> devWithPlate s' (sm_plate c) = devWithPlate s (sm_plate c) ->
  ringOf s' (number c) = ringOf s (number c) ->
  (forall d, devAt sc (number c) = Some d -> d_phone d = number c -> devAt sc' (number c) = Some d) ->
  stage o c x xc s sc oc os a u w g -> stage o c x xc s' sc' oc os a u w g.
Proof.
  intros H1 H2 H3 H4 S.
  assert (U : unknown c s -> unknown c s') by (unfold unknown; rewrite H1, H2; auto).
  assert (W : forall d, owned c x s d -> owned c x s' d) by (intros d; unfold owned; rewrite H1, H2; auto).
  assert (T : forall ws, track s (number c) ws -> track s' (number c) ws) by (intros ws; unfold track; rewrite H3; auto).
  assert (Dv : devAt sc (number c) = Some (genDevice c (ss_id xc) (ss_conn xc)) -> devAt sc' (number c) = Some (genDevice c (ss_id xc) (ss_conn xc))).
  { intros H. apply (H4 _ H). apply simPhone_number. }
  destruct S.
  - apply st_idle; auto.
  - apply st_built; auto.
  - eapply st_1; eauto.
  - eapply st_2; eauto.
  - eapply st_3; eauto.
  - eapply st_4; eauto.
  - eapply st_5; eauto. apply H4; [assumption|]. etransitivity; [eassumption|]. apply simPhone_number.
Qed.

(** a terminal and what is known of it *)
Definition tinv (o : oracle) (s sc : st) (t : term) (g : list devgeo) : Prop :=
  able o (tm_conf t) /\ tm_served t = true /\ tm_runs t = true
  /\ exists x xc os oc, st_sess s !! tm_srv t = Some x /\ st_sess sc !! tm_cli t = Some xc
     /\ st_conns s !! ss_conn x = Some (mkConn true os) /\ st_conns sc !! ss_conn xc = Some (mkConn true oc)
     /\ stage o (tm_conf t) x xc s sc oc os (tm_at t) (tm_up t) (tm_down t) g.
Definition inv (o : oracle) (n : net) (G : nat -> list devgeo) : Prop :=
  consistent (nt_srv n) /\ apart n /\ forall i t, nt_terms n !! i = Some t -> tinv o (nt_srv n) (nt_cli n) t (G i).

Lemma written_of s sl x k : st_sess s !! sl = Some x -> st_conns s !! ss_conn x = Some k -> written s sl = cn_out k.
Proof. intros H1 H2. unfold written. rewrite H1, H2. reflexivity. Qed.

(** same terminal, other progress *)
Definition same_term (t t' : term) : Prop :=
  tm_conf t' = tm_conf t /\ tm_geo t' = tm_geo t /\ tm_srv t' = tm_srv t /\ tm_cli t' = tm_cli t.
Lemma apart_step n i t t' s' sc' : apart n -> nt_terms n !! i = Some t -> same_term t t' ->
  st_sess sc' = st_sess (nt_cli n) -> apart (mkNet s' sc' (<[i := t']> (nt_terms n))).
Proof.
  intros A Hi (E1 & _ & E3 & E4) Hs j k u v Hn Hu Hv. cbn in *. rewrite Hs.
  apply list_lookup_insert_Some in Hu as [(<- & <- & _)|(Hj & Hu)]; apply list_lookup_insert_Some in Hv as [(<- & <- & _)|(Hk & Hv)].
  - contradiction.
  - rewrite E1, E3, E4. exact (A _ _ _ _ Hn Hi Hv).
  - rewrite E1, E3, E4. exact (A _ _ _ _ Hn Hu Hi).
  - exact (A _ _ _ _ Hn Hu Hv).
Qed.
(** a step of terminal [i] *)
Lemma inv_step o n G G' i t t' s' sc' x xc : inv o n G -> nt_terms n !! i = Some t -> same_term t t' ->
  st_sess (nt_srv n) !! tm_srv t = Some x -> st_sess (nt_cli n) !! tm_cli t = Some xc ->
  srv_kept (number (tm_conf t)) (sm_plate (tm_conf t)) (ss_conn x) (nt_srv n) s' ->
  cli_kept (number (tm_conf t)) (ss_conn xc) (nt_cli n) sc' ->
  (forall j, j <> i -> G' j = G j) -> tinv o s' sc' t' (G' i) ->
  inv o (mkNet s' sc' (<[i := t']> (nt_terms n))) G'.
Proof.
  intros (C & A & I) Hi Hsame Hx Hxc SK CK HG Ht. split; [apply SK|].
  split; [apply (apart_step n i t); try assumption; apply CK|].
  cbn [nt_terms nt_srv nt_cli]. intros j u Hu. apply list_lookup_insert_Some in Hu as [(<- & <- & _)|(Hj & Hu)]; [exact Ht|].
  rewrite HG by congruence. destruct (I _ _ Hu) as (B1 & B2 & B3 & y & yc & os & oc & Y1 & Y2 & Y3 & Y4 & Y5).
  destruct (A i j t u Hj Hi Hu) as (N1 & N2 & N3 & N4). specialize (N4 xc yc Hxc Y2).
  split; [exact B1|]. split; [exact B2|]. split; [exact B3|]. exists y, yc, os, oc.
  split; [rewrite (sk_sess _ _ _ _ _ SK); exact Y1|]. split; [rewrite (ck_sess _ _ _ _ CK); exact Y2|].
  split. { rewrite (sk_conns _ _ _ _ _ SK); [exact Y3|]. intros E. apply N3. symmetry. exact (cs_conn_inj _ C _ _ _ _ Y1 Hx E). }
  split; [rewrite (ck_conns _ _ _ _ CK); [exact Y4|congruence]|].
  eapply stage_kept; [apply SK; congruence|apply SK; congruence|apply SK; congruence| |exact Y5].
  intros d Hd Hp. apply (ck_dev _ _ _ _ CK); [congruence|exact Hd|exact Hp].
Qed.
Lemma srv_kept_refl ph pl cn s : consistent s -> srv_kept ph pl cn s s.
Proof. intros C. split; auto. Qed.
