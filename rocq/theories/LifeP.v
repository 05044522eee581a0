(** Consequences of the refinement: what the HTTP requests show, and what can happen to a
    device while it is registered. *)
From stdpp Require Import gmap.
From Verif Require Import Base HexM TimeM HashM HeaderM ParamsM GeoM MsgM PacketM FrameM ProgM RingM SpecRing
  StateM ProcM ServerM SpecState SpecCodec SpecReg StateP ProcP ServerP EffectP CmdP RegP.
Local Open Scope N_scope.

(** * GET /device *)
Lemma values_of (devs : gmap nat device) (L : list (str * nat)) :
  (forall p l, (p, l) ∈ L -> exists d, devs !! l = Some d /\ d_phone d = p) ->
  exists ds, Forall2 (fun l d => devs !! l = Some d) L.*2 ds /\ d_phone <$> ds = L.*1.
Proof.
  induction L as [|[p l] L IH]; intros H; [exists []; split; [constructor|reflexivity]|].
  destruct IH as (ds & H1 & H2); [intros; apply H; right; assumption|].
  destruct (H p l ltac:(left)) as (d & Hd & Hp). exists (d :: ds). split; [constructor; assumption|].
  cbn. rewrite Hp. f_equal. exact H2.
Qed.
Lemma device_list e now evs : let s := w_st (history e now evs) in let pl := follow e (world0 now) evs no_data in
  exists ls ds, run apiList s = (Ok ls, s) /\ Forall2 (fun l d => st_devs s !! l = Some d) ls ds
    /\ base.NoDup ds /\ forall d, d ∈ ds <-> exists ph, pf_dev pl !! ph = Some d.
Proof.
  intros s pl. pose proof (wo_ok _ (history_ok e now evs)) as C. fold s in C. pose proof (refinement e now evs) as R.
  fold s pl in R. destruct (values_of (st_devs s) (map_to_list (st_byPhone s))) as (ds & H1 & H2).
  { intros p l H. apply elem_of_map_to_list in H. destruct (cs_phone s C _ _ H) as (d & Hd & Hp & _). eauto. }
  exists (map_to_list (st_byPhone s)).*2, ds. split; [reflexivity|]. split; [exact H1|]. split.
  - apply (NoDup_fmap_1 d_phone). rewrite H2. apply NoDup_fst_map_to_list.
  - intros d. assert (Hi : forall q, q ∈ d_phone <$> ds <-> is_Some (st_byPhone s !! q)).
    { intros q. rewrite H2, elem_of_list_fmap. split.
      - intros ([q' l] & -> & Hin). apply elem_of_map_to_list in Hin. eauto.
      - intros (l & Hl). exists (q, l). split; [reflexivity|]. apply elem_of_map_to_list. exact Hl. }
    split.
    + intros Hd. destruct (elem_of_list_lookup_1 _ _ Hd) as (i & Hi').
      destruct (Forall2_lookup_r _ _ _ _ _ H1 Hi') as (l & Hl & Hld).
      exists (d_phone d). rewrite <- (proj1 (R (d_phone d))). apply elem_of_list_lookup_2 in Hl.
      apply elem_of_list_fmap in Hl as ([q l'] & -> & Hin). apply elem_of_map_to_list in Hin.
      destruct (cs_phone s C _ _ Hin) as (d' & Hd' & Hp & _). cbn in Hld. rewrite Hld in Hd'. injection Hd' as <-.
      unfold devAt. rewrite Hp, Hin. exact Hld.
    + intros (ph & Hph). rewrite <- (proj1 (R ph)) in Hph. destruct (devAt_Some s C ph d Hph) as (l & Hl & Hd & Hp & _).
      assert (Hm : (ph, l) ∈ map_to_list (st_byPhone s)) by (apply elem_of_map_to_list; exact Hl).
      assert (Hm' : l ∈ (map_to_list (st_byPhone s)).*2) by (apply elem_of_list_fmap; exists (ph, l); auto).
      apply elem_of_list_lookup_1 in Hm' as (i & Hi'). destruct (Forall2_lookup_l _ _ _ _ _ H1 Hi') as (d' & Hd' & E).
      rewrite Hd in E. injection E as <-. eapply elem_of_list_lookup_2. exact Hd'.
Qed.

(** * GET /device/:phone/geo *)
Lemma geo_request e now evs ph : let s := w_st (history e now evs) in let pl := follow e (world0 now) evs no_data in
  fst (run (apiGeo ph) s) =
  match pf_dev pl !! ph with
  | None => Ok ([400], None)
  | Some _ => if (length (reported pl ph) mod 100 =? 0)%nat then Ok ([], None)
              else Ok ([200], last_of (reported pl ph))
  end.
Proof.
  intros s pl. pose proof (wo_ok _ (history_ok e now evs)) as C. fold s in C. pose proof (refinement e now evs) as R.
  fold s pl in R. pose proof (run_apiGeo ph s C) as H. destruct (R ph) as (R1 & R2 & _). rewrite <- R1. unfold devAt.
  destruct (st_byPhone s !! ph) as [l|] eqn:El; [|rewrite H; reflexivity].
  destruct (cs_phone s C _ _ El) as (d & Hd & _). rewrite Hd.
  destruct H as (s' & _ & _ & _ & H). destruct (H _ R2) as (_ & H'). rewrite H'. cbn [fst].
  destruct (Nat.eqb_spec (length (reported pl ph) mod 100) 0) as [E|E]; [reflexivity|].
  unfold last_of. destruct (rev (reported pl ph)) as [|g t] eqn:Er; [|reflexivity].
  apply (f_equal (@rev _)) in Er. rewrite rev_involutive in Er. cbn in Er. rewrite Er in E. destruct E. reflexivity.
Qed.
Lemma geo_lost e now evs ph d : let s := w_st (history e now evs) in let pl := follow e (world0 now) evs no_data in
  pf_dev pl !! ph = Some d -> (length (reported pl ph) mod 100 = 0)%nat ->
  fst (run (apiGeo ph) s) = Ok ([], None).
Proof.
  intros s pl Hd Hl. unfold s. rewrite geo_request. fold pl. rewrite Hd, Hl. reflexivity.
Qed.

Lemma same_identity_refl d : same_identity d d.
Proof. repeat split. Qed.
Lemma identity e now evs ev ph d d' : let w := history e now evs in
  devAt (w_st w) ph = Some d -> devAt (w_st (step e w ev)) ph = Some d' -> same_identity d d'.
Proof.
  intros w H H'. destruct (devAt_Some _ (wo_ok _ (history_ok e now evs)) ph d H) as (_ & _ & _ & Hp & _).
  pose proof (event_dev e now evs ev ph) as V. cbv zeta in V. fold w in V.
  destruct V as [E|[(_ & d1 & E1 & _ & E)|(sl & frm & wr & x & h & b & _ & _ & _ & _ & M)]].
  - rewrite E, H in H'. injection H' as <-. repeat split.
  - rewrite H in E1. injection E1 as <-. rewrite E in H'. destruct (d_status d =? Offline); [discriminate|].
    injection H' as <-. repeat split.
  - rewrite H, H' in M. destruct M as [E|(_ & [E|[(d1 & st & E1 & E & _)|[(d1 & al & c & i & v & E1 & _ & _ & E)|(r & E1 & _)]]])]; try discriminate.
    + injection E as ->. repeat split.
    + injection E1 as <-. injection E as ->. repeat split.
    + injection E1 as <-. injection E as ->. repeat split. symmetry. exact Hp.
Qed.
Lemma refreshed e now evs ev ph d d' : let w := history e now evs in let s := w_st w in
  devAt s ph = Some d -> devAt (w_st (step e w ev)) ph = Some d' -> d_last d' <> d_last d ->
  d_last d' = st_clock s /\ exists sl frm wr h b, ev = EFrame sl (Ok frm) wr /\ received e s frm = Some (h, b)
    /\ h_phone h = ph /\ refreshing b d.
Proof.
  intros w s H H' Hl. subst s. destruct (devAt_Some _ (wo_ok _ (history_ok e now evs)) ph d H) as (_ & _ & _ & Hp & _).
  pose proof (event_dev e now evs ev ph) as V. cbv zeta in V. fold w in V.
  destruct V as [E|[(_ & d1 & E1 & _ & E)|(sl & frm & wr & x & h & b & -> & _ & _ & Er & M)]].
  - rewrite E, H in H'. injection H' as <-. contradiction.
  - rewrite H in E1. injection E1 as <-. rewrite E in H'. destruct (d_status d =? Offline); [discriminate|].
    injection H' as <-. contradiction.
  - rewrite H, H' in M. destruct M as [E|(Hh & [E|[(d1 & st & E1 & E & Hb)|[(d1 & al & c & i & v & E1 & Hb & Hc & E)|(r & E1 & _)]]])]; try discriminate.
    + injection E as ->. contradiction.
    + injection E1 as <-. injection E as ->. split; [reflexivity|]. exists sl, frm, wr, h, b. repeat (split; [first [reflexivity|assumption]|]).
      destruct Hb as [(-> & _)|[(m & -> & Hm & _)|(sn & id & -> & Hs & _)]]; [left; reflexivity| |].
      * right. right. left. eauto.
      * right. right. right. eauto.
    + injection E1 as <-. injection E as ->. split; [reflexivity|]. exists sl, frm, wr, h, b. repeat (split; [first [reflexivity|assumption]|]).
      right. left. rewrite Hp. exists al, i, v. congruence.
Qed.
(** a location with ACC on: the device is reported but not heard *)
Lemma unheard e now evs sl frm wr h m d : let w := history e now evs in let s := w_st w in
  sl ∈ w_live w -> received e s frm = Some (h, B0200 m) -> devAt s (h_phone h) = Some d -> N.testbit (l_status m) 0 = true ->
  let s' := w_st (step e w (EFrame sl (Ok frm) wr)) in
  devAt s' (h_phone h) = Some d
  /\ forall t, (d_last d + d_keep d < t)%Z -> d_status d <> Offline ->
       devAt (snd (run (checkKeepalive (h_phone h)) (set_clock t s'))) (h_phone h) = Some (with_status d Offline).
Proof.
  intros w s Hl Hr Hd Hm s'. pose proof (history_ok e now evs) as W. fold w in W.
  assert (E : devAt s' (h_phone h) = Some d).
  { destruct (wo_live _ W sl Hl) as (x & Hx). pose proof (step_shows e w (EFrame sl (Ok frm) wr) _ W (refinement e now evs)) as R.
    fold s' in R. pose proof (proj1 (refinement e now evs (h_phone h))) as R0. fold w s in R0.
    rewrite (proj1 (R (h_phone h))). cbn [advance]. rewrite bool_decide_true by exact Hl. fold s. change (w_st w) with s in Hx. rewrite Hx, Hr. cbn [handle].
    rewrite <- R0, Hd, Hm. cbn [fst append pf_dev]. rewrite <- R0. exact Hd. }
  split; [exact E|]. intros t Ht Hs.
  assert (C' : consistent s') by exact (wo_ok _ (step_ok e w _ W)).
  destruct (tick_offline (h_phone h) (set_clock t s') d) as (s1 & E1 & _ & E2 & _).
  - destruct C'. constructor; assumption.
  - exact E.
  - exact Hs.
  - exact Ht.
  - rewrite E1. exact E2.
Qed.

(** * What the comment above checkDeviceKeepalive says *)
Lemma offline_open ph s d : consistent s -> devAt s ph = Some d -> d_status d <> Offline ->
  (d_last d + d_keep d < st_clock s)%Z ->
  exists s', run (checkKeepalive ph) s = (Ok tt, s') /\ devAt s' ph = Some (with_status d Offline) /\ st_conns s' = st_conns s.
Proof.
  intros C Hd Hs Ht. destruct (tick_offline ph s d C Hd Hs Ht) as (s' & E & _ & E1 & _ & _ & _ & E2).
  exists s'. split; [exact E|]. split; [exact E1|]. destruct E2 as (_ & _ & _ & _ & _ & _ & E2 & _). exact E2.
Qed.

(** the check after the one that turned it offline removes the device, however soon *)
Lemma cleared_early ph s d t : consistent s -> devAt s ph = Some d -> d_status d <> Offline ->
  (d_last d + d_keep d < st_clock s)%Z -> (st_clock s <= t)%Z ->
  exists s1 s2, run (checkKeepalive ph) s = (Ok tt, s1) /\ devAt s1 ph = Some (with_status d Offline)
    /\ run (checkKeepalive ph) (set_clock t s1) = (Ok tt, s2) /\ devAt s2 ph = None /\ ringOf s2 ph = None.
Proof.
  intros C Hd Hs Ht Hc. destruct (tick_offline ph s d C Hd Hs Ht) as (s1 & E & C1 & E1 & _).
  destruct (tick_cleared ph (set_clock t s1) (with_status d Offline)) as (s2 & E2 & _ & E3 & _ & E4 & _).
  - destruct C1. constructor; assumption.
  - exact E1.
  - reflexivity.
  - cbn. lia.
  - exists s1, s2. auto.
Qed.

(** * Connections and devices *)
(** whoever sends the logout *)
Lemma foreign_logout e now evs sl frm wr x h d : let w := history e now evs in let s := w_st w in
  sl ∈ w_live w -> st_sess s !! sl = Some x -> received e s frm = Some (h, B0003) -> devAt s (h_phone h) = Some d ->
  ss_conn x <> d_conn d -> devAt (w_st (step e w (EFrame sl (Ok frm) wr))) (h_phone h) = None.
Proof.
  intros w s Hl Hx Hr Hd _. pose proof (history_ok e now evs) as W. fold w in W.
  pose proof (step_shows e w (EFrame sl (Ok frm) wr) _ W (refinement e now evs)) as R.
  pose proof (proj1 (refinement e now evs (h_phone h))) as R0. fold w s in R0.
  rewrite (proj1 (R (h_phone h))). cbn [advance]. rewrite bool_decide_true by exact Hl. fold s. rewrite Hx, Hr. cbn [handle].
  rewrite <- R0, Hd. cbn [fst strike pf_dev]. apply lookup_delete.
Qed.
(** apart from registrations, the connection a message comes from plays no role *)
Lemma any_connection dflt addr addr' c c' t now h b pl : (forall r, b <> B0100 r) ->
  handle dflt addr c t now h b pl = handle dflt addr' c' t now h b pl.
Proof. intros Hb. destruct b; try reflexivity. destruct (Hb r). reflexivity. Qed.
Lemma any_session e now evs sl sl' frm wr wr' h b : let w := history e now evs in let s := w_st w in
  sl ∈ w_live w -> sl' ∈ w_live w -> received e s frm = Some (h, b) -> (forall r, b <> B0100 r) ->
  forall ph, let s1 := w_st (step e w (EFrame sl (Ok frm) wr)) in let s2 := w_st (step e w (EFrame sl' (Ok frm) wr')) in
  devAt s1 ph = devAt s2 ph /\ st_params s1 !! ph = st_params s2 !! ph
  /\ exists ws, track s1 ph ws /\ track s2 ph ws.
Proof.
  intros w s Hl Hl' Hr Hb ph s1 s2. pose proof (history_ok e now evs) as W. fold w in W.
  pose proof (step_shows e w (EFrame sl (Ok frm) wr) _ W (refinement e now evs) ph) as R1.
  pose proof (step_shows e w (EFrame sl' (Ok frm) wr') _ W (refinement e now evs) ph) as R2.
  destruct (wo_live _ W sl Hl) as (x & Hx), (wo_live _ W sl' Hl') as (x' & Hx').
  cbn [advance] in R1, R2. rewrite bool_decide_true in R1 by exact Hl. rewrite bool_decide_true in R2 by exact Hl'.
  change (w_st w) with s in Hx, Hx', R1, R2. rewrite Hx, Hr in R1. rewrite Hx', Hr in R2.
  rewrite (any_connection _ (ss_id x') (ss_id x) (ss_conn x') (ss_conn x) _ _ h b _ Hb) in R2.
  fold s1 in R1. fold s2 in R2. destruct R1 as (A1 & A2 & A3), R2 as (B1 & B2 & B3).
  split; [congruence|]. split; [congruence|]. eexists. split; [exact A2|exact B2].
Qed.
(** clearing a silent device closes its connection, whoever else is on it *)
Lemma shared_closed ph ph' s d d' k : consistent s -> devAt s ph = Some d -> d_status d = Offline ->
  (d_last d + d_keep d < st_clock s)%Z -> ph' <> ph -> devAt s ph' = Some d' -> d_conn d' = d_conn d ->
  st_conns s !! d_conn d = Some k ->
  exists s', run (checkKeepalive ph) s = (Ok tt, s') /\ devAt s' ph' = Some d'
    /\ st_conns s' !! d_conn d' = Some (mkConn false (cn_out k)).
Proof.
  intros C Hd Hs Ht Hn Hd' Hc Hk. destruct (tick_cleared ph s d C Hd Hs Ht) as (s' & E & _ & _ & _ & _ & E1 & _ & (E2 & _) & _).
  exists s'. split; [exact E|]. split; [rewrite (E2 ph' Hn); exact Hd'|]. rewrite Hc. exact (E1 k Hk).
Qed.

Lemma records e now evs ph d : devAt (w_st (history e now evs)) ph = Some d -> record_ok ph d.
Proof.
  revert ph d. induction evs as [|ev evs IH] using rev_ind; intros ph d; [cbn; discriminate|].
  rewrite history_snoc. pose proof (event_dev e now evs ev ph) as V. cbv zeta in V. set (w := history e now evs) in *.
  destruct V as [E|[(_ & d1 & E1 & _ & E)|(sl & frm & wr & x & h & b & -> & _ & _ & Er & M)]].
  - rewrite E. apply IH.
  - rewrite E. specialize (IH _ _ E1) as (H1 & H2 & H3 & H4). destruct (d_status d1 =? Offline); [discriminate|].
    intros [= <-]. repeat split; auto.
  - intros H'. rewrite H' in M. destruct M as [E|(Hh & [E|[(d1 & st & E1 & E & Hb)|[(d1 & al & c & i & v & E1 & Hb & Hc & E)|(r & E1 & _ & E)]]])].
    + apply IH. symmetry. exact E.
    + discriminate.
    + specialize (IH _ _ E1) as (H1 & H2 & H3 & H4). injection E as ->. split; [exact H1|]. split; [exact H2|]. split; [exact H3|].
      cbn [heard d_status]. destruct Hb as [(_ & ->)|[(m & _ & _ & ->)|(sn & id & _ & _ & ->)]]; auto.
    + specialize (IH _ _ E1) as (H1 & H2 & H3 & H4). injection E as ->. split; [reflexivity|]. split; [exact H2|]. split; [right; exact Hc|].
      right. left. reflexivity.
    + injection E as ->. split; [reflexivity|]. split; [reflexivity|]. split; left; reflexivity.
Qed.
Lemma reported_append ph g pl : reported (append ph g pl) ph = reported pl ph ++ [g].
Proof. unfold reported at 1, append. cbn [pf_loc]. rewrite lookup_insert. reflexivity. Qed.
(** a location is taken from a registered device, authenticated or not *)
Lemma unauthenticated e now evs sl frm wr h m d : let w := history e now evs in let s := w_st w in
  let pl := follow e (world0 now) evs no_data in
  sl ∈ w_live w -> received e s frm = Some (h, B0200 m) -> devAt s (h_phone h) = Some d -> d_auth d = [] ->
  exists g, track (w_st (step e w (EFrame sl (Ok frm) wr))) (h_phone h) (reported pl (h_phone h) ++ [g]).
Proof.
  intros w s pl Hl Hr Hd _. pose proof (history_ok e now evs) as W. fold w in W.
  destruct (wo_live _ W sl Hl) as (x & Hx). change (w_st w) with s in Hx.
  pose proof (step_shows e w (EFrame sl (Ok frm) wr) _ W (refinement e now evs)) as R. fold pl in R.
  pose proof (proj1 (refinement e now evs (h_phone h))) as R0. fold w s pl in R0.
  destruct (R (h_phone h)) as (_ & T & _). cbn [advance] in T. rewrite bool_decide_true in T by exact Hl. fold s in T.
  rewrite Hx, Hr in T. cbn [handle] in T. rewrite <- R0, Hd in T. cbn [fst] in T. rewrite reported_append in T. eexists.
  assert (El : forall b : bool, reported (if b then pl else enter (heard (st_clock s) Sleeping d) pl) (h_phone h) = reported pl (h_phone h))
    by (intros []; reflexivity).
  rewrite El in T. exact T.
Qed.

(** * Status and staying registered *)
Lemma handle_gone dflt addr c t now h b pl ph d : keyed pl -> pf_dev pl !! ph = Some d ->
  pf_dev (fst (handle dflt addr c t now h b pl)) !! ph = None ->
  h_phone h = ph /\ (b = B0003 \/ exists al code imei sw, b = B0102 al code imei sw /\ code <> code_for (d_id d) (d_plate d) ph).
Proof.
  intros K Hd.
  assert (He : forall d1 p, pf_dev p !! ph = Some d -> pf_dev (enter d1 p) !! ph <> None).
  { intros d1 p Hp. cbn [enter pf_dev]. destruct (decide (d_phone d1 = ph)) as [<-|Hn].
    - rewrite lookup_insert. discriminate.
    - rewrite lookup_insert_ne by exact Hn. congruence. }
  assert (Hs : pf_dev (strike (h_phone h) pl) !! ph = None -> h_phone h = ph).
  { cbn [strike pf_dev]. destruct (decide (h_phone h = ph)); [auto|]. rewrite lookup_delete_ne by assumption. congruence. }
  destruct b as [sn id r| | | |r|al code imei sw|? ? ?|m| | |sn num ? ?|sn id r|?|sn r code|? [ps|]| | |?];
    cbn [handle fst]; try congruence.
  all: try (destruct (pf_dev pl !! h_phone h) as [d1|] eqn:Ed; cbn [fst]; [|congruence]).
  all: try congruence.
  all: try (intros X; exfalso; revert X; now apply He).
  - intros X. split; auto.
  - case_bool_decide; cbn [fst]; [congruence|]. case_bool_decide; cbn [fst]; [congruence|]. intros X; exfalso; revert X; now apply He.
  - case_bool_decide as Hc; cbn [fst]; [intros X; exfalso; revert X; now apply He|].
    intros X. apply Hs in X. split; [exact X|]. right. exists al, code, imei, sw. split; [reflexivity|]. rewrite X in *. congruence.
  - cbn [append pf_dev]. destruct (N.testbit (l_status m) 0); [congruence|]. intros X; exfalso; revert X; now apply He.
  - destruct (r =? 0); [|cbn [fst]; congruence]. destruct (pf_dev pl !! h_phone h) as [d1|] eqn:Ed; cbn [fst]; [|congruence].
    destruct (d_status d1 =? Offline); [|congruence]. intros X; exfalso; revert X; now apply He.
  - cbn [store pf_dev]. congruence.
  - destruct (pf_par pl !! h_phone h); [cbn [fst]; congruence|]. destruct (dflt (h_phone h)); cbn [fst store pf_dev]; congruence.
Qed.
Lemma event_gone e now evs ev ph d : let w := history e now evs in
  devAt (w_st w) ph = Some d -> devAt (w_st (step e w ev)) ph = None ->
  leaves e ph w ev \/ (ev = ETick ph /\ (d_last d + d_keep d < st_clock (w_st w))%Z /\ d_status d = Offline).
Proof.
  intros w Hd Hn. pose proof (history_ok e now evs) as W. fold w in W. pose proof (refinement e now evs) as R. fold w in R.
  pose proof (step_shows e w ev _ W R) as R'. set (pl := follow e (world0 now) evs no_data) in *.
  pose proof (shows_keyed _ pl (wo_ok _ W) R) as K.
  pose proof (event_dev e now evs ev ph) as V. cbv zeta in V. fold w in V.
  destruct V as [E|[(-> & d1 & E1 & Hl & E)|(sl & frm & wr & x & h & b & -> & Hl & Hx & Er & M)]].
  - congruence.
  - right. rewrite Hd in E1. injection E1 as <-. rewrite Hn in E. split; [reflexivity|]. split; [exact Hl|].
    destruct (N.eqb_spec (d_status d) Offline); [assumption|discriminate].
  - left. rewrite (proj1 (R' ph)) in Hn. cbn [advance] in Hn. rewrite bool_decide_true in Hn by exact Hl. rewrite Hx, Er in Hn.
    assert (Hp : pf_dev pl !! ph = Some d) by (rewrite <- (proj1 (R ph)); exact Hd).
    destruct (handle_gone _ _ _ _ _ _ _ _ _ _ K Hp Hn) as (Hh & Hb).
    exists sl, frm, wr, h, b. do 3 (split; [first [reflexivity|assumption]|]).
    destruct Hb as [->|(al & code & imei & sw & -> & Hc)]; [left; reflexivity|]. right. exists al, code, imei, sw, d. auto.
Qed.


Lemma step_clock e w ev : world_ok w -> st_clock (w_st (step e w ev)) = match ev with EClock t => t | _ => st_clock (w_st w) end.
Proof.
  intros [C D L R]. unfold step. rewrite D. destruct ev as [c addr|sl r x|ph| |ph|ph x|ph bad ps x|t].
  - destruct (st_conns (w_st w) !! c) as [k|] eqn:Ec; [reflexivity|].
    destruct (accept_ok (w_st w) c addr C Ec) as (E & _). rewrite E. reflexivity.
  - case_bool_decide as Hl; [|reflexivity].
    destruct (L sl Hl) as (y & Hy). destruct (cs_conn _ C _ _ Hy) as ((k & Hk) & _).
    destruct (run_serveLoop1 e sl r x (w_st w) y k C Hy Hk) as (q & s1 & x1 & _ & K & Hx1 & Hi1 & Hc1 & E).
    rewrite E. rewrite <- (fk_clock _ _ _ _ K). destruct q as [[]|er|]; reflexivity.
  - case_bool_decide as Hj; [|reflexivity]. apply (cs_jobs2 _ C) in Hj. destruct Hj as (l & H).
    destruct (cs_phone _ C _ _ H) as (d & H1 & _). rewrite (run_keepalive ph _ l d C H H1).
    cbn [w_st]. destruct (expired (w_st w) d); [|reflexivity]. destruct (d_status d =? Offline); reflexivity.
  - reflexivity.
  - pose proof (run_apiGeo ph (w_st w) C) as H. destruct (st_byPhone (w_st w) !! ph) as [l|].
    + destruct H as (s' & H & C' & _ & Ht).
      assert (exists ws, track (w_st w) ph ws) as (ws & Hws).
      { unfold track, ringOf. destruct (st_geo (w_st w) !! ph) as [rl|] eqn:Eg; [|eauto].
        destruct (cs_geo _ C _ _ Eg) as (r & ws & Hr & Hh & _). rewrite Hr. eauto. }
      destruct (Ht ws Hws) as (_ & E). rewrite E. cbn [snd w_st]. apply H.
    + rewrite H. reflexivity.
  - assert (H : exists c, cmd_kept c (w_st w) (snd (run (apiGetParams e ph x) (w_st w)))).
    { rewrite run_apiGetParams. destruct (st_byPhone (w_st w) !! ph) as [l|] eqn:E.
      - destruct (st_devs (w_st w) !! l); [apply command_kept; exact C|exists None; apply cmd_kept_refl; exact C].
      - exists None. apply cmd_kept_refl. exact C. }
    destruct H as (c & K). exact (ck_clock _ _ _ K).
  - assert (H : exists c, cmd_kept c (w_st w) (snd (run (apiPutParams e ph bad ps x) (w_st w)))).
    { rewrite run_apiPutParams. destruct (st_byPhone (w_st w) !! ph) as [l|] eqn:E.
      - destruct (st_devs (w_st w) !! l); [apply command_kept; exact C|exists None; apply cmd_kept_refl; exact C].
      - exists None. apply cmd_kept_refl. exact C. }
    destruct H as (c & K). exact (ck_clock _ _ _ K).
  - reflexivity.
Qed.

(** C85: only authentication, or a general answer of the platform itself, makes a device online *)
Lemma woken e now evs ev ph d d' : let w := history e now evs in
  devAt (w_st w) ph = Some d -> devAt (w_st (step e w ev)) ph = Some d' -> d_status d' <> d_status d -> d_status d' = Online ->
  exists sl frm wr h b, ev = EFrame sl (Ok frm) wr /\ received e (w_st w) frm = Some (h, b) /\ h_phone h = ph
    /\ ((exists al imei sw, b = B0102 al (code_for (d_id d) (d_plate d) ph) imei sw)
        \/ (exists sn id, b = B8001 sn id 0 /\ d_status d = Offline)).
Proof.
  intros w H H' Hn Ho.
  pose proof (event_dev e now evs ev ph) as V. cbv zeta in V. fold w in V.
  destruct V as [E|[(_ & d1 & E1 & _ & E)|(sl & frm & wr & x & h & b & -> & _ & _ & Er & M)]].
  - rewrite E, H in H'. injection H' as <-. contradiction.
  - rewrite H in E1. injection E1 as <-. rewrite E in H'. destruct (d_status d =? Offline); [discriminate|].
    injection H' as <-. cbn in Ho. discriminate Ho.
  - exists sl, frm, wr, h, b. rewrite H, H' in M.
    destruct M as [E|(Hh & [E|[(d1 & st & E1 & E & Hb)|[(d1 & al & c & i & v & E1 & Hb & Hc & E)|(r & E1 & _)]]])]; try discriminate.
    + injection E as ->. contradiction.
    + injection E1 as <-. injection E as ->. do 3 (split; [first [reflexivity|assumption]|]).
      destruct Hb as [(-> & Hs)|[(m & -> & Hm & Hs)|(sn & id & -> & Hs & _)]]; cbn in Hn, Ho.
      * congruence.
      * rewrite Ho in Hs. discriminate Hs.
      * right. eauto.
    + injection E1 as <-. do 3 (split; [first [reflexivity|assumption]|]). left. subst c. eauto.
Qed.
(** a heartbeat or a location report with ACC on leaves the status as it is *)
Lemma not_woken e now evs sl frm wr h b d : let w := history e now evs in
  sl ∈ w_live w -> received e (w_st w) frm = Some (h, b) -> devAt (w_st w) (h_phone h) = Some d ->
  b = B0002 \/ (exists m, b = B0200 m /\ N.testbit (l_status m) 0 = true) ->
  exists d', devAt (w_st (step e w (EFrame sl (Ok frm) wr))) (h_phone h) = Some d' /\ d_status d' = d_status d.
Proof.
  intros w Hl Hr Hd Hb. pose proof (history_ok e now evs) as W. fold w in W.
  destruct (wo_live _ W sl Hl) as (x & Hx). pose proof (refinement e now evs) as R. fold w in R.
  pose proof (step_shows e w (EFrame sl (Ok frm) wr) _ W R) as R'. set (pl := follow e (world0 now) evs no_data) in *.
  pose proof (shows_keyed _ pl (wo_ok _ W) R) as K.
  assert (Hp : pf_dev pl !! h_phone h = Some d) by (rewrite <- (proj1 (R (h_phone h))); exact Hd).
  rewrite (proj1 (R' (h_phone h))). cbn [advance]. rewrite bool_decide_true by exact Hl. rewrite Hx, Hr.
  destruct Hb as [->|(m & -> & Hm)]; cbn [handle]; rewrite Hp.
  - cbn [fst enter pf_dev heard d_phone]. rewrite (K _ _ Hp). rewrite lookup_insert. eexists. split; reflexivity.
  - rewrite Hm. cbn [fst append pf_dev]. eauto.
Qed.

(** C86 *)
Lemma attended_step e now evs ev ph d t : let w := history e now evs in
  devAt (w_st w) ph = Some d -> d_status d <> Offline -> d_keep d = 60000%Z -> (t <= d_last d)%Z -> (t <= st_clock (w_st w))%Z ->
  ~ leaves e ph w ev -> (ev = ETick ph -> (st_clock (w_st w) <= t + 60000)%Z) ->
  exists d', devAt (w_st (step e w ev)) ph = Some d' /\ d_status d' <> Offline /\ (t <= d_last d')%Z /\ same_identity d d'.
Proof.
  intros w Hd Hs Hk Ht Hc Hl Htick.
  pose proof (event_dev e now evs ev ph) as V. cbv zeta in V. fold w in V.
  destruct (devAt (w_st (step e w ev)) ph) as [d'|] eqn:Hd'.
  2:{ destruct (event_gone e now evs ev ph d Hd Hd') as [G|(_ & _ & G)]; contradiction. }
  exists d'. split; [reflexivity|].
  destruct V as [E|[(-> & d1 & E1 & Hx & E)|(sl & frm & wr & x & h & b & -> & _ & _ & Er & M)]].
  - rewrite Hd in E. injection E as ->. repeat split; auto.
  - rewrite Hd in E1. injection E1 as <-. specialize (Htick eq_refl). lia.
  - pose proof (identity e now evs (EFrame sl (Ok frm) wr) ph d d' Hd Hd') as I.
    rewrite Hd in M.
    destruct M as [E|(Hh & [E|[(d1 & st & E1 & E & Hb)|[(d1 & al & c & i & v & E1 & Hb & Hcd & E)|(r & E1 & _)]]])]; try discriminate.
    + injection E as ->. repeat split; auto.
    + injection E1 as <-. injection E as ->. cbn [heard d_status d_last]. split; [|split; [exact Hc|exact I]].
      destruct Hb as [(-> & ->)|[(m & -> & Hm & ->)|(sn & id & -> & Hs' & ->)]]; [exact Hs|discriminate|discriminate].
    + injection E1 as <-. injection E as ->. cbn [d_status d_last]. split; [discriminate|]. split; [exact Hc|exact I].
Qed.
Lemma beat_refreshes e now evs ev ph d : let w := history e now evs in
  devAt (w_st w) ph = Some d -> beats e ph w ev ->
  devAt (w_st (step e w ev)) ph = Some (heard (st_clock (w_st w)) (d_status d) d).
Proof.
  intros w Hd (sl & frm & wr & h & -> & Hl & Hr & Hh). pose proof (history_ok e now evs) as W. fold w in W.
  destruct (wo_live _ W sl Hl) as (x & Hx). pose proof (refinement e now evs) as R. fold w in R.
  pose proof (step_shows e w (EFrame sl (Ok frm) wr) _ W R) as R'. set (pl := follow e (world0 now) evs no_data) in *.
  pose proof (shows_keyed _ pl (wo_ok _ W) R) as K.
  assert (Hp : pf_dev pl !! ph = Some d) by (rewrite <- (proj1 (R ph)); exact Hd).
  rewrite (proj1 (R' ph)). cbn [advance]. rewrite bool_decide_true by exact Hl. rewrite Hx, Hr. cbn [handle]. rewrite Hh, Hp.
  cbn [fst enter pf_dev heard d_phone]. rewrite (K _ _ Hp). rewrite lookup_insert. reflexivity.
Qed.
Lemma stays_from e now evs' : forall evs ph d t, let w := history e now evs in
  devAt (w_st w) ph = Some d -> d_status d <> Offline -> d_keep d = 60000%Z -> (t <= d_last d)%Z -> (t <= st_clock (w_st w))%Z ->
  attended e ph w t evs' ->
  exists d', devAt (w_st (history e now (evs ++ evs'))) ph = Some d' /\ d_status d' <> Offline /\ same_identity d d'.
Proof.
  induction evs' as [|ev evs' IH]; intros evs ph d t w Hd Hs Hk Ht Hc A.
  - rewrite app_nil_r. exists d. repeat split; auto.
  - pose proof (step_clock e w ev (history_ok e now evs)) as Hck.
    replace (evs ++ ev :: evs') with ((evs ++ [ev]) ++ evs') by (rewrite <- app_assoc; reflexivity).
    pose proof (IH (evs ++ [ev]) ph) as IH'. rewrite history_snoc in IH'. change (history e now evs) with w in IH'. cbv zeta in IH'.
    inversion A as [|w0 t0 ev0 evs0 Hb A' E1 E2 E3|w0 t0 ev0 evs0 Hl Htk Hcl A' E1 E2 E3]; subst.
    + pose proof (beat_refreshes e now evs ev ph d Hd Hb) as Hd'. change (history e now evs) with w in Hd'.
      edestruct IH' as (d2 & Y1 & Y2 & Y3).
      * exact Hd'.
      * exact Hs.
      * exact Hk.
      * cbn [heard d_last]. apply Z.le_refl.
      * destruct Hb as (sl & frm & wr & h & -> & _). rewrite Hck. apply Z.le_refl.
      * exact A'.
      * exists d2. split; [exact Y1|]. split; [exact Y2|exact Y3].
    + destruct (attended_step e now evs ev ph d t Hd Hs Hk Ht Hc Hl Htk) as (d1 & Z1 & Z2 & Z3 & Z4). change (history e now evs) with w in Z1.
      edestruct IH' as (d2 & Y1 & Y2 & Y3).
      * exact Z1.
      * exact Z2.
      * destruct Z4 as (_ & _ & _ & _ & _ & -> & _). exact Hk.
      * exact Z3.
      * rewrite Hck. destruct ev; try exact Hc. specialize (Hcl _ eq_refl). lia.
      * exact A'.
      * exists d2. split; [exact Y1|]. split; [exact Y2|]. unfold same_identity in *. intuition congruence.
Qed.
Lemma stays e now evs evs' ph d : let w := history e now evs in
  devAt (w_st w) ph = Some d -> d_status d <> Offline -> (d_last d <= st_clock (w_st w))%Z ->
  attended e ph w (d_last d) evs' ->
  exists d', devAt (w_st (history e now (evs ++ evs'))) ph = Some d' /\ d_status d' <> Offline /\ same_identity d d'.
Proof.
  intros w Hd Hs Hc A. refine (stays_from e now evs' evs ph d (d_last d) Hd Hs _ (Z.le_refl _) Hc A).
  exact (proj1 (proj2 (records e now evs ph d Hd))).
Qed.
