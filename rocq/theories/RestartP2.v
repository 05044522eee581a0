(** A restarted simulator: every step keeps the invariant *)
From Coq Require Import ZArith.
From stdpp Require Import gmap.
From Flocq Require Import IEEE754.Bits.
From Verif Require Import Base HexM TimeM HashM HeaderM ParamsM GeoM MsgM PacketM FrameM FloatM ProgM ProgP RingM SpecRing RingP
  StateM ProcM ServerM ClientM DatagenM NetM SpecState SpecCodec SpecSim SpecNet RestartM SpecRestart StateP HandshakeP CmdP DatagenP
  FleetP FleetP2 FleetP3 RestartP.
Local Open Scope N_scope.

Section Steps.
Context (e ec : env) (other : binary64 -> N) (B : nat -> bool).
Hypothesis Ho : e_o ec = e_o e.
Let o := e_o e.
Let step := nstep e ec other.

Lemma rinv_ext n G G' : (forall j, G' j = G j) -> rinv o B n G -> rinv o B n G'.
Proof. intros H (C & A & I). split; [exact C|]. split; [exact A|]. intros i t Ht. rewrite H. apply I; exact Ht. Qed.
Definition rwell (n : net) (G : nat -> list devgeo) (i : nat) (n' : net) (G' : nat -> list devgeo) : Prop :=
  rinv o B n' G'
  /\ (forall j t, nt_terms n !! j = Some t -> exists t', nt_terms n' !! j = Some t' /\ same_term t t' /\ (j <> i -> t' = t))
  /\ length (nt_terms n') = length (nt_terms n)
  /\ (forall q, (forall t, nt_terms n !! i = Some t -> q <> number (tm_conf t)) -> devAt (nt_srv n') q = devAt (nt_srv n) q
       /\ ringOf (nt_srv n') q = ringOf (nt_srv n) q).
Lemma rwell_refl n G i : rinv o B n G -> rwell n G i n G.
Proof.
  intros H. split; [exact H|]. split; [|auto]. intros j t Ht. exists t. split; [exact Ht|]. split; [apply same_term_refl|auto].
Qed.
Lemma rwell_step n G G' i t t' s' sc' x xc : rinv o B n G -> nt_terms n !! i = Some t -> same_term t t' ->
  st_sess (nt_srv n) !! tm_srv t = Some x -> st_sess (nt_cli n) !! tm_cli t = Some xc ->
  srv_kept (number (tm_conf t)) (sm_plate (tm_conf t)) (ss_conn x) (nt_srv n) s' ->
  cli_kept (number (tm_conf t)) (ss_conn xc) (nt_cli n) sc' ->
  (forall j, j <> i -> G' j = G j) -> rtinv o s' sc' t' (B i) (G' i) ->
  rwell n G i (mkNet s' sc' (<[i := t']> (nt_terms n))) G'.
Proof.
  intros I Hi Hs Hx Hxc SK CK HG Ht. split; [eapply rinv_step; eassumption|]. cbn. split; [|split; [apply insert_length|]].
  - intros j u Hu. destruct (decide (j = i)) as [->|Hn].
    + exists t'. rewrite Hi in Hu. injection Hu as <-. split; [apply list_lookup_insert; apply lookup_lt_Some in Hi; exact Hi|].
      split; [exact Hs|congruence].
    + exists u. rewrite list_lookup_insert_ne by congruence. split; [exact Hu|]. split; [apply same_term_refl|auto].
  - intros q Hq. specialize (Hq t Hi). split; apply SK; exact Hq.
Qed.

Ltac simp := cbn [tm_conf tm_geo tm_srv tm_cli tm_at tm_up tm_down tm_served tm_runs set_at read_up read_down] in *.
Ltac opened I Hi :=
  let C := fresh "C" in let A := fresh "A" in let K := fresh "K" in
  pose proof I as (C & A & K); specialize (K _ _ Hi);
  destruct K as (Hab & Hsv & Hrn & x & xc & os & oc & Hx & Hxc & Hk & Hkc & St); simp; subst.
Ltac entered I Hi Hx Hxc := eapply (rwell_step _ _ _ _ _ _ _ _ _ _ I Hi); [repeat split|exact Hx|exact Hxc| | | |].
Ltac same_sess CK Hxc := rewrite (ck_sess _ _ _ _ CK); exact Hxc.
Ltac impossible Ea := exfalso; match goal with H : _ = PSent /\ _ \/ _ |- _ => destruct H as [(E & _)|E]; rewrite E in Ea; discriminate Ea end.

Lemma rwell_build n G i t : rinv o B n G -> nt_terms n !! i = Some t -> rwell n G i (act e ec other n i (NBuild i) t) G.
Proof using Ho.
  intros I Hi. destruct t as [c g0 sl slc a up down sv rn]. opened I Hi. unfold act. simp.
  destruct a; try (apply rwell_refl; exact I). remember (G i) as gi eqn:Eg. remember (B i) as b eqn:Eb. remember PIdle as a eqn:Ea.
  destruct (cli_build c slc (nt_cli n) xc Hxc) as (l & s' & R & Hd & Hc & CK).
  unfold goes. rewrite R. entered I Hi Hx Hxc; [apply srv_kept_refl; exact C|exact CK|auto|].
  unfold rtinv. simp. do 3 (split; [first [assumption|reflexivity]|]). exists x, xc, os, oc. simp. rewrite <- Eg, <- Eb.
  split; [exact Hx|]. split; [same_sess CK Hxc|]. split; [assumption|]. split; [rewrite Hc; assumption|].
  destruct St; try discriminate Ea.
  - apply rs_built; assumption.
  - impossible Ea.
  - eapply ro_built; eassumption.
Qed.
Lemma rwell_register n G i t : rinv o B n G -> nt_terms n !! i = Some t -> rwell n G i (act e ec other n i (NRegister i) t) G.
Proof using Ho.
  intros I Hi. destruct t as [c g0 sl slc a up down sv rn]. opened I Hi. unfold act. simp.
  destruct a; try (apply rwell_refl; exact I). remember (G i) as gi eqn:Eg. remember (B i) as b eqn:Eb. remember PBuilt as a eqn:Ea.
  assert (Hd0 : devAt (nt_cli n) (number c) = Some (genDevice c (ss_id xc) (ss_conn xc)) /\ oc = [] /\ os = []).
  { destruct St; try discriminate Ea; [auto| |auto]. impossible Ea. }
  destruct Hd0 as (Hd0 & -> & ->).
  destruct (cli_register o ec c slc (nt_cli n) xc [] Ho Hab Hxc Hkc Hd0) as (s' & f & r & R & Hc & Hd & CK & Rd & R1 & R2).
  unfold goes. rewrite simPhone_eq, R. entered I Hi Hx Hxc; [apply srv_kept_refl; exact C|exact CK|auto|].
  unfold rtinv. simp. do 3 (split; [first [assumption|reflexivity]|]). exists x, xc, [], [f]. simp. rewrite <- Eg, <- Eb.
  split; [exact Hx|]. split; [same_sess CK Hxc|]. split; [assumption|]. split; [exact Hc|].
  remember [] as oc eqn:Eoc in St. inversion St; subst; try discriminate.
  - eapply rs_1; eassumption.
  - eapply ro_1; eassumption.
Qed.
Lemma rwell_check n G i t : rinv o B n G -> nt_terms n !! i = Some t -> rwell n G i (act e ec other n i (NCheck i) t) G.
Proof using Ho.
  intros I Hi. destruct t as [c g0 sl slc a up down sv rn]. opened I Hi. unfold act. simp.
  destruct a; try (apply rwell_refl; exact I).
  assert (S' : exists d, devAt (nt_cli n) (number c) = Some d
    /\ rstage o c x xc (nt_srv n) (nt_cli n) (B i) oc os (if d_status d =? Online then POnline else PSent) up down (G i)).
  { remember (G i) as gi eqn:Eg. clear Eg. remember (B i) as b eqn:Eb. clear Eb. remember PSent as a eqn:Ea.
    assert (O : d_status (genDevice c (ss_id xc) (ss_conn xc)) = Offline) by (unfold genDevice; repeat case_bool_decide; reflexivity).
    destruct St; try discriminate Ea;
      try (eexists; split; [eassumption|]; rewrite O; cbn [N.eqb Offline Online Pos.eqb];
           first [eapply rs_1; eassumption|eapply rs_2; eassumption|eapply rs_3; eassumption|eapply rs_4; eassumption
                 |eapply ro_1; eassumption|eapply ro_2; eassumption|eapply ro_3; eassumption|eapply ro_4; eassumption]).
    exists dc. split; [assumption|]. replace (d_status dc) with Online by (symmetry; assumption). cbn [N.eqb Online Pos.eqb].
    eapply rs_5; try eassumption. right. reflexivity. }
  destruct S' as (d & Hd & S').
  unfold goes. rewrite simPhone_eq, (run_status _ _ _ Hd). entered I Hi Hx Hxc; [apply srv_kept_refl; exact C|apply cli_kept_refl|auto|].
  unfold rtinv. simp. do 3 (split; [first [assumption|reflexivity]|]). exists x, xc, os, oc. simp.
  do 4 (split; [assumption|]). exact S'.
Qed.
Lemma rwell_beat n G i t : rinv o B n G -> nt_terms n !! i = Some t -> rwell n G i (act e ec other n i (NBeat i) t) G.
Proof using Ho.
  intros I Hi. destruct t as [c g0 sl slc a up down sv rn]. opened I Hi. unfold act. simp.
  destruct a; try (apply rwell_refl; exact I). remember (G i) as gi eqn:Eg. remember (B i) as b eqn:Eb. remember POnline as a eqn:Ea.
  destruct St; try discriminate Ea.
  destruct (cli_beat o ec c slc (nt_cli n) xc _ Ho Hab Hxc Hkc dc ltac:(assumption) ltac:(assumption) ltac:(assumption)) as (s' & f & R & Rd & Hc & Hd & CK).
  unfold goes. rewrite simPhone_eq, R. entered I Hi Hx Hxc; [apply srv_kept_refl; exact C|exact CK|auto|].
  unfold rtinv. simp. do 3 (split; [first [assumption|reflexivity]|]). exists x, xc, (f2 :: f4 :: rs), (f1 :: f3 :: tr ++ [f]). simp. rewrite <- Eg, <- Eb.
  split; [exact Hx|]. split; [same_sess CK Hxc|]. split; [assumption|]. split; [exact Hc|].
  replace (geos (number c) its) with (geos (number c) (its ++ [None])) by (rewrite geos_app; apply app_nil_r).
  pose proof (Forall2_length _ _ _ H7) as HL.
  eapply rs_5; try eassumption.
  - rewrite Hd. assumption.
  - right. first [reflexivity|exact Ea].
  - apply Forall2_app; [assumption|]. constructor; [exact Rd|constructor].
  - rewrite app_length. lia.
  - rewrite firstn_more by lia. assumption.
Qed.
Lemma rwell_report n G i t r : rinv o B n G -> nt_terms n !! i = Some t -> punctual ec n (NReport i r) ->
  rwell n G i (act e ec other n i (NReport i r) t) (fun j => G j ++ generated ec other n j (NReport i r)).
Proof using Ho.
  intros I Hi (Hv & Hy). destruct t as [c g0 sl slc a up down sv rn]. opened I Hi. unfold act. simp.
  assert (HG : forall j, j <> i -> G j ++ generated ec other n j (NReport i r) = G j).
  { intros j Hn. unfold generated. destruct (nt_terms n !! j); [|apply app_nil_r].
    destruct (Nat.eqb_spec i j); [congruence|]. apply app_nil_r. }
  assert (Gi : generated ec other n i (NReport i r) = if is_online a then 
     let now := e_civil ec (st_clock (nt_cli n)) in
     match m_body (genMsg0200 other (genDevice c [] 0) g0 r now) with
     | B0200 l => geo (number c) (Some (l, now)) | _ => [] end else []).
  { unfold generated. rewrite Hi. simp. rewrite Nat.eqb_refl. reflexivity. }
  assert (Stay : is_online a = false -> rwell n G i n (fun j => G j ++ generated ec other n j (NReport i r))).
  { intros F. split; [|destruct (rwell_refl n G i I) as (_ & W); exact W]. apply (rinv_ext n G); [|exact I].
    intros j. cbn beta. destruct (decide (j = i)) as [->|Hn]; [rewrite Gi, F; apply app_nil_r|apply HG; exact Hn]. }
  destruct a; try (apply Stay; reflexivity).
  remember (G i) as gi eqn:Eg. remember (B i) as b eqn:Eb. remember POnline as a eqn:Ea. 
  destruct St; try discriminate Ea.
  destruct (cli_report o ec c slc (nt_cli n) xc _ Ho Hab Hxc Hkc other g0 r dc ltac:(assumption) ltac:(assumption) ltac:(assumption) Hv)
    as (s' & f & l & R & Hb & Ht & Rd & Hc & Hd & CK).
  unfold goes. rewrite simPhone_eq, R. entered I Hi Hx Hxc; [apply srv_kept_refl; exact C|exact CK|exact HG|].
  unfold rtinv. simp. do 3 (split; [first [assumption|reflexivity]|]). exists x, xc, (f2 :: f4 :: rs), (f1 :: f3 :: tr ++ [f]). simp. rewrite <- Eg, <- Eb, Gi. subst a. cbn [is_online].
  cbn zeta. rewrite Hb, <- geos_one, <- app_assoc, <- geos_app.
  split; [exact Hx|]. split; [same_sess CK Hxc|]. split; [assumption|]. split; [exact Hc|].
  pose proof (Forall2_length _ _ _ H7) as HL.
  eapply rs_5; try eassumption.
  - rewrite Hd. assumption.
  - right. first [reflexivity|exact Ea].
  - apply Forall2_app; [assumption|]. constructor; [|constructor]. split; [exact Rd|]. auto.
  - rewrite app_length. lia.
  - rewrite firstn_more by lia. assumption.
Qed.

Ltac unused Hi I W := split; [apply rwell_refl; exact I|left]; intros t0 H0; rewrite Hi in H0; injection H0 as <-;
  unfold unread_up, unread_down; simp; rewrite W; cbn [length cn_out]; lia.
Ltac cases St := destruct St as [ws U T|ws U T Hd|f1 r ws U T Hd R1 Hr1 Hr2|f1 f2 d code ws O T Hd R2 Hc|
    f1 f2 f3 d code al imei sw ws O T Hd R3 Hc|f1 f2 f3 f4 d ws O T Hd S4 Hc R4|
    f1 f2 f3 f4 d its tr rs dc a u w ws O S4 Hc Hd Hp Hv Hst Ha Ht Hrs Hu Hut Hwu T|
    d ws V T|d ws V T Hd|d f1 r ws V T Hd R1|d f1 f2 m ws V T Hd R2 Hm|d f1 f2 f3 al imei sw ws V T Hd R3|f1 f2 f3 f4 w ws U T Hd R4 Hw].

Lemma rwell_serve n G i t : rinv o B n G -> nt_terms n !! i = Some t ->
  let n' := act e ec other n i (NServe i) t in rwell n G i n' G /\ (idle n i unread_up \/ less n i n').
Proof using Ho.
  intros I Hi. destruct t as [c g0 sl slc a up down sv rn]. opened I Hi. unfold act. simp.
  pose proof (written_of _ _ _ _ Hxc Hkc) as W. cbn [cn_out] in W. rewrite W.
  remember (G i) as gi eqn:Eg. remember (B i) as b eqn:Eb. cases St; cbn [nth_error Nat.add].
  - unused Hi I W.
  - unused Hi I W.
  - destruct U as (U1 & U2).
    destruct (srv_register e c (ss_id xc) (ss_conn xc) sl (nt_srv n) x [] Hab C Hx Hk f1 r R1 Hr1 Hr2 U1 U2)
      as (s' & f2 & code & d & Run & Hk' & SK & R2 & Hc & Q1 & Q2 & Q3 & Q4 & Q5 & Q6 & Q7 & _ & Qr).
    rewrite Run. split.
    + entered I Hi Hx Hxc; [exact SK|apply cli_kept_refl|auto|].
      unfold rtinv. simp. do 3 (split; [first [assumption|reflexivity]|]). exists x, xc, [f2], [f1]. rewrite <- Eg, <- Eb.
      split; [rewrite (sk_sess _ _ _ _ _ SK); exact Hx|]. do 3 (split; [assumption|]).
      eapply rs_2; [|unfold track in *; rewrite Qr; exact T|exact Hd|exact R2|exact Hc]. repeat split; eassumption.
    + right. eapply (less_step n i _ _ _ _ _ _ _ _ _ _ Hi Hx Hxc Hk Hkc); try reflexivity; [apply SK|exact Hk'|exact Hkc|simp; cbn; lia].
  - unused Hi I W.
  - destruct O as (O1 & O2 & O3 & O4 & O5 & O6 & O7).
    destruct (srv_auth e c (ss_id xc) (ss_conn xc) sl (nt_srv n) x [f2] Hab C Hx Hk f3 al code imei sw d R3 Hc O1 O3 O4 O5)
      as (s' & f4 & d' & Run & Hk' & SK & R4 & Q1 & Q2 & Q3 & Q4 & Q5 & Q6 & Q7 & Q8 & Q9 & Qr).
    rewrite Run. split.
    + entered I Hi Hx Hxc; [exact SK|apply cli_kept_refl|auto|].
      unfold rtinv. simp. do 3 (split; [first [assumption|reflexivity]|]). exists x, xc, [f2; f4], [f1; f3]. rewrite <- Eg, <- Eb.
      split; [rewrite (sk_sess _ _ _ _ _ SK); exact Hx|]. do 3 (split; [assumption|]).
      eapply rs_4 with (d := d'); [|unfold track in *; rewrite Qr; exact T|exact Hd|rewrite Q8; discriminate|rewrite Q9; exact Hc|eexists; exact R4].
      repeat split; congruence.
    + right. eapply (less_step n i _ _ _ _ _ _ _ _ _ _ Hi Hx Hxc Hk Hkc); try reflexivity; [apply SK|exact Hk'|exact Hkc|simp; cbn; lia].
  - unused Hi I W.
  - pose proof (Forall2_length _ _ _ Ht) as HL.
    destruct (nth_error tr u) as [f|] eqn:En.
    2:{ split; [apply rwell_refl; exact I|left]. apply nth_error_None in En. intros t0 H0. rewrite Hi in H0. injection H0 as <-.
        unfold unread_up. simp. rewrite W. cbn [length]. lia. }
    pose proof (proj1 (nth_error_Some tr u) ltac:(rewrite En; discriminate)) as Hlt.
    assert (exists it, nth_error its u = Some it /\ tells o (genDevice c (ss_id xc) (ss_conn xc)) it f) as (it & Hit & Htl).
    { destruct (nth_error its u) as [it|] eqn:E2; [|apply nth_error_None in E2; lia]. exists it. split; [reflexivity|].
      refine (Forall2_lookup_lr _ _ _ u it f Ht _ _); rewrite <- nth_lookup; assumption. }
    destruct O as (O1 & O2 & O3 & O4 & O5 & O6 & O7).
    assert (X : exists s' f' d', run (serveLoop e sl [(Ok f, None)]) (nt_srv n) = (Ok false, s')
      /\ st_conns s' !! ss_conn x = Some (mkConn true ((f2 :: f4 :: rs) ++ [f'])) /\ srv_kept (number c) (sm_plate c) (ss_conn x) (nt_srv n) s'
      /\ confirms o (genDevice c (ss_id xc) (ss_conn xc)) f'
      /\ devAt s' (number c) = Some d' /\ devWithPlate s' (sm_plate c) = Some d'
      /\ d_id d' = d_id d /\ d_plate d' = d_plate d /\ d_phone d' = d_phone d /\ d_sid d' = d_sid d /\ d_conn d' = d_conn d
      /\ (d_status d <> Offline -> d_status d' <> Offline) /\ d_auth d' = d_auth d
      /\ track s' (number c) (ws ++ geos (number c) (firstn (S u) its))).
    { assert (Ef : ws ++ geos (number c) (firstn (S u) its) = (ws ++ geos (number c) (firstn u its)) ++ geo (number c) it).
      { rewrite (take_S_r its u it) by (rewrite <- nth_lookup; exact Hit).
        rewrite geos_app, geos_one, app_assoc. reflexivity. }
      rewrite Ef. destruct it as [(l & now)|].
      - destruct Htl as (Rd & El & Hvl & Hyw).
        destruct (srv_report e c (ss_id xc) (ss_conn xc) sl (nt_srv n) x _ Hab C Hx Hk f l now _ d Rd El Hvl Hyw O1 O4 T)
          as (s' & f' & d' & Y). exists s', f', d'. exact Y.
      - destruct (srv_beat e c (ss_id xc) (ss_conn xc) sl (nt_srv n) x _ Hab C Hx Hk f d Htl O1 O4)
          as (s' & f' & d' & Y1 & Y2 & Y3 & Y4 & Y5 & Y6 & Y7 & Y8 & Y9 & Y10 & Y11 & Y12 & Y13 & Y14). exists s', f', d'.
        do 13 (split; [assumption|]). cbn [geo]. rewrite app_nil_r. unfold track in *. rewrite Y14. exact T. }
    destruct X as (s' & f' & d' & Run & Hk' & SK & R4 & Q1 & Q2 & Q3 & Q4 & Q5 & Q6 & Q7 & Q8 & Q9 & Qr).
    rewrite Run. split.
    + entered I Hi Hx Hxc; [exact SK|apply cli_kept_refl|auto|].
      unfold rtinv. simp. do 3 (split; [first [assumption|reflexivity]|]). exists x, xc, (f2 :: f4 :: rs ++ [f']), (f1 :: f3 :: tr). rewrite <- Eg, <- Eb.
      split; [rewrite (sk_sess _ _ _ _ _ SK); exact Hx|]. do 3 (split; [assumption|]).
      change (S (S (S u))) with (2 + S u)%nat.
      eapply rs_5 with (d := d'); try eassumption.
      * repeat split; congruence.
      * auto.
      * rewrite Q9. exact Hc.
      * apply Forall_app; split; [assumption|]. constructor; [exact R4|constructor].
      * rewrite app_length. cbn. lia.
      * lia.
    + right. eapply (less_step n i _ _ _ _ _ _ _ _ _ _ Hi Hx Hxc Hk Hkc); try reflexivity; [apply SK|exact Hk'|exact Hkc|].
      simp. rewrite app_length. cbn [length]. cbn [Nat.add Nat.eqb andb Nat.ltb Nat.leb]. lia.
  - unused Hi I W.
  - unused Hi I W.
  - destruct V as (V1 & V2).
    destruct (srv_refuse e c (ss_id xc) (ss_conn xc) sl (nt_srv n) x [] Hab C Hx Hk f1 r d R1 V1)
      as (s' & f2 & m & Run & Hk' & SK & R2 & Hm & Q1 & Q2 & Qr).
    rewrite Run. split.
    + entered I Hi Hx Hxc; [exact SK|apply cli_kept_refl|auto|].
      unfold rtinv. simp. do 3 (split; [first [assumption|reflexivity]|]). exists x, xc, [f2], [f1]. rewrite <- Eg, <- Eb.
      split; [rewrite (sk_sess _ _ _ _ _ SK); exact Hx|]. do 3 (split; [assumption|]).
      eapply ro_2 with (d := d); [split; [rewrite Q1|]; assumption|unfold track in *; rewrite Qr; exact T|exact Hd|exact R2|exact Hm].
    + right. eapply (less_step n i _ _ _ _ _ _ _ _ _ _ Hi Hx Hxc Hk Hkc); try reflexivity; [apply SK|exact Hk'|exact Hkc|simp; cbn; lia].
  - unused Hi I W.
  - destruct V as (V1 & V2).
    destruct (srv_unauth e c (ss_id xc) (ss_conn xc) sl (nt_srv n) x [f2] Hab C Hx Hk f3 al imei sw d R3 V1 V2)
      as (s' & f4 & Run & Hk' & SK & R4 & Q1 & Q2 & Qr).
    rewrite Run. split.
    + entered I Hi Hx Hxc; [exact SK|apply cli_kept_refl|auto|].
      unfold rtinv. simp. do 3 (split; [first [assumption|reflexivity]|]). exists x, xc, [f2; f4], [f1; f3]. rewrite <- Eg, <- Eb.
      split; [rewrite (sk_sess _ _ _ _ _ SK); exact Hx|]. do 3 (split; [assumption|]).
      eapply ro_4; [split; assumption|unfold track in *; rewrite Qr; exact T|exact Hd|exact R4|left; reflexivity].
    + right. eapply (less_step n i _ _ _ _ _ _ _ _ _ _ Hi Hx Hxc Hk Hkc); try reflexivity; [apply SK|exact Hk'|exact Hkc|simp; cbn; lia].
  - unused Hi I W.
Qed.

Lemma rwell_client n G i t : rinv o B n G -> nt_terms n !! i = Some t ->
  let n' := act e ec other n i (NClient i) t in rwell n G i n' G /\ (idle n i unread_down \/ less n i n').
Proof using Ho.
  intros I Hi. destruct t as [c g0 sl slc a up down sv rn]. opened I Hi. unfold act. simp.
  pose proof (written_of _ _ _ _ Hx Hk) as W. cbn [cn_out] in W. rewrite W.
  remember (G i) as gi eqn:Eg. remember (B i) as b eqn:Eb. cases St; cbn [nth_error Nat.add].
  - unused Hi I W.
  - unused Hi I W.
  - unused Hi I W.
  - destruct (cli_auth o ec c slc (nt_cli n) xc [f1] Ho Hab Hxc Hkc f2 code R2 (code_len _ _ Hc) Hd)
      as (s' & f3 & al & imei & sw & Run & Hk' & Hd' & CK & R3).
    rewrite Run. split.
    + entered I Hi Hx Hxc; [apply srv_kept_refl; exact C|exact CK|auto|].
      unfold rtinv. simp. do 3 (split; [first [assumption|reflexivity]|]). exists x, xc, [f2], [f1; f3]. rewrite <- Eg, <- Eb.
      split; [exact Hx|]. split; [same_sess CK Hxc|]. do 2 (split; [assumption|]). eapply rs_3; eassumption.
    + right. eapply (less_step n i _ _ _ _ _ _ _ _ _ _ Hi Hx Hxc Hk Hkc); try reflexivity; [apply CK|exact Hk|exact Hk'|simp; cbn; lia].
  - unused Hi I W.
  - destruct R4 as (j & R4).
    destruct (cli_wake o ec c slc (nt_cli n) xc [f1; f3] Ho Hab Hxc Hkc f4 j R4 Hd) as (s' & dc & Run & Hk' & Hd' & P1 & P2 & P3 & CK).
    rewrite Run. split.
    + entered I Hi Hx Hxc; [apply srv_kept_refl; exact C|exact CK|auto|].
      unfold rtinv. simp. do 3 (split; [first [assumption|reflexivity]|]). exists x, xc, [f2; f4], [f1; f3]. rewrite <- Eg, <- Eb.
      split; [exact Hx|]. split; [same_sess CK Hxc|]. split; [assumption|]. split; [rewrite Hk'; assumption|].
      rewrite <- (app_nil_r ws). change (@nil devgeo) with (geos (number c) []).
      apply (rs_5 o c x xc (nt_srv n) s' f1 f2 f3 f4 d [] [] [] dc PSent 0 0); try assumption; try (constructor; fail); try lia; auto.
      cbn. rewrite app_nil_r. exact T.
    + right. eapply (less_step n i _ _ _ _ _ _ _ _ _ _ Hi Hx Hxc Hk Hkc); try reflexivity; [apply CK|exact Hk|rewrite Hk'; exact Hkc|simp; cbn; lia].
  - destruct (nth_error rs w) as [f|] eqn:En.
    2:{ split; [apply rwell_refl; exact I|left]. apply nth_error_None in En. intros t0 H0. rewrite Hi in H0. injection H0 as <-.
        unfold unread_down. simp. rewrite W. cbn [length]. lia. }
    pose proof (proj1 (nth_error_Some rs w) ltac:(rewrite En; discriminate)) as Hlt.
    assert (R4 : confirms o (genDevice c (ss_id xc) (ss_conn xc)) f).
    { apply nth_error_In in En. rewrite List.Forall_forall in Hrs. apply Hrs. exact En. }
    destruct R4 as (j & R4). pose proof (cli_still o ec c slc (nt_cli n) xc Ho Hxc f j dc R4 Hd Hst) as Run.
    rewrite Run. split.
    + entered I Hi Hx Hxc; [apply srv_kept_refl; exact C|apply cli_kept_refl|auto|].
      unfold rtinv. simp. do 3 (split; [first [assumption|reflexivity]|]). exists x, xc, (f2 :: f4 :: rs), (f1 :: f3 :: tr). rewrite <- Eg, <- Eb.
      do 4 (split; [assumption|]). change (S (S (S w))) with (2 + S w)%nat.
      eapply rs_5; try eassumption. lia.
    + right. eapply (less_step n i _ _ _ _ _ _ _ _ _ _ Hi Hx Hxc Hk Hkc); try reflexivity; [exact Hk|exact Hkc|].
      simp. cbn [length Nat.add Nat.eqb andb Nat.ltb Nat.leb]. lia.
  - unused Hi I W.
  - unused Hi I W.
  - unused Hi I W.
  - destruct (cli_auth' o ec c slc (nt_cli n) xc [f1] Ho Hab Hxc Hkc f2 m authCode R2 authCode_short Hd)
      as (s' & f3 & al & imei & sw & Run & Hk' & Hd' & CK & R3).
    rewrite Run. split.
    + entered I Hi Hx Hxc; [apply srv_kept_refl; exact C|exact CK|auto|].
      unfold rtinv. simp. do 3 (split; [first [assumption|reflexivity]|]). exists x, xc, [f2], [f1; f3]. rewrite <- Eg, <- Eb.
      split; [exact Hx|]. split; [same_sess CK Hxc|]. do 2 (split; [assumption|]). eapply ro_3; eassumption.
    + right. eapply (less_step n i _ _ _ _ _ _ _ _ _ _ Hi Hx Hxc Hk Hkc); try reflexivity; [apply CK|exact Hk|exact Hk'|simp; cbn; lia].
  - unused Hi I W.
  - destruct Hw as [-> | ->]; cbn [nth_error].
    2:{ unused Hi I W. }
    pose proof (cli_ignores o ec c slc (nt_cli n) xc Ho Hxc f4 _ R4) as Run.
    rewrite Run. split.
    + entered I Hi Hx Hxc; [apply srv_kept_refl; exact C|apply cli_kept_refl|auto|].
      unfold rtinv. simp. do 3 (split; [first [assumption|reflexivity]|]). exists x, xc, [f2; f4], [f1; f3]. rewrite <- Eg, <- Eb.
      do 4 (split; [assumption|]). eapply ro_4; try eassumption. right. reflexivity.
    + right. eapply (less_step n i _ _ _ _ _ _ _ _ _ _ Hi Hx Hxc Hk Hkc); try reflexivity; [exact Hk|exact Hkc|simp; cbn; lia].
Qed.
End Steps.
