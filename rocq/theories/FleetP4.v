(** A fleet of simulated terminals: every run *)
From Coq Require Import ZArith.
From stdpp Require Import gmap.
From Flocq Require Import IEEE754.Bits.
From Verif Require Import Base HexM TimeM HashM HeaderM ParamsM GeoM MsgM PacketM FrameM FloatM ProgM ProgP RingM SpecRing RingP
  StateM ProcM ServerM ClientM DatagenM NetM SpecState SpecCodec SpecSim SpecNet StateP HandshakeP CmdP DatagenP FleetP FleetP2 FleetP3.
Local Open Scope N_scope.

Section Runs.
Context (e ec : env) (other : binary64 -> N).
Hypothesis Ho : e_o ec = e_o e.
Let o := e_o e.
Local Notation step := (nstep e ec other).

Lemma inv_clocks n G a b : inv o n G -> inv o (mkNet (set_clock a (nt_srv n)) (set_clock b (nt_cli n)) (nt_terms n)) G.
Proof.
  intros (C & A & I). split; [apply consistent_clock; exact C|]. split; [exact A|].
  cbn [nt_srv nt_cli nt_terms]. intros i t Hi. destruct (I _ _ Hi) as (B1 & B2 & B3 & y & yc & os & oc & Y1 & Y2 & Y3 & Y4 & Y5).
  do 3 (split; [assumption|]). exists y, yc, os, oc. do 4 (split; [assumption|]).
  eapply stage_kept; [..|exact Y5]; try reflexivity. auto.
Qed.
Lemma clock_id s : set_clock (st_clock s) s = s.
Proof. destruct s. reflexivity. Qed.
Lemma well_clocks n G i a b : inv o n G ->
  well e n G i (mkNet (set_clock a (nt_srv n)) (set_clock b (nt_cli n)) (nt_terms n)) G.
Proof.
  intros I. split; [apply inv_clocks; exact I|]. split.
  { intros j t Ht. exists t. split; [exact Ht|]. split; [apply same_term_refl|auto]. }
  split; [reflexivity|]. split; [intros; split; reflexivity|]. split; [intros; split; reflexivity|]. intros; reflexivity.
Qed.
Lemma well_tick n G i t : inv o n G -> nt_terms n !! i = Some t -> punctual ec n (NTick i) ->
  act e ec other n i (NTick i) t = n.
Proof.
  intros (C & A & I) Hi P.
  assert (E : act e ec other n i (NTick i) t = if bool_decide (number (tm_conf t) ∈ st_jobs (nt_srv n))
    then mkNet (snd (run (checkKeepalive (number (tm_conf t))) (nt_srv n))) (nt_cli n) (nt_terms n) else n).
  { unfold act. rewrite simPhone_eq. destruct (tm_at t); reflexivity. }
  rewrite E. case_bool_decide as H; [|reflexivity]. apply (cs_jobs2 _ C) in H as (l & Hl).
  destruct (cs_phone _ C _ _ Hl) as (d & Hd & _).
  assert (Dv : devAt (nt_srv n) (number (tm_conf t)) = Some d) by (unfold devAt; rewrite Hl; exact Hd).
  rewrite (tick_fresh _ _ d C Dv (P t d Hi Dv)). destruct n. reflexivity.
Qed.

Definition index (ev : nevent) : nat :=
  match ev with
  | NBuild i | NRegister i | NServe i | NClient i | NCheck i | NBeat i | NReport i _ | NTick i => i | _ => 0%nat
  end.
Lemma well_event n G ev : inv o n G -> punctual ec n ev ->
  well e n G (index ev) (step n ev) (fun j => G j ++ generated ec other n j ev).
Proof using Ho.
  intros I P.
  assert (Q : forall n', (forall i r, ev <> NReport i r) -> well e n G (index ev) n' G ->
              well e n G (index ev) n' (fun j => G j ++ generated ec other n j ev)).
  { intros n' Hr (W1 & W). split; [|exact W]. apply (inv_ext e n' G); [|exact W1].
    intros j. rewrite no_report by exact Hr. apply app_nil_r. }
  destruct ev; cbn [index nstep] in *.
  8: { destruct (nt_terms n !! i) as [t|] eqn:Hi; (apply Q; [discriminate|]); [|apply well_refl; exact I].
       rewrite (well_tick n G i t I Hi P). apply well_refl; exact I. }
  7: { destruct (nt_terms n !! i) as [t|] eqn:Hi; [apply well_report; assumption|].
       split; [|destruct (well_refl e n G i I) as (_ & W); exact W]. apply (inv_ext e n G); [|exact I]. intros j. cbn beta.
       unfold generated. destruct (nt_terms n !! j) as [u|] eqn:Hj; [|apply app_nil_r].
       destruct (Nat.eqb_spec i j); [congruence|apply app_nil_r]. }
  7: { apply Q; [discriminate|]. pose proof (well_clocks n G 0 t (st_clock (nt_cli n)) I) as W. rewrite clock_id in W. exact W. }
  7: { apply Q; [discriminate|]. pose proof (well_clocks n G 0 (st_clock (nt_srv n)) t I) as W. rewrite clock_id in W. exact W. }
  all: apply Q; [discriminate|]; destruct (nt_terms n !! i) as [t|] eqn:Hi; [|apply well_refl; exact I].
  - apply well_build; assumption.
  - apply well_register; assumption.
  - apply well_serve; assumption.
  - apply well_client; assumption.
  - apply well_check; assumption.
  - apply well_beat; assumption.
Qed.

Lemma same_term_trans t u v : same_term t u -> same_term u v -> same_term t v.
Proof. unfold same_term. intuition congruence. Qed.
Lemma outside_step n n' q : (forall j t', nt_terms n' !! j = Some t' -> exists t, nt_terms n !! j = Some t /\ same_term t t') ->
  outside n q -> outside n' q.
Proof. intros H Hq j t' Ht. destruct (H _ _ Ht) as (t & E & (Ec & _)). rewrite Ec. apply (Hq j t E). Qed.
Lemma run_inv evs : forall n G, inv o n G -> all_punctual e ec other n evs ->
  inv o (nruns e ec other n evs) (fun j => G j ++ all_generated e ec other n j evs)
  /\ (forall j t, nt_terms n !! j = Some t -> exists t', nt_terms (nruns e ec other n evs) !! j = Some t' /\ same_term t t')
  /\ length (nt_terms (nruns e ec other n evs)) = length (nt_terms n)
  /\ (forall q, outside n q -> devAt (nt_srv (nruns e ec other n evs)) q = devAt (nt_srv n) q
        /\ ringOf (nt_srv (nruns e ec other n evs)) q = ringOf (nt_srv n) q).
Proof using Ho.
  induction evs as [|ev evs IH]; intros n G I P.
  - cbn. split; [apply (inv_ext e n G); [intros j; apply app_nil_r|exact I]|]. split; [|auto].
    intros j t Ht. exists t. split; [exact Ht|apply same_term_refl].
  - destruct P as (P & Ps). destruct (well_event n G ev I P) as (I1 & S1 & L1 & O1 & _).
    destruct (IH _ _ I1 Ps) as (I2 & S2 & L2 & O2). cbn [nruns fold_left all_generated] in *. fold (nruns e ec other (nstep e ec other n ev) evs) in *.
    split; [apply (inv_ext e _ _ _ (fun j => app_assoc _ _ _) I2)|]. split; [|split].
    + intros j t Ht. destruct (S1 _ _ Ht) as (t1 & Ht1 & Hs1 & _). destruct (S2 _ _ Ht1) as (t2 & Ht2 & Hs2).
      exists t2. split; [exact Ht2|]. eapply same_term_trans; eassumption.
    + rewrite L2. exact L1.
    + intros q Hq. destruct (O1 q) as (E1 & E1'); [intros t Ht; apply (Hq _ _ Ht)|].
      destruct (O2 q) as (E2 & E2'); [|rewrite E2, E2', E1, E1'; auto].
      apply (outside_step n); [|exact Hq]. intros j t' Ht'.
      destruct (nt_terms n !! j) as [t|] eqn:Ht.
      * destruct (S1 _ _ Ht) as (t1 & Ht1 & Hs1 & _). rewrite Ht' in Ht1. injection Ht1 as <-. eauto.
      * exfalso. apply lookup_ge_None in Ht. apply lookup_lt_Some in Ht'. lia.
Qed.
Lemma dialled_inv n : dialled o n -> inv o n (fun _ => []).
Proof.
  intros (C & A & I). split; [exact C|]. split; [exact A|]. intros i t Hi.
  destruct (I _ _ Hi) as (B1 & B2 & B3 & B4 & B5 & B6 & (x & X1 & X2) & (xc & Y1 & Y2) & D1 & D2 & T).
  do 3 (split; [assumption|]). exists x, xc, [], []. do 4 (split; [assumption|]). rewrite B2, B3, B4. apply st_idle; [split; assumption|exact T].
Qed.

(** what the invariant says *)
Lemma prefix_firstn {A} (a b : list A) : exists k, a = firstn k (a ++ b).
Proof. exists (length a). rewrite firstn_app, firstn_all, Nat.sub_diag. cbn. rewrite app_nil_r. reflexivity. Qed.
Lemma inv_says n G i t : inv o n G -> nt_terms n !! i = Some t ->
  tm_served t = true /\ tm_runs t = true /\ tm_at t <> PDead
  /\ (exists k, track (nt_srv n) (number (tm_conf t)) (firstn k (G i)))
  /\ (tm_at t = POnline -> online n t)
  /\ (tm_at t = PSent \/ tm_at t = POnline -> settled n t -> online n t /\ track (nt_srv n) (number (tm_conf t)) (G i))
  /\ (tm_at t = PIdle \/ tm_at t = PBuilt -> devAt (nt_srv n) (number (tm_conf t)) = None).
Proof.
  intros (C & A & I) Hi. destruct (I _ _ Hi) as (B1 & B2 & B3 & x & xc & os & oc & X1 & X2 & X3 & X4 & St).
  split; [exact B2|]. split; [exact B3|]. unfold settled. rewrite (written_of _ _ _ _ X1 X3), (written_of _ _ _ _ X2 X4). cbn [cn_out].
  destruct t as [c g0 sl slc a up down sv rn]. cbn [tm_conf tm_geo tm_srv tm_cli tm_at tm_up tm_down tm_served tm_runs] in *.
  remember (G i) as gi eqn:Eg. clear Eg.
  destruct St as [U T|U T Hd|f1 r U T Hd R1 Hr1 Hr2|f1 f2 d code O T Hd R2 Hc|
    f1 f2 f3 d code al imei sw O T Hd R3 Hc|f1 f2 f3 f4 d O T Hd S4 Hc R4|
    f1 f2 f3 f4 d its tr rs dc a u w O S4 Hc Hd Hp Hv Hst Ha Ht Hrs Hu Hut Hwu T];
    try (split; [discriminate|]; split; [exists 0%nat; exact T|]; split; [discriminate|];
         split; [intros _ (E1 & E2); cbn in E1, E2; discriminate|]; intros [E|E]; discriminate E).
  1,2: (split; [discriminate|]; split; [exists 0%nat; exact T|]; split; [discriminate|];
         split; [intros [E|E]; discriminate E|]; intros _; apply U).
  assert (On : online n (mkTerm c g0 sl slc a (2 + u) (2 + w) sv rn)).
  { destruct O as (O1 & O2 & O3 & O4 & O5 & O6 & O7). split; [exists dc; split; assumption|].
    exists x, d. cbn [tm_conf tm_srv]. do 9 (split; [assumption|]). rewrite O3, O4, O5. exact Hc. }
  pose proof (Forall2_length _ _ _ Ht) as HL.
  split; [destruct Ha as [(-> & _)| ->]; discriminate|]. split.
  { destruct (prefix_firstn (geos (number c) (firstn u its)) (geos (number c) (skipn u its))) as (k & Ek). exists k.
    rewrite <- geos_app, firstn_skipn in Ek. rewrite <- Ek. exact T. }
  split; [intros _; exact On|]. split; [|intros [E|E]; exfalso; destruct Ha as [(Ha & _)|Ha]; rewrite E in Ha; discriminate Ha].
  intros _ (E1 & E2). split; [exact On|]. cbn in E1, E2. rewrite firstn_all2 in T by lia. exact T.
Qed.

Lemma fleet n evs : dialled o n -> all_punctual e ec other n evs ->
  let n' := nruns e ec other n evs in
  (forall i t, nt_terms n !! i = Some t -> exists t', nt_terms n' !! i = Some t'
     /\ tm_conf t' = tm_conf t /\ tm_srv t' = tm_srv t /\ tm_cli t' = tm_cli t
     /\ tm_served t' = true /\ tm_runs t' = true /\ tm_at t' <> PDead
     /\ (exists k, track (nt_srv n') (number (tm_conf t)) (firstn k (all_generated e ec other n i evs)))
     /\ (tm_at t' = POnline -> online n' t')
     /\ (tm_at t' = PSent \/ tm_at t' = POnline -> settled n' t' ->
         online n' t' /\ track (nt_srv n') (number (tm_conf t)) (all_generated e ec other n i evs)))
  /\ (forall q, outside n q -> devAt (nt_srv n') q = devAt (nt_srv n) q /\ ringOf (nt_srv n') q = ringOf (nt_srv n) q).
Proof using Ho.
  intros Hd P n'. destruct (run_inv evs n _ (dialled_inv n Hd) P) as (I & S & _ & O). split; [|exact O].
  intros i t Hi. destruct (S _ _ Hi) as (t' & Ht' & (E1 & E2 & E3 & E4)). exists t'. split; [exact Ht'|].
  do 3 (split; [assumption|]). destruct (inv_says _ _ i t' I Ht') as (Q1 & Q2 & Q3 & Q4 & Q5 & Q6 & _). cbn [app] in *.
  rewrite E1 in *. do 4 (split; [assumption|]). split; [exact Q5|exact Q6].
Qed.

(** * Nobody can keep a terminal from coming online *)
Lemma nruns_app n a b : nruns e ec other n (a ++ b) = nruns e ec other (nruns e ec other n a) b.
Proof. apply fold_left_app. Qed.
Lemma settle m : forall n G i t, inv o n G -> nt_terms n !! i = Some t -> (todo n t <= m)%nat ->
  exists evs, Forall (fun ev => ev = NServe i \/ ev = NClient i) evs
    /\ inv o (nruns e ec other n evs) G
    /\ exists t', nt_terms (nruns e ec other n evs) !! i = Some t' /\ tm_at t' = tm_at t /\ same_term t t' /\ settled (nruns e ec other n evs) t'.
Proof using Ho.
  induction m as [|m IH]; intros n G i t I Hi Hm.
  - exists []. split; [constructor|]. split; [exact I|]. exists t. split; [exact Hi|]. split; [reflexivity|]. split; [apply same_term_refl|].
    destruct I as (C & A & I). destruct (I _ _ Hi) as (B1 & B2 & B3 & x & xc & os & oc & X1 & X2 & X3 & X4 & St).
    unfold settled, todo in *. rewrite (written_of _ _ _ _ X1 X3), (written_of _ _ _ _ X2 X4) in *. cbn [cn_out nruns fold_left] in *.
    rewrite (written_of _ _ _ _ X1 X3), (written_of _ _ _ _ X2 X4). cbn [cn_out].
    inversion St; subst; cbn [length] in *; cbn in Hm; try lia.
  - assert (Go : forall ev, (ev = NServe i \/ ev = NClient i) ->
      well e n G i (step n ev) G -> less n i (step n ev) -> tm_at t = tm_at (default t (nt_terms (step n ev) !! i)) ->
      exists evs, Forall (fun ev => ev = NServe i \/ ev = NClient i) evs
        /\ inv o (nruns e ec other n evs) G
        /\ exists t', nt_terms (nruns e ec other n evs) !! i = Some t' /\ tm_at t' = tm_at t /\ same_term t t' /\ settled (nruns e ec other n evs) t').
    { intros ev Hev (I1 & S1 & _) L Hat. destruct (S1 _ _ Hi) as (t1 & Ht1 & Hs1 & _). destruct (L _ Hi) as (t1' & Ht1' & Hlt).
      rewrite Ht1 in Ht1'. injection Ht1' as <-. rewrite Ht1 in Hat. cbn in Hat.
      destruct (IH _ G i t1 I1 Ht1 ltac:(lia)) as (evs & F & I2 & t2 & Ht2 & Ha2 & Hs2 & Hq).
      exists (ev :: evs). split; [constructor; [exact Hev|exact F]|]. split; [exact I2|]. exists t2. split; [exact Ht2|].
      split; [congruence|]. split; [eapply same_term_trans; eassumption|exact Hq]. }
    pose proof (well_serve e ec other Ho n G i t I Hi) as (W1 & L1). pose proof (well_client e ec other Ho n G i t I Hi) as (W2 & L2).
    assert (E1 : step n (NServe i) = act e ec other n i (NServe i) t) by (cbn [nstep]; rewrite Hi; reflexivity).
    assert (E2 : step n (NClient i) = act e ec other n i (NClient i) t) by (cbn [nstep]; rewrite Hi; reflexivity).
    assert (Li : (i < length (nt_terms n))%nat) by (apply lookup_lt_Some in Hi; exact Hi).
    assert (At1 : tm_at t = tm_at (default t (nt_terms (step n (NServe i)) !! i))).
    { rewrite E1. unfold act. destruct (tm_served t); [|rewrite Hi; reflexivity]. destruct (nth_error _ _); [|rewrite Hi; reflexivity].
      destruct (run _ _) as [[[]| |] s']; cbn [nt_terms]; unfold set_term; rewrite list_lookup_insert by exact Li; reflexivity. }
    assert (At2 : tm_at t = tm_at (default t (nt_terms (step n (NClient i)) !! i))).
    { rewrite E2. unfold act. destruct (tm_runs t); [|rewrite Hi; reflexivity]. destruct (nth_error _ _); [|rewrite Hi; reflexivity].
      destruct (run _ _) as [[[]| |] s']; cbn [nt_terms]; unfold set_term; rewrite list_lookup_insert by exact Li; reflexivity. }
    rewrite <- E1 in W1, L1. rewrite <- E2 in W2, L2.
    destruct L1 as [L1|L1]; [|apply (Go (NServe i)); auto]. destruct L2 as [L2|L2]; [|apply (Go (NClient i)); auto].
    exists []. split; [constructor|]. split; [exact I|]. exists t. split; [exact Hi|]. split; [reflexivity|]. split; [apply same_term_refl|].
    specialize (L1 _ Hi). specialize (L2 _ Hi). unfold unread_up, unread_down in *. cbn [nruns fold_left].
    destruct I as (C & A & I). destruct (I _ _ Hi) as (B1 & B2 & B3 & x & xc & os & oc & X1 & X2 & X3 & X4 & St).
    unfold settled. rewrite (written_of _ _ _ _ X1 X3), (written_of _ _ _ _ X2 X4) in *. cbn [cn_out] in *.
    inversion St; subst; cbn [length] in *; try lia.
Qed.
Lemma own_step n G i t ev : inv o n G -> nt_terms n !! i = Some t -> (forall j r, ev <> NReport j r) -> punctual ec n ev ->
  inv o (step n ev) G.
Proof using Ho.
  intros I Hi Hr P. apply (inv_ext e _ (fun j => G j ++ generated ec other n j ev)); [|apply (well_event n G ev I P)].
  intros j. rewrite no_report by exact Hr. symmetry. apply app_nil_r.
Qed.
Lemma goes_at {B} n i t (p : sp B) a r s' : nt_terms n !! i = Some t -> run p (nt_cli n) = (Ok r, s') ->
  nt_terms (goes n i t p a) !! i = Some (set_at t (a r)).
Proof.
  intros Hi R. unfold goes. rewrite R. cbn [nt_terms]. unfold set_term. apply list_lookup_insert. apply lookup_lt_Some in Hi. exact Hi.
Qed.
Lemma finish n G i t : inv o n G -> nt_terms n !! i = Some t -> tm_at t = PSent \/ tm_at t = POnline ->
  exists evs, Forall (coming_online i) evs /\ inv o (nruns e ec other n evs) G
    /\ exists t', nt_terms (nruns e ec other n evs) !! i = Some t' /\ same_term t t' /\ tm_at t' = POnline /\ settled (nruns e ec other n evs) t'.
Proof using Ho.
  intros I Hi Ha. destruct (settle _ n G i t I Hi (le_n _)) as (evs & F & I1 & t1 & Ht1 & Ha1 & Hs1 & Hq1).
  assert (F' : Forall (coming_online i) evs).
  { eapply List.Forall_impl; [|exact F]. intros ev [-> | ->]; unfold coming_online; tauto. }
  destruct (inv_says _ _ i t1 I1 Ht1) as (_ & _ & _ & _ & _ & Q & _).
  destruct (Q ltac:(rewrite Ha1; exact Ha) Hq1) as (((dc & Hdc & Hst) & _) & _).
  destruct Ha as [Ha|Ha]; [|exists evs; split; [exact F'|]; split; [exact I1|]; exists t1; split; [exact Ht1|]; split; [exact Hs1|]; split; [congruence|exact Hq1]].
  set (n1 := nruns e ec other n evs) in *. exists (evs ++ [NCheck i]).
  rewrite nruns_app. fold n1. cbn [nruns fold_left].
  split; [apply List.Forall_app; split; [exact F'|constructor; [unfold coming_online; tauto|constructor]]|].
  assert (R : run (statusCheck (simPhone (tm_conf t1))) (nt_cli n1) = (Ok true, nt_cli n1)).
  { rewrite simPhone_eq, (run_status _ _ _ Hdc), Hst. reflexivity. }
  assert (E : step n1 (NCheck i) = mkNet (nt_srv n1) (nt_cli n1) (<[i := set_at t1 POnline]> (nt_terms n1))).
  { cbn [nstep]. rewrite Ht1. unfold act. rewrite Ha1, Ha. unfold goes. rewrite R. reflexivity. }
  split; [apply (own_step n1 G i t1); [exact I1|exact Ht1|discriminate|exact Logic.I]|].
  change (nstep e ec other n1 (NCheck i)) with (step n1 (NCheck i)). rewrite E. exists (set_at t1 POnline). cbn [nt_terms].
  split; [apply list_lookup_insert; apply lookup_lt_Some in Ht1; exact Ht1|]. split; [exact Hs1|]. split; [reflexivity|exact Hq1].
Qed.
Lemma start n G i t : inv o n G -> nt_terms n !! i = Some t ->
  exists evs, Forall (coming_online i) evs /\ inv o (nruns e ec other n evs) G
    /\ exists t', nt_terms (nruns e ec other n evs) !! i = Some t' /\ same_term t t' /\ tm_at t' = POnline /\ settled (nruns e ec other n evs) t'.
Proof using Ho.
  intros I Hi.
  (* build and register, as far as needed *)
  assert (B : exists evs, Forall (coming_online i) evs /\ inv o (nruns e ec other n evs) G
    /\ exists t', nt_terms (nruns e ec other n evs) !! i = Some t' /\ same_term t t' /\ (tm_at t' = PSent \/ tm_at t' = POnline)).
  { assert (K : forall n t, inv o n G -> nt_terms n !! i = Some t -> tm_at t = PBuilt ->
      inv o (step n (NRegister i)) G /\ nt_terms (step n (NRegister i)) !! i = Some (set_at t PSent)).
    { clear n t I Hi. intros n t I Hi Ha. split; [apply (own_step n G i t); [exact I|exact Hi|discriminate|exact Logic.I]|].
      pose proof I as (C & A & I'). destruct (I' _ _ Hi) as (B1 & B2 & B3 & x & xc & os & oc & X1 & X2 & X3 & X4 & St).
      assert (Hd : devAt (nt_cli n) (number (tm_conf t)) = Some (genDevice (tm_conf t) (ss_id xc) (ss_conn xc))).
      { inversion St; try congruence.
        match goal with H : _ = PSent /\ _ \/ _ |- _ => destruct H as [(? & _)|?]; congruence end. }
      destruct (cli_register o ec (tm_conf t) (tm_cli t) (nt_cli n) xc oc Ho B1 X2 X4 Hd) as (s' & f & r & R & _).
      rewrite <- simPhone_eq in R. cbn [nstep]. rewrite Hi. unfold act. rewrite Ha. exact (goes_at n i t _ (fun _ => PSent) _ _ Hi R). }
    destruct (inv_says _ _ i t I Hi) as (_ & _ & ND & _). destruct (tm_at t) eqn:Ha.
    - assert (X : inv o (step n (NBuild i)) G /\ nt_terms (step n (NBuild i)) !! i = Some (set_at t PBuilt)).
      { split; [apply (own_step n G i t); [exact I|exact Hi|discriminate|exact Logic.I]|].
        pose proof I as (C & A & I'). destruct (I' _ _ Hi) as (B1 & B2 & B3 & x & xc & os & oc & X1 & X2 & X3 & X4 & St).
        destruct (cli_build (tm_conf t) (tm_cli t) (nt_cli n) xc X2) as (l & s' & R & _).
        cbn [nstep]. rewrite Hi. unfold act. rewrite Ha. exact (goes_at n i t _ (fun _ => PBuilt) _ _ Hi R). }
      destruct X as (I1 & H1). destruct (K _ _ I1 H1 eq_refl) as (I2 & H2). exists [NBuild i; NRegister i].
      split; [repeat constructor; unfold coming_online; tauto|]. split; [exact I2|]. eexists. split; [exact H2|]. split; [repeat split|]. left. reflexivity.
    - destruct (K _ _ I Hi Ha) as (I2 & H2). exists [NRegister i].
      split; [repeat constructor; unfold coming_online; tauto|]. split; [exact I2|]. eexists. split; [exact H2|]. split; [repeat split|]. left. reflexivity.
    - exists []. split; [constructor|]. split; [exact I|]. exists t. split; [exact Hi|]. split; [apply same_term_refl|]. auto.
    - exists []. split; [constructor|]. split; [exact I|]. exists t. split; [exact Hi|]. split; [apply same_term_refl|]. auto.
    - contradiction. }
  destruct B as (evs & F & I1 & t1 & Ht1 & Hs1 & Ha1).
  destruct (finish _ G i t1 I1 Ht1 Ha1) as (evs2 & F2 & I2 & t2 & Ht2 & Hs2 & Ha2 & Hq). exists (evs ++ evs2).
  rewrite nruns_app. split; [apply List.Forall_app; split; assumption|]. split; [exact I2|]. exists t2. split; [exact Ht2|].
  split; [eapply same_term_trans; eassumption|]. split; assumption.
Qed.
Lemma fleet_live n evs : dialled o n -> all_punctual e ec other n evs ->
  let n' := nruns e ec other n evs in forall i t, nt_terms n' !! i = Some t ->
  exists evs', Forall (coming_online i) evs' /\ exists t', nt_terms (nruns e ec other n' evs') !! i = Some t'
    /\ tm_conf t' = tm_conf t /\ tm_at t' = POnline /\ settled (nruns e ec other n' evs') t' /\ online (nruns e ec other n' evs') t'
    /\ track (nt_srv (nruns e ec other n' evs')) (number (tm_conf t)) (all_generated e ec other n i evs).
Proof using Ho.
  intros Hd P n' i t Hi. destruct (run_inv evs n _ (dialled_inv n Hd) P) as (I & _ & _ & _).
  destruct (start _ _ i t I Hi) as (evs' & F & I' & t' & Ht' & (Ec & _) & Ha & Hq).
  exists evs'. split; [exact F|]. exists t'. split; [exact Ht'|]. split; [exact Ec|]. split; [exact Ha|]. split; [exact Hq|].
  destruct (inv_says _ _ i t' I' Ht') as (_ & _ & _ & _ & _ & Q & _). rewrite Ec in Q. exact (Q (or_intror Ha) Hq).
Qed.
End Runs.
