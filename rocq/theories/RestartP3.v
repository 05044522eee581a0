(** A restarted simulator: every run *)
From Coq Require Import ZArith.
From stdpp Require Import gmap.
From Flocq Require Import IEEE754.Bits.
From Verif Require Import Base HexM TimeM HashM HeaderM ParamsM GeoM MsgM PacketM FrameM FloatM ProgM ProgP RingM SpecRing RingP
  StateM ProcM ServerM ClientM DatagenM NetM SpecState SpecCodec SpecSim SpecNet RestartM SpecRestart StateP ServerP HandshakeP CmdP DatagenP
  FleetP FleetP2 FleetP3 FleetP4 RestartP RestartP2.
Local Open Scope N_scope.

Section Runs.
Context (e ec : env) (other : binary64 -> N).
Hypothesis Ho : e_o ec = e_o e.
Let o := e_o e.
Local Notation step := (nstep e ec other).

(** what the invariant says *)
Lemma rinv_says B n G i t : rinv o B n G -> nt_terms n !! i = Some t ->
  tm_served t = true /\ tm_runs t = true /\ tm_at t <> PDead
  /\ (absent (nt_srv n) (tm_conf t) \/ leftover (nt_srv n) (tm_conf t))
  /\ (B i = false -> (exists ws its k, G i = ws ++ geos (number (tm_conf t)) its
                       /\ track (nt_srv n) (number (tm_conf t)) (ws ++ firstn k (geos (number (tm_conf t)) its)))
       /\ (tm_at t = POnline -> online n t)
       /\ (tm_at t = PSent \/ tm_at t = POnline -> settled n t -> online n t /\ track (nt_srv n) (number (tm_conf t)) (G i)))
  /\ (B i = true -> tm_at t <> POnline /\ track (nt_srv n) (number (tm_conf t)) (G i)
       /\ (tm_at t <> PIdle -> exists d, devAt (nt_cli n) (number (tm_conf t)) = Some d /\ d_status d = Offline)
       /\ (tm_at t = PSent -> settled n t -> absent (nt_srv n) (tm_conf t))).
Proof.
  intros (C & A & I) Hi. destruct (I _ _ Hi) as (B1 & B2 & B3 & x & xc & os & oc & X1 & X2 & X3 & X4 & St).
  split; [exact B2|]. split; [exact B3|]. unfold settled. rewrite (written_of _ _ _ _ X1 X3), (written_of _ _ _ _ X2 X4). cbn [cn_out].
  destruct t as [c g0 sl slc a up down sv rn]. cbn [tm_conf tm_geo tm_srv tm_cli tm_at tm_up tm_down tm_served tm_runs] in *.
  remember (G i) as gi eqn:Eg. clear Eg. remember (B i) as b eqn:Eb. clear Eb.
  assert (Of : d_status (genDevice c (ss_id xc) (ss_conn xc)) = Offline) by (unfold genDevice; repeat case_bool_decide; reflexivity).
  assert (Un : unknown c (nt_srv n) -> absent (nt_srv n) c) by (intros U; exact U).
  assert (Lf : forall d, owned c x (nt_srv n) d -> leftover (nt_srv n) c).
  { intros d (O1 & _ & _ & O4 & _). exists d. auto. }
  assert (Ls : forall d, stored c (nt_srv n) d -> leftover (nt_srv n) c) by (intros d V; exists d; exact V).
  destruct St as [ws U T|ws U T Hd|f1 r ws U T Hd R1 Hr1 Hr2|f1 f2 d code ws O T Hd R2 Hc|
    f1 f2 f3 d code al imei sw ws O T Hd R3 Hc|f1 f2 f3 f4 d ws O T Hd S4 Hc R4|
    f1 f2 f3 f4 d its tr rs dc a u w ws O S4 Hc Hd Hp Hv Hst Ha Ht Hrs Hu Hut Hwu T|
    d ws V T|d ws V T Hd|d f1 r ws V T Hd R1|d f1 f2 m ws V T Hd R2 Hm|d f1 f2 f3 al imei sw ws V T Hd R3|f1 f2 f3 f4 w ws U T Hd R4 Hw].
  1-6: (split; [discriminate|]; split; [eauto|]; split; [|discriminate]; intros _;
        split; [exists ws, [], 0%nat; split; [symmetry; apply app_nil_r|]; cbn; rewrite app_nil_r; exact T|];
        split; [discriminate|]; intros E (E1 & E2); cbn in E1, E2; destruct E as [E|E]; discriminate).
  2-7: (split; [discriminate|]; split; [eauto|]; split; [discriminate|]; intros _; split; [discriminate|]; split; [exact T|];
        split; [first [intros X; exfalso; apply X; reflexivity|intros _; eexists; split; [exact Hd|exact Of]]|]; intros E (E1 & E2); first [exact U|cbn in E1, E2; discriminate]).
  split; [destruct Ha as [(-> & _)| ->]; discriminate|]. split; [eauto|]. split; [|discriminate]. intros _.
  assert (On : online n (mkTerm c g0 sl slc a (2 + u) (2 + w) sv rn)).
  { destruct O as (O1 & O2 & O3 & O4 & O5 & O6 & O7). split; [exists dc; split; assumption|].
    exists x, d. cbn [tm_conf tm_srv]. do 9 (split; [assumption|]). rewrite O3, O4, O5. exact Hc. }
  pose proof (Forall2_length _ _ _ Ht) as HL.
  split.
  { destruct (prefix_firstn (geos (number c) (firstn u its)) (geos (number c) (skipn u its))) as (k & Ek). exists ws, its, k.
    split; [reflexivity|]. rewrite <- geos_app, firstn_skipn in Ek. rewrite <- Ek. exact T. }
  split; [intros _; exact On|].
  intros _ (E1 & E2). split; [exact On|]. cbn in E1, E2. rewrite (firstn_all2 its) in T by lia. exact T.
Qed.

Lemma rinv_clocks B n G a b : rinv o B n G -> rinv o B (mkNet (set_clock a (nt_srv n)) (set_clock b (nt_cli n)) (nt_terms n)) G.
Proof.
  intros (C & A & I). split; [apply consistent_clock; exact C|]. split; [exact A|].
  cbn [nt_srv nt_cli nt_terms]. intros i t Hi. destruct (I _ _ Hi) as (B1 & B2 & B3 & y & yc & os & oc & Y1 & Y2 & Y3 & Y4 & Y5).
  do 3 (split; [assumption|]). exists y, yc, os, oc. do 4 (split; [assumption|]).
  eapply rstage_kept; [..|exact Y5]; try reflexivity. auto.
Qed.
Lemma rwell_clocks B n G i a b : rinv o B n G ->
  rwell e B n G i (mkNet (set_clock a (nt_srv n)) (set_clock b (nt_cli n)) (nt_terms n)) G.
Proof.
  intros I. split; [apply rinv_clocks; exact I|]. split.
  { intros j t Ht. exists t. split; [exact Ht|]. split; [apply same_term_refl|auto]. }
  split; [reflexivity|]. intros; split; reflexivity.
Qed.
Lemma rwell_tick n i t : consistent (nt_srv n) -> nt_terms n !! i = Some t -> punctual ec n (NTick i) ->
  act e ec other n i (NTick i) t = n.
Proof.
  intros C Hi P.
  assert (E : act e ec other n i (NTick i) t = if bool_decide (number (tm_conf t) ∈ st_jobs (nt_srv n))
    then mkNet (snd (run (checkKeepalive (number (tm_conf t))) (nt_srv n))) (nt_cli n) (nt_terms n) else n).
  { unfold act. rewrite simPhone_eq. destruct (tm_at t); reflexivity. }
  rewrite E. case_bool_decide as H; [|reflexivity]. apply (cs_jobs2 _ C) in H as (l & Hl).
  destruct (cs_phone _ C _ _ Hl) as (d & Hd & _).
  assert (Dv : devAt (nt_srv n) (number (tm_conf t)) = Some d) by (unfold devAt; rewrite Hl; exact Hd).
  rewrite (tick_fresh _ _ d C Dv (P t d Hi Dv)). destruct n. reflexivity.
Qed.
Lemma rwell_event B n G ev : rinv o B n G -> punctual ec n ev ->
  rwell e B n G (index ev) (step n ev) (fun j => G j ++ generated ec other n j ev).
Proof using Ho.
  intros I P.
  assert (Q : forall n', (forall i r, ev <> NReport i r) -> rwell e B n G (index ev) n' G ->
              rwell e B n G (index ev) n' (fun j => G j ++ generated ec other n j ev)).
  { intros n' Hr (W1 & W). split; [|exact W]. apply (rinv_ext e B n' G); [|exact W1].
    intros j. rewrite no_report by exact Hr. apply app_nil_r. }
  destruct ev; cbn [index nstep] in *.
  8: { destruct (nt_terms n !! i) as [t|] eqn:Hi; (apply Q; [discriminate|]); [|apply rwell_refl; exact I].
       rewrite (rwell_tick n i t (proj1 I) Hi P). apply rwell_refl; exact I. }
  7: { destruct (nt_terms n !! i) as [t|] eqn:Hi; [apply rwell_report; assumption|].
       split; [|destruct (rwell_refl e B n G i I) as (_ & W); exact W]. apply (rinv_ext e B n G); [|exact I]. intros j. cbn beta.
       unfold generated. destruct (nt_terms n !! j) as [u|] eqn:Hj; [|apply app_nil_r].
       destruct (Nat.eqb_spec i j); [congruence|apply app_nil_r]. }
  7: { apply Q; [discriminate|]. pose proof (rwell_clocks B n G 0 t (st_clock (nt_cli n)) I) as W. rewrite clock_id in W. exact W. }
  7: { apply Q; [discriminate|]. pose proof (rwell_clocks B n G 0 (st_clock (nt_srv n)) t I) as W. rewrite clock_id in W. exact W. }
  all: apply Q; [discriminate|]; destruct (nt_terms n !! i) as [t|] eqn:Hi; [|apply rwell_refl; exact I].
  - apply rwell_build; assumption.
  - apply rwell_register; assumption.
  - apply rwell_serve; assumption.
  - apply rwell_client; assumption.
  - apply rwell_check; assumption.
  - apply rwell_beat; assumption.
Qed.
Lemma refused_silent B n G j ev : rinv o B n G -> B j = true -> generated ec other n j ev = [].
Proof.
  intros I Hb. unfold generated. destruct ev; try reflexivity. destruct (nt_terms n !! j) as [t|] eqn:Hj; [|reflexivity].
  destruct (rinv_says B n G j t I Hj) as (_ & _ & _ & _ & _ & H). destruct (H Hb) as (H1 & _).
  destruct (i =? j)%nat; [|reflexivity]. destruct (tm_at t); try reflexivity. contradiction.
Qed.
Lemma rrun_inv B evs : forall n G, rinv o B n G -> all_punctual e ec other n evs ->
  rinv o B (nruns e ec other n evs) (fun j => G j ++ all_generated e ec other n j evs)
  /\ (forall j t, nt_terms n !! j = Some t -> exists t', nt_terms (nruns e ec other n evs) !! j = Some t' /\ same_term t t')
  /\ length (nt_terms (nruns e ec other n evs)) = length (nt_terms n)
  /\ (forall q, outside n q -> devAt (nt_srv (nruns e ec other n evs)) q = devAt (nt_srv n) q
        /\ ringOf (nt_srv (nruns e ec other n evs)) q = ringOf (nt_srv n) q)
  /\ (forall j, B j = true -> all_generated e ec other n j evs = []).
Proof using Ho.
  induction evs as [|ev evs IH]; intros n G I P.
  - cbn. split; [apply (rinv_ext e B n G); [intros j; apply app_nil_r|exact I]|]. split; [|auto].
    intros j t Ht. exists t. split; [exact Ht|apply same_term_refl].
  - destruct P as (P & Ps). destruct (rwell_event B n G ev I P) as (I1 & S1 & L1 & O1).
    destruct (IH _ _ I1 Ps) as (I2 & S2 & L2 & O2 & N2). cbn [nruns fold_left all_generated] in *. fold (nruns e ec other (nstep e ec other n ev) evs) in *.
    split; [apply (rinv_ext e B _ _ _ (fun j => app_assoc _ _ _) I2)|]. split; [|split; [|split]].
    + intros j t Ht. destruct (S1 _ _ Ht) as (t1 & Ht1 & Hs1 & _). destruct (S2 _ _ Ht1) as (t2 & Ht2 & Hs2).
      exists t2. split; [exact Ht2|]. eapply same_term_trans; eassumption.
    + rewrite L2. exact L1.
    + intros q Hq. destruct (O1 q) as (E1 & E1'); [intros t Ht; apply (Hq _ _ Ht)|].
      destruct (O2 q) as (E2 & E2'); [|rewrite E2, E2', E1, E1'; auto].
      apply (outside_step n); [|exact Hq]. intros j t' Ht'.
      destruct (nt_terms n !! j) as [t|] eqn:Ht.
      * destruct (S1 _ _ Ht) as (t1 & Ht1 & Hs1 & _). rewrite Ht' in Ht1. injection Ht1 as <-. eauto.
      * exfalso. apply lookup_ge_None in Ht. apply lookup_lt_Some in Ht'. lia.
    + intros j Hb. rewrite (refused_silent B n G j ev I Hb), (N2 j Hb). reflexivity.
Qed.

(** which terminals are refused *)
Definition known (n : net) (i : nat) : bool :=
  match nt_terms n !! i with
  | Some t => match devAt (nt_srv n) (number (tm_conf t)) with Some _ => true | None => false end
  | None => false
  end.
Lemma some_track s ph : consistent s -> exists ws, track s ph ws.
Proof.
  intros C. unfold track, ringOf. destruct (st_geo s !! ph) as [l|] eqn:E; [|exists []; reflexivity].
  destruct (cs_geo _ C _ _ E) as (r & ws & Hr & Hw & _). rewrite Hr. eauto.
Qed.
Lemma all_tracks n : consistent (nt_srv n) ->
  exists G : nat -> list devgeo, forall i t, nt_terms n !! i = Some t -> track (nt_srv n) (number (tm_conf t)) (G i).
Proof.
  intros C. assert (H : forall l : list term, exists G : nat -> list devgeo, forall i t, l !! i = Some t -> track (nt_srv n) (number (tm_conf t)) (G i)).
  { induction l as [|t l (G & IH)]; [exists (fun _ => []); intros i t H; rewrite lookup_nil in H; discriminate H|].
    destruct (some_track (nt_srv n) (number (tm_conf t)) C) as (ws & Hw).
    exists (fun i => match i with O => ws | S j => G j end). intros [|i] u Hu; [injection Hu as <-; exact Hw|exact (IH i u Hu)]. }
  apply H.
Qed.
Lemma redialled_inv n G : redialled o n -> (forall i t, nt_terms n !! i = Some t -> track (nt_srv n) (number (tm_conf t)) (G i)) ->
  rinv o (known n) n G.
Proof.
  intros (C & A & I) HG. split; [exact C|]. split; [exact A|]. intros i t Hi. specialize (HG i t Hi).
  destruct (I _ _ Hi) as (B1 & B2 & B3 & B4 & B5 & B6 & (x & X1 & X2) & (xc & Y1 & Y2) & D).
  do 3 (split; [assumption|]). exists x, xc, [], []. do 4 (split; [assumption|]). rewrite B2, B3, B4. unfold known. rewrite Hi.
  destruct D as [(D1 & D2)|(d & D1 & D2)]; rewrite D1.
  - apply rs_idle; [split; assumption|exact HG].
  - apply (ro_idle _ _ _ _ _ _ d); [split; assumption|exact HG].
Qed.
Lemma tracks_with n i t ws : consistent (nt_srv n) -> nt_terms n !! i = Some t -> track (nt_srv n) (number (tm_conf t)) ws ->
  exists G : nat -> list devgeo, G i = ws /\ forall j u, nt_terms n !! j = Some u -> track (nt_srv n) (number (tm_conf u)) (G j).
Proof.
  intros C Hi Hw. destruct (all_tracks n C) as (G & HG). exists (fun j => if (j =? i)%nat then ws else G j).
  rewrite Nat.eqb_refl. split; [reflexivity|]. intros j u Hu. destruct (Nat.eqb_spec j i) as [->|_]; [|apply HG; exact Hu].
  rewrite Hi in Hu. injection Hu as <-. exact Hw.
Qed.

Lemma known_left n i t : nt_terms n !! i = Some t -> leftover (nt_srv n) (tm_conf t) -> known n i = true.
Proof. intros Hi (d & Hd & _). unfold known. rewrite Hi, Hd. reflexivity. Qed.
Lemma known_absent n i t : nt_terms n !! i = Some t -> absent (nt_srv n) (tm_conf t) -> known n i = false.
Proof. intros Hi (Hd & _). unfold known. rewrite Hi, Hd. reflexivity. Qed.

Lemma again n evs : redialled o n -> all_punctual e ec other n evs ->
  let n' := nruns e ec other n evs in
  (forall i t ws, nt_terms n !! i = Some t -> track (nt_srv n) (number (tm_conf t)) ws -> exists t', nt_terms n' !! i = Some t'
     /\ tm_conf t' = tm_conf t /\ tm_srv t' = tm_srv t /\ tm_cli t' = tm_cli t
     /\ tm_served t' = true /\ tm_runs t' = true /\ tm_at t' <> PDead
     /\ (absent (nt_srv n) (tm_conf t) ->
          (tm_at t' = POnline -> online n' t')
          /\ (tm_at t' = PSent \/ tm_at t' = POnline -> settled n' t' ->
              online n' t' /\ track (nt_srv n') (number (tm_conf t)) (ws ++ all_generated e ec other n i evs)))
     /\ (leftover (nt_srv n) (tm_conf t) ->
          tm_at t' <> POnline /\ all_generated e ec other n i evs = [] /\ track (nt_srv n') (number (tm_conf t)) ws
          /\ (tm_at t' <> PIdle -> exists d, devAt (nt_cli n') (number (tm_conf t)) = Some d /\ d_status d = Offline)
          /\ (tm_at t' = PSent -> settled n' t' -> absent (nt_srv n') (tm_conf t))))
  /\ (forall q, outside n q -> devAt (nt_srv n') q = devAt (nt_srv n) q /\ ringOf (nt_srv n') q = ringOf (nt_srv n) q).
Proof using Ho.
  intros Hd P n'. split.
  2:{ destruct (all_tracks n (proj1 Hd)) as (G & HG). apply (rrun_inv (known n) evs n G (redialled_inv n G Hd HG) P). }
  intros i t ws Hi Hw. destruct (tracks_with n i t ws (proj1 Hd) Hi Hw) as (G & Gi & HG).
  destruct (rrun_inv (known n) evs n G (redialled_inv n G Hd HG) P) as (I & S & _ & _ & N).
  destruct (S _ _ Hi) as (t' & Ht' & (E1 & E2 & E3 & E4)). exists t'. split; [exact Ht'|].
  do 3 (split; [assumption|]). destruct (rinv_says _ _ _ i t' I Ht') as (Q1 & Q2 & Q3 & _ & Q5 & Q6).
  rewrite E1 in *. rewrite Gi in *. do 3 (split; [assumption|]). split.
  - intros Ha. apply Q5. exact (known_absent n i t Hi Ha).
  - intros Hl. pose proof (known_left n i t Hi Hl) as Kn. destruct (Q6 Kn) as (R1 & R2 & R3 & R4).
    rewrite (N i Kn), app_nil_r in R2. auto.
Qed.

(** * By steps of its own *)
Lemma rsettle B m : forall n G i t, rinv o B n G -> nt_terms n !! i = Some t -> (todo n t <= m)%nat ->
  exists evs, Forall (fun ev => ev = NServe i \/ ev = NClient i) evs
    /\ rinv o B (nruns e ec other n evs) G
    /\ exists t', nt_terms (nruns e ec other n evs) !! i = Some t' /\ tm_at t' = tm_at t /\ same_term t t' /\ settled (nruns e ec other n evs) t'.
Proof using Ho.
  induction m as [|m IH]; intros n G i t I Hi Hm.
  - exists []. split; [constructor|]. split; [exact I|]. exists t. split; [exact Hi|]. split; [reflexivity|]. split; [apply same_term_refl|].
    destruct I as (C & A & I). destruct (I _ _ Hi) as (B1 & B2 & B3 & x & xc & os & oc & X1 & X2 & X3 & X4 & St).
    unfold settled, todo in *. rewrite (written_of _ _ _ _ X1 X3), (written_of _ _ _ _ X2 X4) in *. cbn [cn_out nruns fold_left] in *.
    rewrite (written_of _ _ _ _ X1 X3), (written_of _ _ _ _ X2 X4). cbn [cn_out].
    inversion St; subst; cbn [length] in *; cbn in Hm; try lia.
  - assert (Go : forall ev, (ev = NServe i \/ ev = NClient i) ->
      rwell e B n G i (step n ev) G -> less n i (step n ev) -> tm_at t = tm_at (default t (nt_terms (step n ev) !! i)) ->
      exists evs, Forall (fun ev => ev = NServe i \/ ev = NClient i) evs
        /\ rinv o B (nruns e ec other n evs) G
        /\ exists t', nt_terms (nruns e ec other n evs) !! i = Some t' /\ tm_at t' = tm_at t /\ same_term t t' /\ settled (nruns e ec other n evs) t').
    { intros ev Hev (I1 & S1 & _) L Hat. destruct (S1 _ _ Hi) as (t1 & Ht1 & Hs1 & _). destruct (L _ Hi) as (t1' & Ht1' & Hlt).
      rewrite Ht1 in Ht1'. injection Ht1' as <-. rewrite Ht1 in Hat. cbn in Hat.
      destruct (IH _ G i t1 I1 Ht1 ltac:(lia)) as (evs & F & I2 & t2 & Ht2 & Ha2 & Hs2 & Hq).
      exists (ev :: evs). split; [constructor; [exact Hev|exact F]|]. split; [exact I2|]. exists t2. split; [exact Ht2|].
      split; [congruence|]. split; [eapply same_term_trans; eassumption|exact Hq]. }
    pose proof (rwell_serve e ec other B Ho n G i t I Hi) as (W1 & L1). pose proof (rwell_client e ec other B Ho n G i t I Hi) as (W2 & L2).
    assert (E1 : step n (NServe i) = act e ec other n i (NServe i) t) by (cbn [nstep]; rewrite Hi; reflexivity).
    assert (E2 : step n (NClient i) = act e ec other n i (NClient i) t) by (cbn [nstep]; rewrite Hi; reflexivity).
    assert (Li : (i < length (nt_terms n))%nat) by (apply lookup_lt_Some in Hi; exact Hi).
    assert (At1 : tm_at t = tm_at (default t (nt_terms (step n (NServe i)) !! i))).
    { rewrite E1. unfold act. destruct (tm_served t); [|rewrite Hi; reflexivity]. destruct (nth_error _ _); [|rewrite Hi; reflexivity].
      destruct (run _ _) as [[[]| |] s']; cbn [nt_terms]; unfold set_term; rewrite list_lookup_insert by exact Li; reflexivity. }
    assert (At2 : tm_at t = tm_at (default t (nt_terms (step n (NClient i)) !! i))).
    { rewrite E2. unfold act. destruct (tm_runs t); [|rewrite Hi; reflexivity]. destruct (nth_error _ _); [|rewrite Hi; reflexivity].
      destruct (run _ _) as [[[]| |] s']; cbn [nt_terms]; unfold set_term; rewrite list_lookup_insert by exact Li; reflexivity. }
    rewrite <- E1 in W1, L1. rewrite <- E2 in W2, L2.
    destruct L1 as [L1|L1]; [|apply (Go (NServe i)); auto]. destruct L2 as [L2|L2]; [|apply (Go (NClient i)); auto].
    exists []. split; [constructor|]. split; [exact I|]. exists t. split; [exact Hi|]. split; [reflexivity|]. split; [apply same_term_refl|].
    specialize (L1 _ Hi). specialize (L2 _ Hi). unfold unread_up, unread_down in *. cbn [nruns fold_left].
    destruct I as (C & A & I). destruct (I _ _ Hi) as (B1 & B2 & B3 & x & xc & os & oc & X1 & X2 & X3 & X4 & St).
    unfold settled. rewrite (written_of _ _ _ _ X1 X3), (written_of _ _ _ _ X2 X4) in *. cbn [cn_out] in *.
    inversion St; subst; cbn [length] in *; try lia.
Qed.
Lemma rown_step B n G i t ev : rinv o B n G -> nt_terms n !! i = Some t -> (forall j r, ev <> NReport j r) -> punctual ec n ev ->
  rinv o B (step n ev) G.
Proof using Ho.
  intros I Hi Hr P. apply (rinv_ext e B _ (fun j => G j ++ generated ec other n j ev)); [|apply (rwell_event B n G ev I P)].
  intros j. rewrite no_report by exact Hr. symmetry. apply app_nil_r.
Qed.
(** build and register, as far as needed *)
Lemma rbegin B n G i t : rinv o B n G -> nt_terms n !! i = Some t ->
  exists evs, Forall (coming_online i) evs /\ rinv o B (nruns e ec other n evs) G
    /\ exists t', nt_terms (nruns e ec other n evs) !! i = Some t' /\ same_term t t' /\ (tm_at t' = PSent \/ tm_at t' = POnline).
Proof using Ho.
  intros I Hi. assert (K : forall n t, rinv o B n G -> nt_terms n !! i = Some t -> tm_at t = PBuilt ->
      rinv o B (step n (NRegister i)) G /\ nt_terms (step n (NRegister i)) !! i = Some (set_at t PSent)).
  { clear n t I Hi. intros n t I Hi Ha. split; [apply (rown_step B n G i t); [exact I|exact Hi|discriminate|exact Logic.I]|].
    pose proof I as (C & A & I'). destruct (I' _ _ Hi) as (B1 & B2 & B3 & x & xc & os & oc & X1 & X2 & X3 & X4 & St).
    assert (Hd : devAt (nt_cli n) (number (tm_conf t)) = Some (genDevice (tm_conf t) (ss_id xc) (ss_conn xc))).
    { inversion St; try congruence.
      match goal with H : _ = PSent /\ _ \/ _ |- _ => destruct H as [(? & _)|?]; congruence end. }
    destruct (cli_register o ec (tm_conf t) (tm_cli t) (nt_cli n) xc oc Ho B1 X2 X4 Hd) as (s' & f & r & R & _).
    rewrite <- simPhone_eq in R. cbn [nstep]. rewrite Hi. unfold act. rewrite Ha. exact (goes_at n i t _ (fun _ => PSent) _ _ Hi R). }
  destruct (rinv_says _ _ _ i t I Hi) as (_ & _ & ND & _). destruct (tm_at t) eqn:Ha.
  - assert (X : rinv o B (step n (NBuild i)) G /\ nt_terms (step n (NBuild i)) !! i = Some (set_at t PBuilt)).
    { split; [apply (rown_step B n G i t); [exact I|exact Hi|discriminate|exact Logic.I]|].
      pose proof I as (C & A & I'). destruct (I' _ _ Hi) as (B1 & B2 & B3 & x & xc & os & oc & X1 & X2 & X3 & X4 & St).
      destruct (cli_build (tm_conf t) (tm_cli t) (nt_cli n) xc X2) as (l & s' & R & _).
      cbn [nstep]. rewrite Hi. unfold act. rewrite Ha. exact (goes_at n i t _ (fun _ => PBuilt) _ _ Hi R). }
    destruct X as (I1 & H1). destruct (K _ _ I1 H1 eq_refl) as (I2 & H2). exists [NBuild i; NRegister i].
    split; [repeat constructor; unfold coming_online; tauto|]. split; [exact I2|]. eexists. split; [exact H2|]. split; [repeat split|]. left. reflexivity.
  - destruct (K _ _ I Hi Ha) as (I2 & H2). exists [NRegister i].
    split; [repeat constructor; unfold coming_online; tauto|]. split; [exact I2|]. eexists. split; [exact H2|]. split; [repeat split|]. left. reflexivity.
  - exists []. split; [constructor|]. split; [exact I|]. exists t. split; [exact Hi|]. split; [apply same_term_refl|]. auto.
  - exists []. split; [constructor|]. split; [exact I|]. exists t. split; [exact Hi|]. split; [apply same_term_refl|]. auto.
  - contradiction.
Qed.
Lemma rfinish B n G i t : rinv o B n G -> nt_terms n !! i = Some t ->
  exists evs, Forall (coming_online i) evs /\ rinv o B (nruns e ec other n evs) G
    /\ exists t', nt_terms (nruns e ec other n evs) !! i = Some t' /\ same_term t t' /\ settled (nruns e ec other n evs) t'
       /\ tm_at t' = if B i then PSent else POnline.
Proof using Ho.
  intros I0 Hi0. destruct (rbegin B n G i t I0 Hi0) as (ev0 & F0 & I & t0 & Hi & Hs0 & Ha).
  destruct (rsettle B _ _ G i t0 I Hi (le_n _)) as (evs & F & I1 & t1 & Ht1 & Ha1 & Hs1 & Hq1).
  assert (F' : Forall (coming_online i) evs).
  { eapply List.Forall_impl; [|exact F]. intros ev [-> | ->]; unfold coming_online; tauto. }
  rewrite <- nruns_app in *. assert (F1 : Forall (coming_online i) (ev0 ++ evs)) by (apply List.Forall_app; split; assumption).
  assert (Hs : same_term t t1) by (eapply same_term_trans; eassumption). rewrite <- Ha1 in Ha. clear Hs0 Hs1 Ha1 F0 F F' I Hi t0.
  set (n1 := nruns e ec other n (ev0 ++ evs)) in *.
  destruct (rinv_says _ _ _ i t1 I1 Ht1) as (_ & _ & _ & _ & Q5 & Q6). destruct (B i) eqn:Eb.
  - destruct (Q6 eq_refl) as (Q & _). exists (ev0 ++ evs). split; [exact F1|]. split; [exact I1|]. exists t1. split; [exact Ht1|].
    split; [exact Hs|]. split; [exact Hq1|]. destruct Ha as [Ha|Ha]; [exact Ha|contradiction].
  - destruct (Q5 eq_refl) as (_ & _ & Q). destruct (Q Ha Hq1) as (((dc & Hdc & Hst) & _) & _). clear Q Q5 Q6.
    destruct Ha as [Ha|Ha]; [|exists (ev0 ++ evs); split; [exact F1|]; split; [exact I1|]; exists t1; split; [exact Ht1|]; auto].
    exists ((ev0 ++ evs) ++ [NCheck i]). rewrite nruns_app. fold n1. cbn [nruns fold_left].
    split; [apply List.Forall_app; split; [exact F1|constructor; [unfold coming_online; tauto|constructor]]|].
    assert (R : run (statusCheck (simPhone (tm_conf t1))) (nt_cli n1) = (Ok true, nt_cli n1)).
    { rewrite simPhone_eq, (run_status _ _ _ Hdc), Hst. reflexivity. }
    assert (E : step n1 (NCheck i) = mkNet (nt_srv n1) (nt_cli n1) (<[i := set_at t1 POnline]> (nt_terms n1))).
    { cbn [nstep]. rewrite Ht1. unfold act. rewrite Ha. unfold goes. rewrite R. reflexivity. }
    split; [apply (rown_step B n1 G i t1); [exact I1|exact Ht1|discriminate|exact Logic.I]|].
    change (nstep e ec other n1 (NCheck i)) with (step n1 (NCheck i)). rewrite E. exists (set_at t1 POnline). cbn [nt_terms].
    split; [apply list_lookup_insert; apply lookup_lt_Some in Ht1; exact Ht1|]. split; [exact Hs|]. split; [exact Hq1|reflexivity].
Qed.
Lemma again_live n evs : redialled o n -> all_punctual e ec other n evs ->
  let n' := nruns e ec other n evs in forall i t t0, nt_terms n' !! i = Some t -> nt_terms n !! i = Some t0 ->
  exists evs', Forall (coming_online i) evs' /\ let n2 := nruns e ec other n' evs' in exists t', nt_terms n2 !! i = Some t'
    /\ tm_conf t' = tm_conf t /\ settled n2 t'
    /\ (absent (nt_srv n) (tm_conf t0) -> tm_at t' = POnline /\ online n2 t'
        /\ forall ws, track (nt_srv n) (number (tm_conf t)) ws ->
           track (nt_srv n2) (number (tm_conf t)) (ws ++ all_generated e ec other n i evs))
    /\ (leftover (nt_srv n) (tm_conf t0) -> tm_at t' = PSent /\ absent (nt_srv n2) (tm_conf t)).
Proof using Ho.
  intros Hd P n' i t t0 Hi H0.
  assert (Eq : same_term t0 t).
  { destruct (all_tracks n (proj1 Hd)) as (G & HG). destruct (rrun_inv (known n) evs n G (redialled_inv n G Hd HG) P) as (_ & S & _).
    destruct (S _ _ H0) as (t1 & H1 & H2). unfold n' in Hi. rewrite Hi in H1. injection H1 as <-. exact H2. }
  destruct Eq as (Ec & _).
  destruct (some_track (nt_srv n) (number (tm_conf t0)) (proj1 Hd)) as (ws0 & Hw0).
  (* one choice of steps, whatever the track *)
  assert (K : exists evs', Forall (coming_online i) evs' /\ forall G, (forall j u, nt_terms n !! j = Some u -> track (nt_srv n) (number (tm_conf u)) (G j)) ->
    rinv o (known n) (nruns e ec other n' evs') (fun j => G j ++ all_generated e ec other n j evs)
    /\ exists t', nt_terms (nruns e ec other n' evs') !! i = Some t' /\ same_term t t' /\ settled (nruns e ec other n' evs') t'
       /\ tm_at t' = if known n i then PSent else POnline).
  { destruct (tracks_with n i t0 ws0 (proj1 Hd) H0 Hw0) as (G0 & _ & HG0).
    destruct (rrun_inv (known n) evs n G0 (redialled_inv n G0 Hd HG0) P) as (I0 & _). fold n' in I0.
    destruct (rfinish (known n) n' _ i t I0 Hi) as (evs' & F & _ & t' & Ht' & Hs & Hq & Ha).
    exists evs'. split; [exact F|]. intros G HG. split; [|exists t'; auto].
    assert (P' : forall m l, Forall (coming_online i) l -> all_punctual e ec other m l).
    { intros m l. revert m. induction l as [|v l IHl]; intros m Fl; [exact Logic.I|]. apply Forall_cons_iff in Fl as (F1 & F2).
      split; [|apply IHl; exact F2]. destruct F1 as [->|[->|[->|[->| ->]]]]; exact Logic.I. }
    destruct (rrun_inv (known n) evs n G (redialled_inv n G Hd HG) P) as (I1 & _). fold n' in I1.
    destruct (rrun_inv (known n) evs' n' _ I1 (P' _ _ F)) as (I2 & _).
    apply (rinv_ext e (known n) _ _ _ (fun j => eq_sym (app_nil_r _))).
    eapply rinv_ext; [|exact I2]. intros j. cbn beta. f_equal.
    assert (Z : forall m l, Forall (coming_online i) l -> all_generated e ec other m j l = []).
    { intros m l. revert m. induction l as [|v l IHl]; intros m Fl; [reflexivity|]. apply Forall_cons_iff in Fl as (F1 & F2).
      cbn [all_generated]. rewrite (IHl _ F2). destruct F1 as [->|[->|[->|[->| ->]]]]; reflexivity. }
    rewrite (Z _ _ F). reflexivity. }
  destruct K as (evs' & F & K). exists evs'. split; [exact F|]. cbn zeta.
  destruct (tracks_with n i t0 ws0 (proj1 Hd) H0 Hw0) as (G0 & G0i & HG0). destruct (K G0 HG0) as (I0 & t' & Ht' & Hs & Hq & Ha).
  exists t'. split; [exact Ht'|]. split; [apply Hs|]. split; [exact Hq|].
  assert (Ec' : tm_conf t' = tm_conf t) by apply Hs.
  destruct (rinv_says _ _ _ i t' I0 Ht') as (_ & _ & _ & _ & Q5 & Q6). rewrite Ec' in *. split.
  - intros Hab. pose proof (known_absent n i t0 H0 Hab) as Kn. rewrite Kn in Ha. split; [exact Ha|].
    destruct (Q5 Kn) as (_ & Qo & _). split; [exact (Qo Ha)|]. intros ws Hw. rewrite Ec in Hw.
    destruct (tracks_with n i t0 ws (proj1 Hd) H0 Hw) as (G & Gi & HG). destruct (K G HG) as (I1 & t1 & Ht1 & _ & Hq1 & Ha1).
    rewrite Ht' in Ht1. injection Ht1 as <-. destruct (rinv_says _ _ _ i t' I1 Ht') as (_ & _ & _ & _ & R5 & _).
    destruct (R5 Kn) as (_ & _ & Rs). rewrite Kn in Ha1. rewrite Ec', Gi in Rs. apply (Rs (or_intror Ha1) Hq1).
  - intros Hl. pose proof (known_left n i t0 H0 Hl) as Kn. rewrite Kn in Ha. split; [exact Ha|].
    destruct (Q6 Kn) as (_ & _ & _ & Qa). exact (Qa Ha Hq).
Qed.
End Runs.
