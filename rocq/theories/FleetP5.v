(** A fleet of simulated terminals: runs that never end *)
From Coq Require Import ZArith.
From stdpp Require Import gmap.
From Flocq Require Import IEEE754.Bits.
From Verif Require Import Base HexM TimeM HashM HeaderM ParamsM GeoM MsgM PacketM FrameM FloatM ProgM ProgP RingM SpecRing RingP
  StateM ProcM ServerM ClientM DatagenM NetM SpecState SpecCodec SpecSim SpecNet StateP TimeP HandshakeP CmdP DatagenP FleetP FleetP2 FleetP3 FleetP4.
Local Open Scope N_scope.

Section Forever.
Context (e ec : env) (other : binary64 -> N).
Hypothesis Ho : e_o ec = e_o e.
Let o := e_o e.
Local Notation step := (nstep e ec other).

(** how far a terminal is from being online *)
Definition rank (t : term) : nat :=
  match tm_at t with
  | PIdle => 7 | PBuilt => 6 | PSent => 5 - Nat.min 2 (tm_up t) - Nat.min 2 (tm_down t) | POnline => 0 | PDead => 8
  end%nat.
(** what brings it nearer *)
Definition next (i k : nat) : nevent :=
  match k with
  | 7%nat => NBuild i | 6%nat => NRegister i | 5%nat => NServe i | 4%nat => NClient i | 3%nat => NServe i | 2%nat => NClient i
  | _ => NCheck i
  end.
Lemma next_coming i k : coming_online i (next i k).
Proof. unfold coming_online. do 8 (destruct k as [|k]; [cbn; tauto|]). cbn; tauto. Qed.
Lemma rank_online t : rank t = 0%nat <-> tm_at t = POnline.
Proof. unfold rank. destruct (tm_at t); split; try discriminate; try reflexivity. intros H. lia. Qed.

Lemma goes_mono {B} n i t (p : sp B) a : nt_terms n !! i = Some t ->
  exists t', nt_terms (goes n i t p a) !! i = Some t' /\ tm_up t' = tm_up t /\ tm_down t' = tm_down t
    /\ (tm_at t' = PDead \/ exists r, tm_at t' = a r).
Proof.
  intros Hi. assert (L : (i < length (nt_terms n))%nat) by (apply lookup_lt_Some in Hi; exact Hi).
  unfold goes. destruct (run p (nt_cli n)) as [[r|er|] s']; cbn [nt_terms]; unfold set_term; rewrite list_lookup_insert by exact L;
    eexists; (split; [reflexivity|]); cbn; eauto.
Qed.
Lemma act_mono n i t ev : nt_terms n !! i = Some t -> index ev = i ->
  exists t', nt_terms (act e ec other n i ev t) !! i = Some t' /\ (tm_up t <= tm_up t')%nat /\ (tm_down t <= tm_down t')%nat
    /\ (tm_at t' = tm_at t \/ tm_at t' = PDead \/ (tm_at t = PIdle /\ tm_at t' = PBuilt) \/ (tm_at t = PBuilt /\ tm_at t' = PSent)
        \/ (tm_at t = PSent /\ tm_at t' = POnline)).
Proof.
  intros Hi _. assert (L : (i < length (nt_terms n))%nat) by (apply lookup_lt_Some in Hi; exact Hi).
  assert (R : exists t', nt_terms n !! i = Some t' /\ (tm_up t <= tm_up t')%nat /\ (tm_down t <= tm_down t')%nat
    /\ (tm_at t' = tm_at t \/ tm_at t' = PDead \/ (tm_at t = PIdle /\ tm_at t' = PBuilt) \/ (tm_at t = PBuilt /\ tm_at t' = PSent)
        \/ (tm_at t = PSent /\ tm_at t' = POnline))) by (exists t; auto).
  assert (Gs : forall B (p : sp B) a, (forall r, a r = tm_at t \/ (tm_at t = PIdle /\ a r = PBuilt) \/ (tm_at t = PBuilt /\ a r = PSent)
        \/ (tm_at t = PSent /\ a r = POnline)) ->
    exists t', nt_terms (goes n i t p a) !! i = Some t' /\ (tm_up t <= tm_up t')%nat /\ (tm_down t <= tm_down t')%nat
    /\ (tm_at t' = tm_at t \/ tm_at t' = PDead \/ (tm_at t = PIdle /\ tm_at t' = PBuilt) \/ (tm_at t = PBuilt /\ tm_at t' = PSent)
        \/ (tm_at t = PSent /\ tm_at t' = POnline))).
  { intros B p a Ha. destruct (goes_mono n i t p a Hi) as (t' & H & U & D & [E|(r & E)]); exists t'; rewrite U, D; (split; [exact H|]); (split; [lia|]); (split; [lia|]).
    - auto.
    - specialize (Ha r). rewrite E. tauto. }
  unfold act. destruct ev; try exact R.
  1,2,5,6,7: (destruct (tm_at t) eqn:Ea; try exact R; rewrite <- Ea in *; apply Gs; intros rr; try destruct rr; rewrite ?Ea; tauto).
  - destruct (tm_served t); [|exact R]. destruct (nth_error _ _); [|exact R].
    destruct (run _ _) as [[[]| |] s']; cbn [nt_terms]; unfold set_term; rewrite list_lookup_insert by exact L;
      eexists; (split; [reflexivity|]); cbn; (split; [lia|]); auto.
  - destruct (tm_runs t); [|exact R]. destruct (nth_error _ _); [|exact R].
    destruct (run _ _) as [[[]| |] s']; cbn [nt_terms]; unfold set_term; rewrite list_lookup_insert by exact L;
      eexists; (split; [reflexivity|]); cbn; (split; [lia|]); auto.
  - case_bool_decide; exact R.
Qed.
Lemma step_mono n G i t ev : inv o n G -> punctual ec n ev -> nt_terms n !! i = Some t ->
  exists t', nt_terms (step n ev) !! i = Some t' /\ (rank t' <= rank t)%nat /\ (tm_up t <= tm_up t')%nat.
Proof using Ho.
  intros I P Hi. destruct (well_event e ec other Ho n G ev I P) as (I' & S & _).
  destruct (S _ _ Hi) as (t' & Ht' & _ & Hn). exists t'. split; [exact Ht'|].
  assert (ND : tm_at t' <> PDead) by (destruct (inv_says _ _ _ _ _ I' Ht') as (_ & _ & ND & _); exact ND).
  assert (K : forall ev', nt_terms (act e ec other n i ev' t) !! i = Some t' -> index ev' = i -> (rank t' <= rank t)%nat /\ (tm_up t <= tm_up t')%nat).
  { intros ev' H Hx. destruct (act_mono n i t ev' Hi Hx) as (t1 & H1 & U & D & A). rewrite H in H1. injection H1 as <-.
    split; [|exact U]. unfold rank. destruct A as [A|[A|[(A & A')|[(A & A')|(A & A')]]]]; [rewrite A; destruct (tm_at t); lia|contradiction|..]; rewrite A, A'; lia. }
  destruct (decide (index ev = i)) as [E|E]; [|rewrite (Hn ltac:(congruence)); lia].
  destruct ev; cbn [index nstep] in *; try (subst i0; rewrite Hi in Ht'; eapply K; [exact Ht'|reflexivity]).
  - cbn [nt_terms] in Ht'. rewrite Hi in Ht'. injection Ht' as <-. lia.
  - cbn [nt_terms] in Ht'. rewrite Hi in Ht'. injection Ht' as <-. lia.
Qed.
Lemma serve_reads n i t f : nt_terms n !! i = Some t -> tm_served t = true ->
  nth_error (written (nt_cli n) (tm_cli t)) (tm_up t) = Some f ->
  exists t', nt_terms (step n (NServe i)) !! i = Some t' /\ tm_up t' = S (tm_up t) /\ tm_down t' = tm_down t /\ tm_at t' = tm_at t.
Proof.
  intros Hi Hs Hf. assert (L : (i < length (nt_terms n))%nat) by (apply lookup_lt_Some in Hi; exact Hi).
  cbn [nstep]. rewrite Hi. unfold act. rewrite Hs, Hf.
  destruct (run _ _) as [[[]| |] s']; cbn [nt_terms]; unfold set_term; rewrite list_lookup_insert by exact L;
    eexists; (split; [reflexivity|]); cbn; auto.
Qed.
Lemma client_reads n i t f : nt_terms n !! i = Some t -> tm_runs t = true ->
  nth_error (written (nt_srv n) (tm_srv t)) (tm_down t) = Some f ->
  exists t', nt_terms (step n (NClient i)) !! i = Some t' /\ tm_up t' = tm_up t /\ tm_down t' = S (tm_down t) /\ tm_at t' = tm_at t.
Proof.
  intros Hi Hs Hf. assert (L : (i < length (nt_terms n))%nat) by (apply lookup_lt_Some in Hi; exact Hi).
  cbn [nstep]. rewrite Hi. unfold act. rewrite Hs, Hf.
  destruct (run _ _) as [[[]| |] s']; cbn [nt_terms]; unfold set_term; rewrite list_lookup_insert by exact L;
    eexists; (split; [reflexivity|]); cbn; auto.
Qed.
Lemma step_next n G i t : inv o n G -> nt_terms n !! i = Some t -> (0 < rank t)%nat ->
  exists t', nt_terms (step n (next i (rank t))) !! i = Some t' /\ (rank t' < rank t)%nat.
Proof using Ho.
  intros I Hi Hr. pose proof I as (C & A & I'). destruct (I' _ _ Hi) as (B1 & B2 & B3 & x & xc & os & oc & X1 & X2 & X3 & X4 & St).
  pose proof (written_of _ _ _ _ X2 X4) as Wc. pose proof (written_of _ _ _ _ X1 X3) as Ws. cbn [cn_out] in Wc, Ws.
  remember (tm_at t) as a eqn:Ea. remember (tm_up t) as u eqn:Eu. remember (tm_down t) as w eqn:Ew. remember (G i) as g eqn:Eg.
  assert (Rk : rank t = match a with PIdle => 7 | PBuilt => 6 | PSent => 5 - Nat.min 2 u - Nat.min 2 w | POnline => 0 | PDead => 8 end%nat)
    by (unfold rank; rewrite <- Ea, <- Eu, <- Ew; reflexivity).
  assert (Srv : forall f, nth_error oc u = Some f -> exists t', nt_terms (step n (NServe i)) !! i = Some t' /\ tm_up t' = S u /\ tm_down t' = w /\ tm_at t' = a).
  { intros f Hf. rewrite Eu, <- Wc in Hf. rewrite Eu, Ew, Ea. exact (serve_reads n i t f Hi B2 Hf). }
  assert (Cli : forall f, nth_error os w = Some f -> exists t', nt_terms (step n (NClient i)) !! i = Some t' /\ tm_up t' = u /\ tm_down t' = S w /\ tm_at t' = a).
  { intros f Hf. rewrite Ew, <- Ws in Hf. rewrite Eu, Ew, Ea. exact (client_reads n i t f Hi B3 Hf). }
  destruct St as [U T|U T Hd|f1 r U T Hd R1 Hr1 Hr2|f1 f2 d code O T Hd R2 Hc|
    f1 f2 f3 d code al imei sw O T Hd R3 Hc|f1 f2 f3 f4 d O T Hd S4 Hc R4|
    f1 f2 f3 f4 d its tr rs dc a u w O S4 Hc Hd Hp Hv Hst Ha Ht Hrs Hu Hut Hwu T]; cbn in Rk.
  - destruct (cli_build (tm_conf t) (tm_cli t) (nt_cli n) xc X2) as (l & s' & R & _). rewrite Rk. cbn [next nstep]. rewrite Hi. unfold act. rewrite <- Ea.
    eexists. split; [exact (goes_at n i t _ (fun _ => PBuilt) _ _ Hi R)|]. cbn. lia.
  - destruct (cli_register o ec (tm_conf t) (tm_cli t) (nt_cli n) xc [] Ho B1 X2 X4 Hd) as (s' & f & r & R & _).
    rewrite Rk. cbn [next nstep]. rewrite Hi. unfold act. rewrite <- Ea, simPhone_eq.
    eexists. split; [exact (goes_at n i t _ (fun _ => PSent) _ _ Hi R)|]. unfold rank, set_at. cbn [tm_at]. lia.
  - rewrite Rk. destruct (Srv f1 eq_refl) as (t' & Ht' & U' & D' & A'). exists t'. split; [exact Ht'|]. unfold rank. rewrite U', D', A'. cbn. lia.
  - rewrite Rk. destruct (Cli f2 eq_refl) as (t' & Ht' & U' & D' & A'). exists t'. split; [exact Ht'|]. unfold rank. rewrite U', D', A'. cbn. lia.
  - rewrite Rk. destruct (Srv f3 eq_refl) as (t' & Ht' & U' & D' & A'). exists t'. split; [exact Ht'|]. unfold rank. rewrite U', D', A'. cbn. lia.
  - rewrite Rk. destruct (Cli f4 eq_refl) as (t' & Ht' & U' & D' & A'). exists t'. split; [exact Ht'|]. unfold rank. rewrite U', D', A'. cbn. lia.
  - assert (Ea' : a = PSent) by (destruct Ha as [(Ha & _)|Ha]; [exact Ha|rewrite Ha in Rk; lia]). rewrite Ea' in Rk. cbn in Rk.
    rewrite Rk. cbn [next nstep]. rewrite Hi. unfold act. rewrite <- Ea, Ea', simPhone_eq.
    eexists. split; [refine (goes_at n i t _ (fun b : bool => if b then POnline else PSent) true _ Hi _); rewrite (run_status _ _ _ Hd), Hst; reflexivity|].
    cbn. lia.
Qed.

(** a run that never ends *)
Context (n0 : net) (ev : nat -> nevent).
Hypothesis Hd0 : dialled o n0.
Hypothesis Hp : forall m, all_punctual e ec other n0 (upto ev m).
Definition at_ (m : nat) : net := nruns e ec other n0 (upto ev m).
Lemma upto_S m : upto ev (S m) = upto ev m ++ [ev m].
Proof. unfold upto. rewrite seq_S, List.map_app. reflexivity. Qed.
Lemma at_S m : at_ (S m) = step (at_ m) (ev m).
Proof. unfold at_. rewrite upto_S, nruns_app. reflexivity. Qed.
Lemma all_punctual_app a : forall n b, all_punctual e ec other n (a ++ b) -> all_punctual e ec other (nruns e ec other n a) b.
Proof. induction a as [|x a IH]; intros n b H; [exact H|]. destruct H as (_ & H). exact (IH _ _ H). Qed.
Lemma punct m : punctual ec (at_ m) (ev m).
Proof using Hp. pose proof (Hp (S m)) as H. rewrite upto_S in H. apply all_punctual_app in H. apply H. Qed.
Lemma inv_at m : inv o (at_ m) (fun j => all_generated e ec other n0 j (upto ev m)).
Proof using Ho Hd0 Hp.
  destruct (run_inv e ec other Ho (upto ev m) n0 _ (dialled_inv e n0 Hd0) (Hp m)) as (I & _). exact I.
Qed.
Lemma later m k i t : nt_terms (at_ m) !! i = Some t -> (m <= k)%nat ->
  exists t', nt_terms (at_ k) !! i = Some t' /\ (rank t' <= rank t)%nat /\ (tm_up t <= tm_up t')%nat /\ same_term t t'
    /\ prefix (written (nt_cli (at_ m)) (tm_cli t)) (written (nt_cli (at_ k)) (tm_cli t)).
Proof using Ho Hd0 Hp.
  intros Hi Hk. induction Hk as [|k Hk IH].
  - exists t. split; [exact Hi|]. split; [lia|]. split; [lia|]. split; [apply same_term_refl|reflexivity].
  - destruct IH as (t1 & H1 & R1 & U1 & S1 & P1). destruct (step_mono _ _ i t1 (ev k) (inv_at k) (punct k) H1) as (t2 & H2 & R2 & U2).
    destruct (well_event e ec other Ho _ _ (ev k) (inv_at k) (punct k)) as (_ & W & _ & _ & _ & P2).
    destruct (W _ _ H1) as (t2' & H2' & S2 & _). rewrite H2 in H2'. injection H2' as <-. rewrite at_S.
    exists t2. split; [exact H2|]. split; [lia|]. split; [lia|]. split; [eapply same_term_trans; eassumption|].
    etransitivity; [exact P1|]. specialize (P2 _ _ H1). destruct S1 as (_ & _ & _ & S1). rewrite S1 in P2. exact P2.
Qed.

Context (i : nat).
Hypothesis Hf : fair_for i ev.
Lemma gets_online k : forall m t, nt_terms (at_ m) !! i = Some t -> (rank t <= k)%nat ->
  exists m' t', (m <= m')%nat /\ nt_terms (at_ m') !! i = Some t' /\ rank t' = 0%nat.
Proof using Ho Hd0 Hp Hf.
  induction k as [|k IH]; intros m t Hi Hr; [exists m, t; split; [lia|]; split; [exact Hi|lia]|].
  destruct (decide (rank t = 0%nat)) as [Z|Z]; [exists m, t; auto|].
  destruct (Hf (next i (rank t)) (next_coming _ _) m) as (m1 & Hm1 & E1).
  destruct (later m m1 i t Hi Hm1) as (t1 & H1 & R1 & _).
  destruct (decide (rank t1 = rank t)) as [E|E].
  - destruct (step_next _ _ i t1 (inv_at m1) H1 ltac:(lia)) as (t2 & H2 & R2). rewrite E, <- E1, <- at_S in H2.
    destruct (IH _ _ H2 ltac:(lia)) as (m' & t' & Hm' & H'). exists m', t'. split; [lia|exact H'].
  - destruct (IH _ _ H1 ltac:(lia)) as (m' & t' & Hm' & H'). exists m', t'. split; [lia|exact H'].
Qed.
Lemma gets_read L k : forall m t, nt_terms (at_ m) !! i = Some t -> (L <= length (written (nt_cli (at_ m)) (tm_cli t)))%nat ->
  (L - tm_up t <= k)%nat -> exists m' t', (m <= m')%nat /\ nt_terms (at_ m') !! i = Some t' /\ (L <= tm_up t')%nat.
Proof using Ho Hd0 Hp Hf.
  induction k as [|k IH]; intros m t Hi HL Hk; [exists m, t; split; [lia|]; split; [exact Hi|lia]|].
  destruct (Hf (NServe i) ltac:(unfold coming_online; tauto) m) as (m1 & Hm1 & E1).
  destruct (later m m1 i t Hi Hm1) as (t1 & H1 & _ & U1 & S1 & P1).
  destruct S1 as (S1 & S1' & S1'' & Sc). rewrite <- Sc in P1.
  assert (HL1 : (L <= length (written (nt_cli (at_ m1)) (tm_cli t1)))%nat) by (apply prefix_length in P1; rewrite <- Sc in HL; lia).
  destruct (decide (L <= tm_up t1)%nat) as [G|G]; [exists m1, t1; auto|].
  destruct (nth_error (written (nt_cli (at_ m1)) (tm_cli t1)) (tm_up t1)) as [f|] eqn:Ef; [|apply nth_error_None in Ef; lia].
  destruct (inv_says _ _ _ i t1 (inv_at m1) H1) as (Sv & _).
  destruct (serve_reads _ i t1 f H1 Sv Ef) as (t2 & H2 & U2 & _). rewrite <- E1, <- at_S in H2.
  destruct (later m1 (S m1) i t1 H1 ltac:(lia)) as (t2' & H2' & _ & _ & S2 & P2). rewrite H2 in H2'. injection H2' as <-.
  destruct S2 as (_ & _ & _ & S2). rewrite <- S2 in P2.
  destruct (IH (S m1) t2 H2) as (m' & t' & Hm' & H'); [apply prefix_length in P2; rewrite <- S2 in HL1; lia|lia|].
  exists m', t'. split; [lia|exact H'].
Qed.

Lemma simHeader_id id D : h_id (simHeader id D) = id.
Proof. unfold simHeader. destruct (version_eqb _ _); reflexivity. Qed.
Lemma tells_same D D' ph a b f : tells o D a f -> tells o D' b f -> geo ph a = geo ph b.
Proof.
  unfold tells, reads. destruct a as [[l now]|], b as [[l' now']|].
  - intros ((p & k & A1 & A2 & A3) & At & Av & Ay) ((p' & k' & B1 & B2 & B3) & Bt & Bv & By).
    rewrite A1 in B1. injection B1 as <-. specialize (A3 now). specialize (B3 now). cbn [kind_of] in A3, B3. rewrite A3 in B3. injection B3 as <-. rewrite At in Bt.
    assert (E : timeParse (FormatTime now) = timeParse (FormatTime now')) by (rewrite Bt; reflexivity).
    rewrite (timeParse_FormatTime now Av Ay), (timeParse_FormatTime now' Bv By) in E. injection E as <-. reflexivity.
  - intros ((p & k & A1 & A2 & A3) & _) (p' & k' & B1 & B2 & B3). rewrite A1 in B1. injection B1 as <-. exfalso.
    rewrite A2 in B2. apply (f_equal h_id) in B2. cbn in B2. rewrite !simHeader_id in B2. discriminate B2.
  - intros (p' & k' & B1 & B2 & B3) ((p & k & A1 & A2 & A3) & _). rewrite A1 in B1. injection B1 as <-. exfalso.
    rewrite A2 in B2. apply (f_equal h_id) in B2. cbn in B2. rewrite !simHeader_id in B2. discriminate B2.
  - reflexivity.
Qed.
Lemma tells_geos D D' ph tr : forall a b, Forall2 (tells o D) a tr -> Forall2 (tells o D') b tr -> geos ph a = geos ph b.
Proof.
  induction tr as [|f tr IH]; intros a b Ha Hb.
  - apply Forall2_nil_inv_r in Ha as ->. apply Forall2_nil_inv_r in Hb as ->. reflexivity.
  - apply Forall2_cons_inv_r in Ha as (a1 & a2 & A1 & A2 & ->). apply Forall2_cons_inv_r in Hb as (b1 & b2 & B1 & B2 & ->).
    cbn. rewrite (tells_same _ _ ph _ _ f A1 B1), (IH _ _ A2 B2). reflexivity.
Qed.

Lemma fair_online t : nt_terms n0 !! i = Some t ->
  exists m, forall m', (m <= m')%nat -> exists t', nt_terms (at_ m') !! i = Some t' /\ tm_conf t' = tm_conf t
    /\ tm_at t' = POnline /\ online (at_ m') t'.
Proof using Ho Hd0 Hp Hf.
  intros Hi. destruct (gets_online _ 0 t Hi (le_n _)) as (m & t1 & Hm & H1 & R1). exists m. intros m' Hm'.
  destruct (later m m' i t1 H1 Hm') as (t2 & H2 & R2 & _ & S2 & _). exists t2. split; [exact H2|].
  destruct (later 0 m' i t Hi ltac:(lia)) as (t2' & H2' & _ & _ & (S0 & _) & _). rewrite H2 in H2'. injection H2' as <-.
  split; [exact S0|]. assert (E : tm_at t2 = POnline) by (apply rank_online; lia). split; [exact E|].
  destruct (inv_says _ _ _ i t2 (inv_at m') H2) as (_ & _ & _ & _ & Q & _). exact (Q E).
Qed.
Lemma fair_reports t m : nt_terms n0 !! i = Some t ->
  exists m', (m <= m')%nat /\ forall k, (m' <= k)%nat -> exists ws, track (nt_srv (at_ k)) (number (tm_conf t)) ws
    /\ prefix (all_generated e ec other n0 i (upto ev m)) ws /\ prefix ws (all_generated e ec other n0 i (upto ev k)).
Proof using Ho Hd0 Hp Hf.
  intros Hi. destruct (later 0 m i t Hi ltac:(lia)) as (t1 & H1 & _ & _ & (Sc & _) & _).
  assert (Easy : all_generated e ec other n0 i (upto ev m) = [] -> exists m', (m <= m')%nat /\ forall k, (m' <= k)%nat -> exists ws, track (nt_srv (at_ k)) (number (tm_conf t)) ws
    /\ prefix (all_generated e ec other n0 i (upto ev m)) ws /\ prefix ws (all_generated e ec other n0 i (upto ev k))).
  { intros E. exists m. split; [lia|]. intros k Hk. destruct (later 0 k i t Hi ltac:(lia)) as (t2 & H2 & _ & _ & (S2 & _) & _).
    destruct (inv_says _ _ _ i t2 (inv_at k) H2) as (_ & _ & _ & (j & T) & _). rewrite S2 in T. eexists. split; [exact T|].
    rewrite E. split; [apply prefix_nil|]. eexists. symmetry. apply firstn_skipn. }
  pose proof (inv_at m) as (_ & _ & I). destruct (I _ _ H1) as (_ & _ & _ & x & xc & os & oc & _ & X2 & _ & X4 & St). cbn beta in St.
  pose proof (written_of _ _ _ _ X2 X4) as Wc. cbn [cn_out] in Wc.
  remember (all_generated e ec other n0 i (upto ev m)) as g eqn:Eg.
  destruct St as [| | | | | |f1 f2 f3 f4 d its tr rs dc a u w O S4 Hc Hd Hp' Hv Hst Ha Ht Hrs Hu Hut Hwu T]; try (exact (Easy eq_refl)).
  destruct (decide (its = [])) as [->|Hne]; [exact (Easy eq_refl)|]. clear Easy.
  pose proof (Forall2_length _ _ _ Ht) as HL.
  destruct (gets_read (2 + length tr) _ m t1 H1 ltac:(rewrite Wc; cbn; lia) (le_n _)) as (m' & t2 & Hm' & H2 & U2).
  exists m'. split; [exact Hm'|]. intros k Hk.
  destruct (later m' k i t2 H2 Hk) as (t3 & H3 & _ & U3 & _).
  destruct (later m k i t1 H1 ltac:(lia)) as (t3' & H3' & _ & _ & (S3 & _ & _ & S3c) & P3). rewrite H3 in H3'. injection H3' as <-.
  pose proof (inv_at k) as (_ & _ & Ik). destruct (Ik _ _ H3) as (_ & _ & _ & y & yc & os3 & oc3 & _ & Y2 & _ & Y4 & St3). cbn beta in St3.
  pose proof (written_of _ _ _ _ Y2 Y4) as Wc3. cbn [cn_out] in Wc3. rewrite S3c in Wc3. rewrite Wc, Wc3 in P3. destruct P3 as (more & P3).
  assert (Hlen : (0 < length tr)%nat) by (destruct its; [congruence|cbn in HL; lia]).
  remember (all_generated e ec other n0 i (upto ev k)) as g3 eqn:Eg3. remember (tm_up t3) as up3 eqn:Eup.
  destruct St3 as [| | | | | |f1' f2' f3' f4' d' its' tr' rs' dc' a' u' w' O' S4' Hc' Hd' Hp'' Hv' Hst' Ha' Ht' Hrs' Hu' Hut' Hwu' T']; try (cbn in P3; lia).
  cbn in P3. injection P3 as _ _ P3. rewrite S3, Sc in T'. eexists. split; [exact T'|].
  rewrite S3, Sc. assert (Hn : (length tr <= u')%nat) by lia.
  assert (E : geos (number (tm_conf t)) (firstn (length tr) its') = geos (number (tm_conf t)) its).
  { symmetry. eapply tells_geos; [exact Ht|]. pose proof (Forall2_take _ _ _ (length tr) Ht') as F.
    rewrite P3, take_app in F. exact F. }
  rewrite <- E. split.
  - exists (geos (number (tm_conf t)) (skipn (length tr) (firstn u' its'))). rewrite <- geos_app.
    replace (firstn (length tr) its') with (firstn (length tr) (firstn u' its')); [rewrite firstn_skipn; reflexivity|].
    rewrite firstn_firstn, Nat.min_l by lia. reflexivity.
  - exists (geos (number (tm_conf t)) (skipn u' its')). rewrite <- geos_app, firstn_skipn. reflexivity.
Qed.
End Forever.
