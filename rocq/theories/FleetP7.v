(** A fleet of simulated terminals in real time: nobody is found silent *)
From Coq Require Import ZArith.
From stdpp Require Import gmap.
From Flocq Require Import IEEE754.Bits.
From Verif Require Import Base HexM TimeM HashM HeaderM ParamsM GeoM MsgM PacketM FrameM FloatM ProgM ProgP RingM SpecRing RingP
  StateM ProcM ServerM ClientM DatagenM NetM SpecState SpecCodec SpecSim SpecNet SpecOnTime StateP HandshakeP CmdP DatagenP
  FleetP FleetP2 FleetP3 FleetP4 FleetP5 FleetP6.
Local Open Scope Z_scope.

Section Steps.
Context (e ec : env) (other : binary64 -> N).
Hypothesis Ho : e_o ec = e_o e.
Let o := e_o e.
Local Notation step := (nstep e ec other).
Local Notation go := (nruns e ec other).

(** what an event does to the server's knowledge of terminal [i] *)
Definition refreshes (t : term) (f : bytes) : Prop := (tm_up t <= 1)%nat \/ a_beat e f.
Lemma event_moves n G ev i t : inv o n G -> punctual ec n ev -> nt_terms n !! i = Some t ->
  exists t', nt_terms (step n ev) !! i = Some t' /\ same_term t t'
  /\ ((tm_up t' = tm_up t /\ devAt (nt_srv (step n ev)) (number (tm_conf t)) = devAt (nt_srv n) (number (tm_conf t))
       /\ (time (step n ev) = time n \/ ev = NClock (time (step n ev))))
      \/ (ev = NServe i /\ tm_up t' = S (tm_up t) /\ time (step n ev) = time n
          /\ exists f d', nth_error (written (nt_cli n) (tm_cli t)) (tm_up t) = Some f
             /\ devAt (nt_srv (step n ev)) (number (tm_conf t)) = Some d'
             /\ (refreshes t f -> d_last d' = time n)
             /\ match devAt (nt_srv n) (number (tm_conf t)) with
                | Some d => d_keep d' = d_keep d /\ (d_last d' = d_last d \/ d_last d' = time n)
                | None => d_keep d' = 60000 /\ d_last d' = time n
                end)).
Proof using Ho.
  intros I P Hi. destruct (well_event e ec other Ho n G ev I P) as (I' & W & _ & Q & _).
  destruct (W _ _ Hi) as (t' & Ht' & St & Hn). exists t'. split; [exact Ht'|]. split; [exact St|].
  assert (L : (i < length (nt_terms n))%nat) by (apply lookup_lt_Some in Hi; exact Hi).
  assert (Gs : forall j u B (p : sp B) a, nt_terms n !! j = Some u ->
     nt_srv (goes n j u p a) = nt_srv n /\ (forall v, nt_terms (goes n j u p a) !! i = Some v -> tm_up v = tm_up t)).
  { intros j u B p a Hj. unfold goes. destruct (run p (nt_cli n)) as [[r|er|] s']; cbn [nt_srv nt_terms]; (split; [reflexivity|]);
      unfold set_term; intros v Hv; apply list_lookup_insert_Some in Hv as [(<- & <- & _)|(_ & Hv)];
      rewrite Hi in *; cbn; congruence. }
  assert (Same : nt_srv (step n ev) = nt_srv n -> tm_up t' = tm_up t ->
    tm_up t' = tm_up t /\ devAt (nt_srv (step n ev)) (number (tm_conf t)) = devAt (nt_srv n) (number (tm_conf t))
       /\ (time (step n ev) = time n \/ ev = NClock (time (step n ev)))) by (intros E1 E2; unfold time; rewrite E1; auto).
  destruct ev as [j|j|j|j|j|j|j r|j|c|c]; cbn [nstep index] in *.
  9: { left. cbn [nt_terms nt_srv] in *. rewrite Hi in Ht'. injection Ht' as <-. unfold time. cbn. auto. }
  9: { left. apply Same; [reflexivity|]. cbn [nt_terms] in Ht'. congruence. }
  all: destruct (nt_terms n !! j) as [u|] eqn:Hj; [|left; apply Same; [reflexivity|congruence]].
  - left. apply Same; unfold act in *; destruct (tm_at u); try reflexivity; try congruence; first [apply (Gs _ _ _ _ _ Hj)|exact (proj2 (Gs _ _ _ _ _ Hj) _ Ht')].
  - left. apply Same; unfold act in *; destruct (tm_at u); try reflexivity; try congruence; first [apply (Gs _ _ _ _ _ Hj)|exact (proj2 (Gs _ _ _ _ _ Hj) _ Ht')].
  - destruct (nth_error (written (nt_cli n) (tm_cli u)) (tm_up u)) as [f|] eqn:Ef.
    2:{ left. assert (E : act e ec other n j (NServe j) u = n) by (unfold act; rewrite Ef; destruct (tm_served u); reflexivity).
        rewrite E in *. unfold time. split; [congruence|auto]. }
    destruct (serve_last e ec other Ho n G j u f I Hj Ef) as (s' & d' & E & Hc & Hd & Hr & Hm).
    destruct (decide (j = i)) as [->|Hji].
    + right. rewrite Hi in Hj. injection Hj as <-. rewrite E in *. cbn [nt_terms nt_srv] in *.
      rewrite list_lookup_insert in Ht' by exact L. injection Ht' as <-. unfold time. cbn [nt_srv].
      do 3 (split; [first [reflexivity|exact Hc]|]). exists f, d'. auto.
    + left. specialize (Hn ltac:(congruence)). subst t'. split; [reflexivity|]. split.
      * apply Q. intros v Hv. injection Hv as <-. destruct I as (_ & A & _).
        destruct (A i j t u ltac:(congruence) Hi Hj) as (N & _). exact N.
      * left. unfold time. rewrite E. exact Hc.
  - left. assert (E : nt_srv (act e ec other n j (NClient j) u) = nt_srv n).
    { unfold act. destruct (tm_runs u); [|reflexivity]. destruct (nth_error _ _); [|reflexivity]. destruct (run _ _) as [[[]| |] s']; reflexivity. }
    apply Same; [exact E|]. revert Ht'. unfold act. destruct (tm_runs u); [|congruence]. destruct (nth_error _ _); [|congruence].
    destruct (run _ _) as [[[]| |] s']; cbn [nt_terms]; unfold set_term; intros Hv; apply list_lookup_insert_Some in Hv as [(<- & <- & _)|(_ & Hv)];
      rewrite ?Hi in *; cbn; congruence.
  - left. apply Same; unfold act in *; destruct (tm_at u); try reflexivity; try congruence; first [apply (Gs _ _ _ _ _ Hj)|exact (proj2 (Gs _ _ _ _ _ Hj) _ Ht')].
  - left. apply Same; unfold act in *; destruct (tm_at u); try reflexivity; try congruence; first [apply (Gs _ _ _ _ _ Hj)|exact (proj2 (Gs _ _ _ _ _ Hj) _ Ht')].
  - left. apply Same; unfold act in *; destruct (tm_at u); try reflexivity; try congruence; first [apply (Gs _ _ _ _ _ Hj)|exact (proj2 (Gs _ _ _ _ _ Hj) _ Ht')].
  - left. rewrite (well_tick e ec other n G j u I Hj P) in *. apply Same; [reflexivity|congruence].
Qed.

(** * The stages *)
Lemma lengths n G i t : inv o n G -> nt_terms n !! i = Some t ->
  length (written (nt_srv n) (tm_srv t)) = tm_up t /\ (tm_up t <= length (written (nt_cli n) (tm_cli t)))%nat
  /\ ((1 <= tm_down t)%nat -> (2 <= length (written (nt_cli n) (tm_cli t)))%nat)
  /\ ((2 <= tm_down t)%nat -> tm_at t = PSent \/ tm_at t = POnline)
  /\ (tm_at t = PSent -> (1 <= length (written (nt_cli n) (tm_cli t)))%nat)
  /\ ((1 <= tm_up t)%nat \/ devAt (nt_srv n) (number (tm_conf t)) = None).
Proof.
  intros (C & A & I) Hi. destruct (I _ _ Hi) as (B1 & B2 & B3 & x & xc & os & oc & X1 & X2 & X3 & X4 & St).
  rewrite (written_of _ _ _ _ X1 X3), (written_of _ _ _ _ X2 X4). cbn [cn_out].
  remember (G i) as gi eqn:Eg. remember (tm_at t) as a eqn:Ea. remember (tm_up t) as u eqn:Eu. remember (tm_down t) as w eqn:Ew. clear Eg Ea Eu Ew.
  destruct St as [U T|U T Hd|f1 r U T Hd R1 Hr1 Hr2|f1 f2 d code O T Hd R2 Hc|
    f1 f2 f3 d code al imei sw O T Hd R3 Hc|f1 f2 f3 f4 d O T Hd S4 Hc R4|
    f1 f2 f3 f4 d its tr rs dc a u w O S4 Hc Hd Hp Hv Hst Ha Ht Hrs Hu Hut Hwu T]; cbn [length];
    (split; [lia|]); (split; [lia|]); (split; [lia|]);
    (split; [intros; first [lia|destruct Ha as [(Ha & _)|Ha]; rewrite Ha; auto]|]); (split; [first [discriminate|lia]|]);
    first [left; lia|right; apply U].
Qed.
Lemma beat_sent n G i t : inv o n G -> nt_terms n !! i = Some t -> tm_at t = POnline ->
  exists f, written (nt_cli (step n (NBeat i))) (tm_cli t) = written (nt_cli n) (tm_cli t) ++ [f] /\ a_beat e f.
Proof using Ho.
  intros (C & A & I) Hi Ha. destruct (I _ _ Hi) as (B1 & B2 & B3 & x & xc & os & oc & X1 & X2 & X3 & X4 & St).
  cbn [nstep]. rewrite Hi. unfold act. rewrite Ha, simPhone_eq.
  remember (G i) as gi eqn:Eg. remember (tm_at t) as a eqn:Ea. rewrite Ha in Ea.
  assert (X : exists dc, devAt (nt_cli n) (number (tm_conf t)) = Some dc /\ d_phone dc = d_phone (genDevice (tm_conf t) (ss_id xc) (ss_conn xc))
     /\ d_ver dc = d_ver (genDevice (tm_conf t) (ss_id xc) (ss_conn xc))).
  { clear Ea Eg. destruct St; try discriminate Ha. eauto. }
  destruct X as (dc & D1 & D2 & D3).
  destruct (cli_beat o ec (tm_conf t) (tm_cli t) (nt_cli n) xc _ Ho B1 X2 X4 dc D1 D2 D3) as (s' & f & R & Rd & Hc & Hd & CK).
  unfold goes. rewrite R. cbn [nt_cli]. exists f. split.
  - rewrite (written_of _ _ _ _ X2 X4). unfold written. rewrite (ck_sess _ _ _ _ CK), X2, Hc. reflexivity.
  - destruct (reads_id e f _ _ Rd) as (p & Dp & Hp). exists p. split; [exact Dp|]. rewrite Hp. apply simHeader_id.
Qed.
Lemma check_online n G i t : inv o n G -> nt_terms n !! i = Some t -> (2 <= tm_down t)%nat ->
  exists t', nt_terms (step n (NCheck i)) !! i = Some t' /\ tm_at t' = POnline.
Proof using Ho.
  intros I Hi Hw. destruct (lengths n G i t I Hi) as (_ & _ & _ & Ha & _). specialize (Ha Hw).
  cbn [nstep]. rewrite Hi. unfold act. destruct Ha as [Ha|Ha]; rewrite Ha; [|eauto].
  destruct I as (C & A & I). destruct (I _ _ Hi) as (B1 & B2 & B3 & x & xc & os & oc & X1 & X2 & X3 & X4 & St).
  assert (X : exists dc, devAt (nt_cli n) (number (tm_conf t)) = Some dc /\ d_status dc = Online).
  { remember (tm_down t) as w eqn:Ew. clear Ew. destruct St; try lia; eauto. }
  destruct X as (dc & D1 & D2). assert (L : (i < length (nt_terms n))%nat) by (apply lookup_lt_Some in Hi; exact Hi).
  unfold goes. rewrite simPhone_eq, (run_status _ _ _ D1), D2. cbn [N.eqb Online Pos.eqb nt_terms].
  unfold set_term. rewrite list_lookup_insert by exact L. eexists. split; [reflexivity|]. reflexivity.
Qed.
Lemma event_down n G ev i t : inv o n G -> punctual ec n ev -> nt_terms n !! i = Some t ->
  exists t', nt_terms (step n ev) !! i = Some t' /\ (tm_down t <= tm_down t')%nat /\ (tm_at t = POnline -> tm_at t' = POnline).
Proof using Ho.
  intros I P Hi. destruct (step_mono e ec other Ho n G i t ev I P Hi) as (t' & Ht' & R & _). exists t'. split; [exact Ht'|].
  split; [|intros E; apply rank_online in E; apply rank_online; lia].
  destruct (well_event e ec other Ho n G ev I P) as (_ & W & _). destruct (W _ _ Hi) as (t1 & H1 & _ & Hn).
  rewrite Ht' in H1. injection H1 as <-. destruct (decide (i = index ev)) as [E|E]; [|rewrite (Hn E); lia].
  assert (K : forall ev', nt_terms (act e ec other n i ev' t) !! i = Some t' -> index ev' = i -> (tm_down t <= tm_down t')%nat).
  { intros ev' H Hx. destruct (act_mono e ec other n i t ev' Hi Hx) as (t1 & H1 & _ & D & _). rewrite H in H1. injection H1 as <-. exact D. }
  destruct ev; cbn [index nstep] in *; try (subst i0; rewrite Hi in Ht'; eapply K; [exact Ht'|reflexivity]);
    cbn [nt_terms] in Ht'; rewrite Hi in Ht'; injection Ht' as <-; lia.
Qed.

(** * Runs *)
Lemma forward_tail n ev evs : forward e ec other n (ev :: evs) -> forward e ec other (step n ev) evs.
Proof. intros F a t c E. exact (F (ev :: a) t c (f_equal (cons ev) E)). Qed.
Lemma event_time n G ev evs : inv o n G -> punctual ec n ev -> forward e ec other n (ev :: evs) -> time n <= time (step n ev).
Proof using Ho.
  intros I P F. destruct ev; cbn [nstep];
    try (unfold time; cbn; apply Z.le_refl).
  9: { exact (F [] t evs eq_refl). }
  all: destruct (nt_terms n !! i) as [u|] eqn:Hi; [|apply Z.le_refl].
  all: match goal with |- _ <= time (act _ _ _ _ _ ?ev _) =>
    destruct (event_moves n G ev i u I P Hi) as (t' & _ & _ & [(_ & _ & [T|T])|(_ & _ & T & _)]) end;
    try discriminate T; cbn [nstep] in T; rewrite Hi in T; rewrite T; apply Z.le_refl.
Qed.
Lemma mono evs : forall n G i t, inv o n G -> all_punctual e ec other n evs -> forward e ec other n evs -> nt_terms n !! i = Some t ->
  exists t', nt_terms (go n evs) !! i = Some t' /\ same_term t t' /\ (tm_up t <= tm_up t')%nat /\ (tm_down t <= tm_down t')%nat
    /\ (tm_at t = POnline -> tm_at t' = POnline) /\ prefix (written (nt_cli n) (tm_cli t)) (written (nt_cli (go n evs)) (tm_cli t))
    /\ time n <= time (go n evs).
Proof using Ho.
  induction evs as [|ev evs IH]; intros n G i t I P F Hi.
  - exists t. split; [exact Hi|]. split; [apply same_term_refl|]. do 2 (split; [lia|]). split; [auto|]. split; [reflexivity|apply Z.le_refl].
  - destruct P as (P & Ps). destruct (well_event e ec other Ho n G ev I P) as (I1 & _ & _ & _ & _ & W).
    destruct (event_moves n G ev i t I P Hi) as (t1 & H1 & S1 & U). destruct (event_down n G ev i t I P Hi) as (t1' & H1' & D1 & A1).
    rewrite H1 in H1'. injection H1' as <-.
    destruct (IH _ _ i t1 I1 Ps (forward_tail _ _ _ F) H1) as (t2 & H2 & S2 & U2 & D2 & A2 & W2 & T2).
    exists t2. split; [exact H2|]. split; [eapply same_term_trans; eassumption|].
    split; [destruct U as [(U & _)|(_ & U & _)]; lia|]. split; [lia|]. split; [auto|].
    split; [etransitivity; [exact (W _ _ Hi)|]; destruct S1 as (_ & _ & _ & S1); rewrite S1 in W2; exact W2|].
    pose proof (event_time _ _ _ _ I P F). change (go n (ev :: evs)) with (go (step n ev) evs). lia.
Qed.
Lemma keep evs : forall n G i t d c, inv o n G -> all_punctual e ec other n evs -> forward e ec other n evs -> nt_terms n !! i = Some t ->
  devAt (nt_srv n) (number (tm_conf t)) = Some d -> c <= d_last d -> c <= time n ->
  exists d', devAt (nt_srv (go n evs)) (number (tm_conf t)) = Some d' /\ c <= d_last d' /\ d_keep d' = d_keep d.
Proof using Ho.
  induction evs as [|ev evs IH]; intros n G i t d c I P F Hi Hd Hc Ht; [exists d; auto|].
  pose proof (event_time _ _ _ _ I (proj1 P) F) as T. destruct P as (P & Ps).
  destruct (well_event e ec other Ho n G ev I P) as (I1 & _).
  destruct (event_moves n G ev i t I P Hi) as (t1 & H1 & (S1 & _) & U).
  assert (X : exists d1, devAt (nt_srv (step n ev)) (number (tm_conf t)) = Some d1 /\ c <= d_last d1 /\ d_keep d1 = d_keep d).
  { destruct U as [(_ & E & _)|(_ & _ & _ & f & d1 & _ & E & _ & M)]; [exists d; rewrite E; auto|].
    rewrite Hd in M. exists d1. split; [exact E|]. destruct M as (M1 & M2). split; [lia|exact M1]. }
  destruct X as (d1 & E1 & C1 & K1). rewrite <- S1 in E1 |- *.
  destruct (IH _ _ i t1 d1 c I1 Ps (forward_tail _ _ _ F) H1 E1 C1 ltac:(lia)) as (d' & Q1 & Q2 & Q3).
  exists d'. split; [exact Q1|]. split; [exact Q2|congruence].
Qed.
(** a frame that refreshes the device is read *)
Lemma refreshed evs : forall n G i t t' k f, inv o n G -> all_punctual e ec other n evs -> forward e ec other n evs ->
  nt_terms n !! i = Some t -> nt_terms (go n evs) !! i = Some t' -> (tm_up t <= k < tm_up t')%nat ->
  nth_error (written (nt_cli (go n evs)) (tm_cli t)) k = Some f -> (k <= 1)%nat \/ a_beat e f ->
  exists d', devAt (nt_srv (go n evs)) (number (tm_conf t)) = Some d' /\ time n <= d_last d'.
Proof using Ho.
  induction evs as [|ev evs IH]; intros n G i t t' k f I P F Hi Hi' Hk Hf Hb.
  - cbn in Hi'. rewrite Hi in Hi'. injection Hi' as <-. lia.
  - pose proof (event_time _ _ _ _ I (proj1 P) F) as T. pose proof (mono _ n G i t I P F Hi) as (_ & _ & _ & _ & _ & _ & Pr & _).
    destruct P as (P & Ps). destruct (well_event e ec other Ho n G ev I P) as (I1 & _).
    destruct (event_moves n G ev i t I P Hi) as (t1 & H1 & S1 & U). change (go n (ev :: evs)) with (go (step n ev) evs) in *.
    pose proof S1 as (Sn & _ & _ & Sc). destruct (decide (k < tm_up t1)%nat) as [Hlt|Hge].
    + destruct U as [(U & _)|(_ & U & T1 & g & d1 & Eg & E & R & _)]; [lia|]. assert (Ek : k = tm_up t) by lia.
      assert (g = f).
      { rewrite Ek in Hf. destruct Pr as (more & Pr). rewrite Pr, nth_error_app1 in Hf; [congruence|]. apply nth_error_Some. rewrite Eg. discriminate. }
      subst g. rewrite Ek in Hb. specialize (R Hb). rewrite <- Sn in E |- *.
      destruct (keep evs _ _ i t1 d1 (time n) I1 Ps (forward_tail _ _ _ F) H1 E ltac:(lia) ltac:(lia)) as (d' & Q1 & Q2 & _). eauto.
    + rewrite <- Sc in Hf. rewrite <- Sn.
      destruct (IH _ _ i t1 t' k f I1 Ps (forward_tail _ _ _ F) H1 Hi' ltac:(lia) Hf Hb) as (d' & Q1 & Q2). exists d'. split; [exact Q1|lia].
Qed.
(** the clock passes [B] *)
Lemma crossing evs : forall n G B, inv o n G -> all_punctual e ec other n evs -> forward e ec other n evs -> time n <= B -> B < time (go n evs) ->
  exists a c b, evs = a ++ NClock c :: b /\ time (go n a) <= B /\ B < c.
Proof using Ho.
  induction evs as [|ev evs IH]; intros n G B I P F H1 H2; [cbn in H2; lia|].
  destruct (Z_le_gt_dec (time (step n ev)) B) as [Hl|Hg].
  - destruct P as (P & Ps). destruct (well_event e ec other Ho n G ev I P) as (I1 & _).
    destruct (IH _ _ B I1 Ps (forward_tail _ _ _ F) Hl H2) as (a & c & b & -> & Q1 & Q2). exists (ev :: a), c, b. auto.
  - exists []. assert (X : ev = NClock (time (step n ev))).
    { destruct P as (P & _). destruct ev; cbn [nstep] in *; try (exfalso; unfold time in *; cbn in Hg; lia); try reflexivity.
      all: destruct (nt_terms n !! i) as [u|] eqn:Hi; [|lia].
      all: match goal with H : time (act _ _ _ _ _ ?ev _) > _ |- _ =>
        destruct (event_moves n G ev i u I P Hi) as (t' & _ & _ & [(_ & _ & [T|T])|(_ & _ & T & _)]) end;
        try discriminate T; cbn [nstep] in T; rewrite Hi in T; lia. }
    exists (time (step n ev)), evs. rewrite X at 1. split; [reflexivity|]. cbn. split; [exact H1|lia].
Qed.
End Steps.
