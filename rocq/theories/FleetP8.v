(** A fleet of simulated terminals in real time: deadlines *)
From Coq Require Import ZArith.
From stdpp Require Import gmap.
From Flocq Require Import IEEE754.Bits.
From Verif Require Import Base HexM TimeM HashM HeaderM ParamsM GeoM MsgM PacketM FrameM FloatM ProgM ProgP RingM SpecRing RingP
  StateM ProcM ServerM ClientM DatagenM NetM SpecState SpecCodec SpecSim SpecNet SpecOnTime StateP HandshakeP CmdP DatagenP
  FleetP FleetP2 FleetP3 FleetP4 FleetP5 FleetP6 FleetP7.
Local Open Scope Z_scope.

Section Timed.
Context (e ec : env) (other : binary64 -> N).
Hypothesis Ho : e_o ec = e_o e.
Let o := e_o e.
Local Notation step := (nstep e ec other).
Context (n0 : net) (evs : list nevent) (D S P : Z).
Local Notation after a := (nruns e ec other n0 a).
Hypothesis Hd0 : dialled o n0.
Hypothesis HT : on_time e ec other n0 evs D S P.

Lemma punctual_app a : forall n b, all_punctual e ec other n (a ++ b) <-> all_punctual e ec other n a /\ all_punctual e ec other (nruns e ec other n a) b.
Proof.
  induction a as [|ev a IH]; intros n b; cbn [app all_punctual]; [cbn; tauto|].
  rewrite IH. change (nruns e ec other n (ev :: a)) with (nruns e ec other (step n ev) a). tauto.
Qed.
Lemma forward_part a b c : evs = a ++ b ++ c -> forward e ec other (after a) b.
Proof using HT.
  intros E x t y ->. destruct HT as (_ & _ & _ & F & _). rewrite <- nruns_app. apply (F (a ++ x) t (y ++ c)).
  rewrite E, <- !app_assoc. reflexivity.
Qed.
Definition gens (a : list nevent) (j : nat) : list devgeo := all_generated e ec other n0 j a.
Lemma inv_after a : all_punctual e ec other n0 a -> inv o (after a) (gens a).
Proof using Ho Hd0. intros Hp. destruct (run_inv e ec other Ho a n0 _ (dialled_inv e n0 Hd0) Hp) as (I & _). exact I. Qed.

Section Prefix.
Context (pre rest : list nevent).
Hypothesis Hev : evs = pre ++ rest.
Hypothesis Hpre : all_punctual e ec other n0 pre.

Lemma part p q : pre = p ++ q -> inv o (after p) (gens p) /\ all_punctual e ec other (after p) q /\ forward e ec other (after p) q.
Proof using Ho Hd0 HT Hev Hpre.
  intros E. rewrite E in Hpre. apply punctual_app in Hpre as (P1 & P2). split; [apply inv_after; exact P1|]. split; [exact P2|].
  apply (forward_part p q rest). rewrite Hev, E, <- app_assoc. reflexivity.
Qed.
Lemma later p q1 q2 i t : pre = p ++ q1 ++ q2 -> nt_terms (after p) !! i = Some t ->
  exists t', nt_terms (after (p ++ q1)) !! i = Some t' /\ same_term t t' /\ (tm_up t <= tm_up t')%nat /\ (tm_down t <= tm_down t')%nat
    /\ (tm_at t = POnline -> tm_at t' = POnline) /\ prefix (written (nt_cli (after p)) (tm_cli t)) (written (nt_cli (after (p ++ q1))) (tm_cli t))
    /\ time (after p) <= time (after (p ++ q1)).
Proof using Ho Hd0 HT Hev Hpre.
  intros E Hi. destruct (part p (q1 ++ q2) E) as (I & P1 & _). apply punctual_app in P1 as (P1 & _).
  rewrite nruns_app. apply (mono e ec other Ho q1 (after p) _ i t I P1); [|exact Hi].
  apply (forward_part p q1 (q2 ++ rest)). rewrite Hev, E, <- !app_assoc. reflexivity.
Qed.

(** [W] after a moment not later than [B] *)
Lemma wait p q B W : pre = p ++ q -> 0 <= W -> time (after p) <= B -> B + W < time (after pre) ->
  exists q1 c q2, q = q1 ++ NClock c :: q2 /\ time (after (p ++ q1)) <= B + W
    /\ B + W < time (after (p ++ (q1 ++ [NClock c])))
    /\ nt_terms (after (p ++ (q1 ++ [NClock c]))) = nt_terms (after (p ++ q1)).
Proof using Ho Hd0 HT Hev Hpre.
  intros E HW HB Hlt. destruct (part p q E) as (I & P1 & F).
  destruct (crossing e ec other Ho q (after p) _ (B + W) I P1 F ltac:(lia)) as (q1 & c & q2 & Eq & H1 & H2).
  { rewrite <- nruns_app, <- E. exact Hlt. }
  rewrite <- nruns_app in H1. exists q1, c, q2. split; [exact Eq|]. split; [exact H1|].
  rewrite app_assoc, (nruns_app e ec other n0 (p ++ q1)). cbn [nruns fold_left nstep]. split; [unfold time; cbn; exact H2|reflexivity].
Qed.
Lemma wait_up p q B i t : pre = p ++ q -> time (after p) <= B -> B + D < time (after pre) -> nt_terms (after p) !! i = Some t ->
  exists q1 q2 t1, q = q1 ++ q2 /\ time (after (p ++ q1)) <= B + D /\ nt_terms (after (p ++ q1)) !! i = Some t1 /\ same_term t t1
    /\ (length (written (nt_cli (after p)) (tm_cli t)) <= tm_up t1)%nat.
Proof using Ho Hd0 HT Hev Hpre.
  intros E HB Hlt Hi. destruct HT as (D0 & S0 & P0 & F & R & L & Bt).
  destruct (wait p q B D E D0 HB Hlt) as (q1 & c & q2 & Eq & T1 & T2 & Tm).
  destruct (later p q1 (NClock c :: q2) i t ltac:(rewrite E, Eq; reflexivity) Hi) as (t1 & H1 & Sm & _).
  exists q1, (NClock c :: q2), t1. split; [exact Eq|]. split; [exact T1|]. split; [exact H1|]. split; [exact Sm|].
  refine (proj1 (R p (q1 ++ [NClock c]) (q2 ++ rest) i t t1 _ Hi _ (Z.le_lt_trans _ _ _ (Zplus_le_compat_r _ _ _ HB) T2))); [|rewrite Tm; exact H1].
  rewrite Hev, E, Eq, <- !app_assoc. reflexivity.
Qed.
Lemma wait_down p q B i t : pre = p ++ q -> time (after p) <= B -> B + D < time (after pre) -> nt_terms (after p) !! i = Some t ->
  exists q1 q2 t1, q = q1 ++ q2 /\ time (after (p ++ q1)) <= B + D /\ nt_terms (after (p ++ q1)) !! i = Some t1 /\ same_term t t1
    /\ (tm_up t <= tm_down t1)%nat.
Proof using Ho Hd0 HT Hev Hpre.
  intros E HB Hlt Hi. destruct HT as (D0 & S0 & P0 & F & R & L & Bt).
  destruct (wait p q B D E D0 HB Hlt) as (q1 & c & q2 & Eq & T1 & T2 & Tm).
  destruct (later p q1 (NClock c :: q2) i t ltac:(rewrite E, Eq; reflexivity) Hi) as (t1 & H1 & Sm & _).
  exists q1, (NClock c :: q2), t1. split; [exact Eq|]. split; [exact T1|]. split; [exact H1|]. split; [exact Sm|].
  destruct (part p q E) as (I & _). destruct (lengths e (after p) _ i t I Hi) as (Ls & _). rewrite <- Ls.
  refine (proj2 (R p (q1 ++ [NClock c]) (q2 ++ rest) i t t1 _ Hi _ (Z.le_lt_trans _ _ _ (Zplus_le_compat_r _ _ _ HB) T2))); [|rewrite Tm; exact H1].
  rewrite Hev, E, Eq, <- !app_assoc. reflexivity.
Qed.
Lemma in_front {A} (x : A) l c : In x (l ++ [c]) -> x <> c -> exists l1 l2, l = l1 ++ x :: l2.
Proof. intros H Hn. apply in_app_or in H as [H|[H|[]]]; [apply in_split; exact H|congruence]. Qed.
Lemma wait_look p q B i t : pre = p ++ q -> time (after p) <= B -> B + S < time (after pre) -> nt_terms (after p) !! i = Some t ->
  (2 <= tm_down t)%nat ->
  exists q1 q2 t1, q = q1 ++ q2 /\ time (after (p ++ q1)) <= B + S /\ nt_terms (after (p ++ q1)) !! i = Some t1 /\ same_term t t1
    /\ tm_at t1 = POnline.
Proof using Ho Hd0 HT Hev Hpre.
  intros E HB Hlt Hi Hw. destruct HT as (D0 & S0 & P0 & F & R & L & Bt). destruct (part p q E) as (I & _).
  destruct (lengths e (after p) _ i t I Hi) as (_ & _ & _ & La & _). specialize (La Hw). destruct La as [La|La].
  2:{ exists [], q, t. rewrite app_nil_r. split; [reflexivity|]. split; [lia|]. split; [exact Hi|]. split; [apply same_term_refl|exact La]. }
  destruct (wait p q B S E S0 HB Hlt) as (q1 & c & q2 & Eq & T1 & T2 & Tm).
  destruct (later p q1 (NClock c :: q2) i t ltac:(rewrite E, Eq; reflexivity) Hi) as (t1 & H1 & Sm & _).
  exists q1, (NClock c :: q2), t1. split; [exact Eq|]. split; [exact T1|]. split; [exact H1|]. split; [exact Sm|].
  destruct (in_front _ _ _ (L p (q1 ++ [NClock c]) (q2 ++ rest) i t ltac:(rewrite Hev, E, Eq, <- !app_assoc; reflexivity) Hi La (Z.le_lt_trans _ _ _ (Zplus_le_compat_r _ _ _ HB) T2)) ltac:(discriminate))
    as (b1 & b2 & Eb).
  destruct (later p b1 (NCheck i :: b2 ++ NClock c :: q2) i t ltac:(rewrite E, Eq, Eb, <- !app_assoc; reflexivity) Hi) as (u & Hu & _ & _ & Du & _).
  assert (E1 : pre = (p ++ b1) ++ (NCheck i :: b2 ++ NClock c :: q2)) by (rewrite E, Eq, Eb, <- !app_assoc; reflexivity).
  destruct (part _ _ E1) as (Iu & _).
  destruct (check_online e ec other Ho _ _ i u Iu Hu ltac:(lia)) as (v & Hv & Av).
  assert (Hv' : nt_terms (after ((p ++ b1) ++ [NCheck i])) !! i = Some v) by (rewrite nruns_app; exact Hv).
  destruct (later ((p ++ b1) ++ [NCheck i]) b2 (NClock c :: q2) i v) as (w & Hw' & _ & _ & _ & Aw & _); [rewrite E1, <- !app_assoc; reflexivity|exact Hv'|].
  assert (X : p ++ q1 = ((p ++ b1) ++ [NCheck i]) ++ b2) by (rewrite Eb, <- !app_assoc; reflexivity).
  rewrite <- X in Hw'. rewrite H1 in Hw'. injection Hw' as <-. auto.
Qed.
Lemma wait_beat p q B i t : pre = p ++ q -> time (after p) <= B -> B + P < time (after pre) -> nt_terms (after p) !! i = Some t ->
  tm_at t = POnline ->
  exists q1 q2 t1 k f, q = q1 ++ q2 /\ time (after (p ++ q1)) <= B + P /\ nt_terms (after (p ++ q1)) !! i = Some t1 /\ same_term t t1
    /\ (tm_up t <= k)%nat /\ nth_error (written (nt_cli (after (p ++ q1))) (tm_cli t)) k = Some f /\ a_beat e f.
Proof using Ho Hd0 HT Hev Hpre.
  intros E HB Hlt Hi Ha. destruct HT as (D0 & S0 & P0 & F & R & L & Bt).
  destruct (wait p q B P E P0 HB Hlt) as (q1 & c & q2 & Eq & T1 & T2 & Tm).
  destruct (later p q1 (NClock c :: q2) i t ltac:(rewrite E, Eq; reflexivity) Hi) as (t1 & H1 & Sm & _).
  destruct (in_front _ _ _ (Bt p (q1 ++ [NClock c]) (q2 ++ rest) i t ltac:(rewrite Hev, E, Eq, <- !app_assoc; reflexivity) Hi Ha (Z.le_lt_trans _ _ _ (Zplus_le_compat_r _ _ _ HB) T2)) ltac:(discriminate))
    as (b1 & b2 & Eb).
  destruct (later p b1 (NBeat i :: b2 ++ NClock c :: q2) i t ltac:(rewrite E, Eq, Eb, <- !app_assoc; reflexivity) Hi) as (u & Hu & Su & Uu & _ & Au & _).
  assert (E1 : pre = (p ++ b1) ++ (NBeat i :: b2 ++ NClock c :: q2)) by (rewrite E, Eq, Eb, <- !app_assoc; reflexivity).
  destruct (part _ _ E1) as (Iu & _). destruct (lengths e _ _ i u Iu Hu) as (_ & Lu & _).
  destruct (beat_sent e ec other Ho _ _ i u Iu Hu (Au Ha)) as (f & Wf & Bf).
  destruct (later (p ++ b1) [NBeat i] (b2 ++ NClock c :: q2) i u E1 Hu) as (v & Hv & Sv & _).
  destruct (later ((p ++ b1) ++ [NBeat i]) b2 (NClock c :: q2) i v) as (w & Hw' & _ & _ & _ & _ & Pw & _); [rewrite E1, <- !app_assoc; reflexivity|exact Hv|].
  assert (X : p ++ q1 = ((p ++ b1) ++ [NBeat i]) ++ b2) by (rewrite Eb, <- !app_assoc; reflexivity). rewrite <- X in Pw.
  destruct Su as (_ & _ & _ & Su). destruct Sv as (_ & _ & _ & Sv).
  rewrite (nruns_app e ec other n0 (p ++ b1)) in Pw. cbn [nruns fold_left] in Pw. rewrite Sv in Pw.
  change (fold_left step (p ++ b1) n0) with (after (p ++ b1)) in *. rewrite Wf in Pw. destruct Pw as (more & Pw).
  exists q1, (NClock c :: q2), t1, (length (written (nt_cli (after (p ++ b1))) (tm_cli u))), f.
  split; [exact Eq|]. split; [exact T1|]. split; [exact H1|]. split; [exact Sm|]. split; [lia|]. split; [|exact Bf].
  rewrite <- Su. rewrite Pw, <- app_assoc, nth_error_app2, Nat.sub_diag by lia. reflexivity.
Qed.

(** where the device's last refresh comes from *)
Lemma origin i : forall a, all_punctual e ec other n0 a -> forall t d, nt_terms (after a) !! i = Some t ->
  devAt (nt_srv (after a)) (number (tm_conf t)) = Some d ->
  d_keep d = 60000 /\ exists p q u, a = p ++ q /\ time (after p) <= d_last d /\ nt_terms (after p) !! i = Some u /\ (1 <= tm_up u)%nat.
Proof using Ho Hd0.
  induction a as [|ev a IH] using rev_ind; intros Hp t d Hi Hd.
  { exfalso. cbn in Hi, Hd. destruct Hd0 as (_ & _ & I). destruct (I _ _ Hi) as (_ & _ & _ & _ & _ & _ & _ & _ & N & _). congruence. }
  apply punctual_app in Hp as (Hp & (P1 & _)). specialize (IH Hp). pose proof (inv_after a Hp) as I.
  destruct (run_inv e ec other Ho (a ++ [ev]) n0 _ (dialled_inv e n0 Hd0) ltac:(apply punctual_app; split; [exact Hp|split; [exact P1|exact Logic.I]])) as (_ & _ & L1 & _).
  destruct (run_inv e ec other Ho a n0 _ (dialled_inv e n0 Hd0) Hp) as (_ & _ & L2 & _).
  destruct (lookup_lt_is_Some_2 (nt_terms (after a)) i) as (u & Hu); [rewrite L2, <- L1; apply lookup_lt_Some in Hi; exact Hi|].
  assert (X : after (a ++ [ev]) = step (after a) ev) by (rewrite nruns_app; reflexivity). rewrite X in Hi, Hd.
  destruct (event_moves e ec other Ho (after a) _ ev i u I P1 Hu) as (t' & Ht' & (Sn & _) & M). rewrite Hi in Ht'. injection Ht' as <-. rewrite Sn in Hd.
  assert (Old : forall d0, devAt (nt_srv (after a)) (number (tm_conf u)) = Some d0 -> d_keep d = d_keep d0 -> d_last d = d_last d0 ->
    d_keep d = 60000 /\ exists p q u, a ++ [ev] = p ++ q /\ time (after p) <= d_last d /\ nt_terms (after p) !! i = Some u /\ (1 <= tm_up u)%nat).
  { intros d0 H0 K0 L0. destruct (IH u d0 Hu H0) as (K & p & q & v & E & T & Hv & U). split; [congruence|]. exists p, (q ++ [ev]), v.
    split; [rewrite E, app_assoc; reflexivity|]. rewrite L0. auto. }
  destruct M as [(_ & E & _)|(_ & U & T & f & d' & _ & E & _ & M)]; [rewrite E in Hd; apply (Old d Hd); reflexivity|].
  rewrite E in Hd. injection Hd as <-.
  assert (New : d_last d' = time (after a) -> exists p q u, a ++ [ev] = p ++ q /\ time (after p) <= d_last d' /\ nt_terms (after p) !! i = Some u /\ (1 <= tm_up u)%nat).
  { intros L. exists (a ++ [ev]), [], t. rewrite app_nil_r. split; [reflexivity|]. rewrite X. split; [lia|]. split; [exact Hi|lia]. }
  destruct (devAt (nt_srv (after a)) (number (tm_conf u))) as [d0|] eqn:E0.
  - destruct M as (M1 & [M2|M2]); [apply (Old d0 eq_refl M1 M2)|]. destruct (IH u d0 Hu E0) as (K & _). split; [congruence|exact (New M2)].
  - destruct M as (M1 & M2). split; [exact M1|exact (New M2)].
Qed.

Lemma never_silent i t d : 2 * D + S + P <= 60000 -> nt_terms (after pre) !! i = Some t ->
  devAt (nt_srv (after pre)) (number (tm_conf t)) = Some d -> time (after pre) <= d_last d + d_keep d.
Proof using Ho Hd0 HT Hev Hpre.
  intros HB Hi Hd. destruct (origin i pre Hpre t d Hi Hd) as (Kd & p0 & q0 & u0 & E0 & T0 & Hu0 & U0). rewrite Kd.
  destruct (Z_le_gt_dec (time (after pre)) (d_last d + 60000)) as [|Hgt]; [assumption|]. exfalso.
  set (L := d_last d) in *. pose proof HT as (D0 & S0 & P0 & _).
  destruct (wait p0 q0 L 0 E0 ltac:(lia) T0 ltac:(lia)) as (q1 & c & q2 & Eq & T1 & T2 & Tm).
  assert (Em : pre = (p0 ++ q1) ++ (NClock c :: q2)) by (rewrite E0, Eq, <- ?app_assoc; reflexivity).
  destruct (later p0 q1 (NClock c :: q2) i u0 ltac:(rewrite E0, Eq; reflexivity) Hu0) as (u & Hu & _ & Uu & _).
  set (m := p0 ++ q1) in *.
  assert (Em' : pre = (m ++ [NClock c]) ++ q2) by (rewrite Em, <- ?app_assoc; reflexivity).
  rewrite app_assoc in T2, Tm. fold m in T2, Tm.
  assert (Hm' : nt_terms (after (m ++ [NClock c])) !! i = Some u) by (rewrite Tm; exact Hu).
  assert (Fin : forall k f, (tm_up u <= k < tm_up t)%nat -> nth_error (written (nt_cli (after pre)) (tm_cli t)) k = Some f -> (k <= 1)%nat \/ a_beat e f -> False).
  { intros k f Hk Hf Hb. destruct (part _ _ Em') as (I' & P' & F').
    assert (X : nruns e ec other (after (m ++ [NClock c])) q2 = after pre) by (rewrite <- nruns_app, <- Em'; reflexivity).
    destruct (mono e ec other Ho q2 _ _ i u I' P' F' Hm') as (t' & Ht' & (Sn & _ & _ & Sc) & _). rewrite X, Hi in Ht'. injection Ht' as <-.
    destruct (refreshed e ec other Ho q2 _ _ i u t k f I' P' F' Hm' ltac:(rewrite X; exact Hi) Hk ltac:(rewrite X, <- Sc; exact Hf) Hb) as (d' & Hd' & Hl).
    rewrite X, <- Sn, Hd in Hd'. injection Hd' as <-. fold L in Hl. lia. }
  destruct (part pre [] ltac:(rewrite app_nil_r; reflexivity)) as (Ip & _). destruct (lengths e _ _ i t Ip Hi) as (_ & Lt & _).
  destruct (wait_down m _ L i u Em ltac:(lia) ltac:(lia) Hu) as (a1 & b1 & u1 & Eq1 & T3 & Hu1 & _ & Dn1).
  assert (E1 : pre = (m ++ a1) ++ b1) by (rewrite Em, Eq1, <- ?app_assoc; reflexivity).
  destruct (part _ _ E1) as (I1 & _). destruct (lengths e _ _ i u1 I1 Hu1) as (_ & _ & W1 & _).
  destruct (later m a1 b1 i u ltac:(rewrite E1, <- ?app_assoc; reflexivity) Hu) as (u1' & Hu1' & _ & Up1 & _). rewrite Hu1 in Hu1'. injection Hu1' as <-.
  assert (To : forall x y v, pre = x ++ y -> nt_terms (after x) !! i = Some v -> same_term v t /\ (tm_up v <= tm_up t)%nat
    /\ prefix (written (nt_cli (after x)) (tm_cli t)) (written (nt_cli (after pre)) (tm_cli t))).
  { intros x y v Ex Hv. destruct (later x y [] i v ltac:(rewrite app_nil_r; exact Ex) Hv) as (t' & Ht' & St' & Ut' & _ & _ & Pt' & _).
    rewrite <- Ex in Ht', Pt'. rewrite Hi in Ht'. injection Ht' as <-. split; [exact St'|]. split; [exact Ut'|].
    destruct St' as (_ & _ & _ & Sc). rewrite <- Sc in Pt'. exact Pt'. }
  destruct (decide (2 <= tm_up u)%nat) as [H2|H2].
  - destruct (wait_look (m ++ a1) b1 (L + D) i u1 E1 ltac:(lia) ltac:(lia) Hu1 ltac:(lia)) as (a2 & b2 & u2 & Eq2 & T4 & Hu2 & _ & A2).
    assert (E2 : pre = ((m ++ a1) ++ a2) ++ b2) by (rewrite E1, Eq2, <- ?app_assoc; reflexivity).
    destruct (later (m ++ a1) a2 b2 i u1 ltac:(rewrite E2, <- ?app_assoc; reflexivity) Hu1) as (u2' & Hu2' & _ & Up2 & _). rewrite Hu2 in Hu2'. injection Hu2' as <-.
    destruct (wait_beat _ b2 (L + D + S) i u2 E2 ltac:(lia) ltac:(lia) Hu2 A2) as (a3 & b3 & u3 & k & f & Eq3 & T5 & Hu3 & (_ & _ & _ & Sc3) & Hk & Hf & Hb).
    assert (E3 : pre = (((m ++ a1) ++ a2) ++ a3) ++ b3) by (rewrite E2, Eq3, <- ?app_assoc; reflexivity).
    destruct (wait_up _ b3 (L + D + S + P) i u3 E3 ltac:(lia) ltac:(lia) Hu3) as (a4 & b4 & u4 & Eq4 & _ & Hu4 & _ & Up4).
    assert (E4 : pre = ((((m ++ a1) ++ a2) ++ a3) ++ a4) ++ b4) by (rewrite E3, Eq4, <- ?app_assoc; reflexivity).
    destruct (To _ _ _ E4 Hu4) as (_ & Up5 & _). destruct (To _ _ _ E3 Hu3) as ((_ & _ & _ & Sc) & _ & (more & Pf)).
    assert (Hk' : (k < length (written (nt_cli (after (((m ++ a1) ++ a2) ++ a3))) (tm_cli u2)))%nat) by (apply nth_error_Some; rewrite Hf; discriminate).
    rewrite Sc3 in Up4. apply (Fin k f); [lia| |right; exact Hb]. rewrite Pf, Sc, Sc3. rewrite nth_error_app1 by exact Hk'. exact Hf.
  - assert (Eu : tm_up u = 1%nat) by lia. rewrite Eu in Dn1.
    destruct (wait_up _ b1 (L + D) i u1 E1 ltac:(lia) ltac:(lia) Hu1) as (a2 & b2 & u2 & Eq2 & _ & Hu2 & _ & Up2).
    assert (E2 : pre = ((m ++ a1) ++ a2) ++ b2) by (rewrite E1, Eq2, <- ?app_assoc; reflexivity).
    destruct (To _ _ _ E2 Hu2) as (_ & Up3 & _). specialize (W1 ltac:(lia)).
    destruct (nth_error (written (nt_cli (after pre)) (tm_cli t)) 1) as [f|] eqn:Ef; [|apply nth_error_None in Ef; lia].
    apply (Fin 1%nat f); [lia|exact Ef|left; lia].
Qed.

(** a terminal that has sent its registration is online after four crossings of the network and a look *)
Lemma soon p q i t : pre = p ++ q -> nt_terms (after p) !! i = Some t -> tm_at t = PSent ->
  time (after p) + 4 * D + S < time (after pre) -> exists t', nt_terms (after pre) !! i = Some t' /\ tm_at t' = POnline.
Proof using Ho Hd0 HT Hev Hpre.
  intros E Hi Ha Hlt. pose proof HT as (D0 & S0 & P0 & _). set (T := time (after p)) in *.
  destruct (part _ _ E) as (I & _). destruct (lengths e _ _ i t I Hi) as (_ & _ & _ & _ & W0 & _). specialize (W0 Ha).
  destruct (wait_up p q T i t E ltac:(lia) ltac:(lia) Hi) as (a1 & b1 & t1 & Q1 & T1 & H1 & _ & U1).
  assert (E1 : pre = (p ++ a1) ++ b1) by (rewrite E, Q1, <- ?app_assoc; reflexivity).
  destruct (wait_down _ b1 (T + D) i t1 E1 ltac:(lia) ltac:(lia) H1) as (a2 & b2 & t2 & Q2 & T2 & H2 & _ & U2).
  assert (E2 : pre = ((p ++ a1) ++ a2) ++ b2) by (rewrite E1, Q2, <- ?app_assoc; reflexivity).
  destruct (part _ _ E2) as (I2 & _). destruct (lengths e _ _ i t2 I2 H2) as (_ & _ & W2 & _). specialize (W2 ltac:(lia)).
  destruct (wait_up _ b2 (T + D + D) i t2 E2 ltac:(lia) ltac:(lia) H2) as (a3 & b3 & t3 & Q3 & T3 & H3 & _ & U3).
  assert (E3 : pre = (((p ++ a1) ++ a2) ++ a3) ++ b3) by (rewrite E2, Q3, <- ?app_assoc; reflexivity).
  destruct (wait_down _ b3 (T + D + D + D) i t3 E3 ltac:(lia) ltac:(lia) H3) as (a4 & b4 & t4 & Q4 & T4 & H4 & _ & U4).
  assert (E4 : pre = ((((p ++ a1) ++ a2) ++ a3) ++ a4) ++ b4) by (rewrite E3, Q4, <- ?app_assoc; reflexivity).
  destruct (wait_look _ b4 (T + D + D + D + D) i t4 E4 ltac:(lia) ltac:(lia) H4 ltac:(lia)) as (a5 & b5 & t5 & Q5 & T5 & H5 & _ & A5).
  destruct (later (((((p ++ a1) ++ a2) ++ a3) ++ a4) ++ a5) b5 [] i t5 ltac:(rewrite E4, Q5, app_nil_r, <- ?app_assoc; reflexivity) H5) as (t6 & H6 & _ & _ & _ & A6 & _).
  exists t6. rewrite E4, Q5, app_assoc. auto.
Qed.
(** more than [D] after it is made a report is known to the server *)
Lemma arrived p q i t : pre = p ++ q -> nt_terms n0 !! i = Some t -> time (after p) + D < time (after pre) ->
  exists ws, track (nt_srv (after pre)) (number (tm_conf t)) ws /\ prefix (gens p i) ws /\ prefix ws (gens pre i).
Proof using Ho Hd0 HT Hev Hpre.
  intros E Hi Hlt. pose proof HT as (D0 & S0 & P0 & _ & R & _).
  destruct (later [] p q i t E Hi) as (t1 & H1 & (Sc & _) & _). cbn [app] in H1.
  destruct (later p q [] i t1 ltac:(rewrite app_nil_r; exact E) H1) as (t3 & H3 & (S3 & _ & _ & S3c) & _ & _ & _ & P3 & _). rewrite <- E in H3, P3.
  destruct (part p q E) as (Ip & _). destruct (part pre [] ltac:(rewrite app_nil_r; reflexivity)) as (Ik & _).
  assert (Easy : gens p i = [] -> exists ws, track (nt_srv (after pre)) (number (tm_conf t)) ws /\ prefix (gens p i) ws /\ prefix ws (gens pre i)).
  { intros Eg. destruct (inv_says _ _ _ i t3 Ik H3) as (_ & _ & _ & (j & T) & _). rewrite S3, Sc in T. eexists. split; [exact T|].
    rewrite Eg. split; [apply prefix_nil|]. eexists. symmetry. apply firstn_skipn. }
  destruct Ip as (_ & _ & I). destruct (I _ _ H1) as (_ & _ & _ & x & xc & os & oc & _ & X2 & _ & X4 & St). cbn beta in St.
  pose proof (written_of _ _ _ _ X2 X4) as Wc. cbn [cn_out] in Wc.
  assert (U3 : (length (written (nt_cli (after p)) (tm_cli t1)) <= tm_up t3)%nat).
  { refine (proj1 (R p q rest i t1 t3 _ H1 _ _)); [rewrite Hev, E, <- ?app_assoc; reflexivity|rewrite <- E; exact H3|rewrite <- E; exact Hlt]. }
  rewrite Wc in U3. remember (gens p i) as g eqn:Eg.
  destruct St as [| | | | | |f1 f2 f3 f4 d its tr rs dc a u w O S4 Hc Hd Hp' Hv Hst Ha Ht Hrs Hu Hut Hwu T]; try (exact (Easy eq_refl)).
  destruct (decide (its = [])) as [->|Hne]; [exact (Easy eq_refl)|]. clear Easy.
  pose proof (Forall2_length _ _ _ Ht) as HL. cbn [length] in U3.
  destruct Ik as (_ & _ & Ik). destruct (Ik _ _ H3) as (_ & _ & _ & y & yc & os3 & oc3 & _ & Y2 & _ & Y4 & St3). cbn beta in St3.
  pose proof (written_of _ _ _ _ Y2 Y4) as Wc3. cbn [cn_out] in Wc3. rewrite S3c in Wc3. rewrite Wc, Wc3 in P3. destruct P3 as (more & P3).
  assert (Hlen : (0 < length tr)%nat) by (destruct its; [congruence|cbn in HL; lia]).
  remember (gens pre i) as g3 eqn:Eg3. remember (tm_up t3) as up3 eqn:Eup.
  destruct St3 as [| | | | | |f1' f2' f3' f4' d' its' tr' rs' dc' a' u' w' O' S4' Hc' Hd' Hp'' Hv' Hst' Ha' Ht' Hrs' Hu' Hut' Hwu' T']; try (cbn in P3; lia).
  cbn in P3. injection P3 as _ _ P3. rewrite S3, Sc in T'. eexists. split; [exact T'|].
  rewrite S3, Sc. assert (Hn : (length tr <= u')%nat) by lia.
  assert (Eq : geos (number (tm_conf t)) (firstn (length tr) its') = geos (number (tm_conf t)) its).
  { symmetry. eapply (tells_geos e); [exact Ht|]. pose proof (Forall2_take _ _ _ (length tr) Ht') as F.
    rewrite P3, take_app in F. exact F. }
  rewrite <- Eq. split.
  - exists (geos (number (tm_conf t)) (skipn (length tr) (firstn u' its'))). rewrite <- geos_app.
    replace (firstn (length tr) its') with (firstn (length tr) (firstn u' its')); [rewrite firstn_skipn; reflexivity|].
    rewrite firstn_firstn, Nat.min_l by lia. reflexivity.
  - exists (geos (number (tm_conf t)) (skipn u' its')). rewrite <- geos_app, firstn_skipn. reflexivity.
Qed.
End Prefix.

(** no check finds a terminal silent *)
Lemma always_punctual : 2 * D + S + P <= 60000 -> dated e ec other n0 evs -> all_punctual e ec other n0 evs.
Proof using Ho Hd0 HT.
  intros HB Hdt.
  assert (K : forall pre rest, evs = pre ++ rest -> all_punctual e ec other n0 pre).
  { induction pre as [|ev pre IH] using rev_ind; intros rest Hev; [exact Logic.I|]. rewrite <- app_assoc in Hev. cbn [app] in Hev.
    specialize (IH _ Hev). apply punctual_app. split; [exact IH|]. split; [|exact Logic.I].
    destruct ev; try exact Logic.I; cbn [punctual].
    - exact (Hdt _ _ _ _ Hev).
    - intros t d Hi Hd. exact (never_silent pre (NTick i :: rest) Hev IH i t d HB Hi Hd). }
  apply (K evs []). rewrite app_nil_r. reflexivity.
Qed.
End Timed.
