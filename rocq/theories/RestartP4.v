(** Starting the simulator again leaves the server's devices and tracks alone *)
From Coq Require Import ZArith.
From stdpp Require Import gmap.
From Flocq Require Import IEEE754.Bits.
From Verif Require Import Base HexM TimeM HashM HeaderM ParamsM GeoM MsgM PacketM FrameM FloatM ProgM ProgP RingM SpecRing RingP
  StateM ProcM ServerM ClientM DatagenM NetM SpecState SpecCodec SpecSim SpecNet RestartM SpecRestart StateP ServerP HandshakeP CmdP DatagenP
  FleetP FleetP2 FleetP3 FleetP4 RestartP RestartP2 RestartP3.
Local Open Scope N_scope.

(** devices and tracks are the same *)
Definition persists (s s' : st) : Prop :=
  forall q, devAt s' q = devAt s q /\ devWithPlate s' q = devWithPlate s q /\ ringOf s' q = ringOf s q.
Lemma persists_refl s : persists s s.
Proof. intros q. auto. Qed.
Lemma persists_trans s s1 s2 : persists s s1 -> persists s1 s2 -> persists s s2.
Proof. intros H1 H2 q. destruct (H1 q) as (A & B & C). destruct (H2 q) as (A' & B' & C'). rewrite A', B', C'. auto. Qed.

Lemma hang_up e s sl x : st_sess s !! sl = Some x -> hangUp e s sl = closed sl x s.
Proof.
  intros H. unfold hangUp. cbn [serveLoop]. rewrite run_bindR.
  assert (E : run (serveOne e sl (Err ErrEOF) None) s = (Ok false, s)).
  { unfold serveOne. rewrite run_bind. unfold readSess. cbn [run]. rewrite H. reflexivity. }
  rewrite E. cbn [fst snd]. rewrite run_bind, (run_remove sl x s H). reflexivity.
Qed.
Lemma hang_ups e ends : forall s, consistent s -> Forall (fun sl => is_Some (st_sess s !! sl)) ends ->
  let s' := fold_left (hangUp e) ends s in
  consistent s' /\ persists s s' /\ (forall c, st_conns s !! c = None -> st_conns s' !! c = None).
Proof.
  induction ends as [|sl ends IH]; intros s C F; cbn [fold_left].
  - split; [exact C|]. split; [apply persists_refl|auto].
  - apply Forall_cons_iff in F as ((x & Hx) & F). rewrite (hang_up e s sl x Hx).
    destruct (IH (closed sl x s)) as (C' & P & N); [apply closed_ok; exact C|exact F|].
    split; [exact C'|]. split; [eapply persists_trans; [|exact P]; intros q; auto|].
    intros c Hc. apply N. cbn. rewrite lookup_alter_None. exact Hc.
Qed.

(** * Keepalive checks between the two processes *)
Lemma tick_at s t ph : consistent s ->
  let s' := tickAt s (t, ph) in
  consistent s' /\ st_clock s' = t
  /\ (forall q, q <> ph -> devAt s' q = devAt s q /\ ringOf s' q = ringOf s q)
  /\ (forall c, absent s c -> absent s' c)
  /\ (forall c d, devAt s (number c) = Some d -> d_plate d = sm_plate c ->
       (absent s' c /\ number c = ph /\ (d_last d + d_keep d < t)%Z /\ d_status d = Offline)
       \/ (devAt s' (number c) = Some d /\ ~ (number c = ph /\ (d_last d + d_keep d < t)%Z))
       \/ (devAt s' (number c) = Some (with_status d Offline) /\ number c = ph /\ (d_last d + d_keep d < t)%Z /\ d_status d <> Offline))
  /\ (forall c, st_conns s !! c = None -> st_conns s' !! c = None)
  /\ (forall l, is_Some (st_sess s !! l) -> is_Some (st_sess s' !! l)).
Proof.
  intros C. cbn zeta. unfold tickAt. cbn [fst snd]. set (s0 := set_clock t s). assert (C0 : consistent s0) by (apply consistent_clock; exact C).
  assert (Same : consistent s0 /\ st_clock s0 = t
    /\ (forall q, q <> ph -> devAt s0 q = devAt s q /\ ringOf s0 q = ringOf s q) /\ (forall c, absent s c -> absent s0 c)
    /\ (forall c, st_conns s !! c = None -> st_conns s0 !! c = None) /\ (forall l, is_Some (st_sess s !! l) -> is_Some (st_sess s0 !! l))).
  { split; [exact C0|]. split; [reflexivity|]. split; [auto|]. split; [auto|]. split; auto. }
  case_bool_decide as H.
  2:{ destruct Same as (S1 & S2 & S3 & S4 & S5 & S6). do 4 (split; [assumption|]). split; [|split; assumption].
      intros c d Hd Hp. right. left. split; [exact Hd|]. intros (E & _). apply H.
      apply (cs_jobs2 _ C0). subst ph. unfold devAt in Hd. change (st_byPhone s0) with (st_byPhone s).
      destruct (st_byPhone s !! number c) as [l|]; [eauto|discriminate Hd]. }
  apply (cs_jobs2 _ C0) in H as (l & Hl). destruct (cs_phone _ C0 _ _ Hl) as (dv & Hdv & Hph & Hpl).
  assert (Dv : devAt s0 ph = Some dv) by (unfold devAt; rewrite Hl; exact Hdv).
  assert (Dp : devWithPlate s (d_plate dv) = Some dv) by (change (devWithPlate s0 (d_plate dv) = Some dv); unfold devWithPlate; rewrite Hpl; exact Hdv).
  assert (Dv' : devAt s ph = Some dv) by exact Dv. clear Hph.
  destruct (Z.lt_ge_cases (d_last dv + d_keep dv) (st_clock s0)) as [Late|Early].
  2:{ rewrite (tick_fresh ph s0 dv C0 Dv Early). cbn [snd].
      destruct Same as (S1 & S2 & S3 & S4 & S5 & S6). do 4 (split; [assumption|]). split; [|split; assumption].
      intros c d Hd Hp. right. left. split; [exact Hd|]. intros (E & Lt). subst ph.
      rewrite Hd in Dv'. injection Dv' as <-. change (st_clock s0) with t in Early. lia. }
  change (st_clock s0) with t in Late.
  assert (Pn : forall c, absent s c -> number c <> ph /\ sm_plate c <> d_plate dv).
  { intros c (A1 & A2). split; intros E; [|rewrite E in A2; congruence].
    subst ph. congruence. }
  destruct (N.eqb_spec (d_status dv) Offline) as [Of|Of].
  - destruct (tick_cleared ph s0 dv C0 Dv Of Late) as (s' & E & K & D' & P' & R' & N1 & N2 & (O1 & O2) & R2 & J & Ss & _ & _ & Ck).
    rewrite E. cbn [snd]. split; [exact K|]. split; [exact Ck|]. split; [intros q Hq; split; [exact (O1 q Hq)|exact (R2 q Hq)]|].
    split; [intros c A; destruct (Pn c A) as (P1 & P2); split; [rewrite (O1 _ P1); apply A|rewrite (O2 _ P2); apply A]|].
    split; [|split; [|rewrite Ss; auto]].
    + intros c d Hd Hp. destruct (decide (number c = ph)) as [Ec|Ec].
      * left. subst ph. rewrite Hd in Dv'. injection Dv' as <-.
        split; [split; [exact D'|rewrite <- Hp; exact P']|auto].
      * right. left. split; [rewrite (O1 _ Ec); exact Hd|tauto].
    + intros c Hc. destruct (decide (c = d_conn dv)) as [->|Hn]; [|rewrite (N2 _ Hn); exact Hc].
      assert (X : run (checkKeepalive ph) s0 = run (checkKeepalive ph) s0) by reflexivity.
      rewrite E in X at 2. rewrite (run_keepalive ph s0 l dv C0 Hl Hdv) in X. injection X as X. rewrite <- X.
      unfold expired. destruct (Z.ltb_spec (d_keep dv + d_last dv) (st_clock s0)) as [_|Hge]; [|cbn in Hge; lia].
      rewrite Of, N.eqb_refl. unfold cleared. cbn. rewrite lookup_alter_None. exact Hc.
  - destruct (tick_offline ph s0 dv C0 Dv Of Late) as (s' & E & K & D' & P' & (O1 & O2) & J & (Q1 & Q2 & Q3 & Q4 & Q5 & Q6 & Q7 & Q8)).
    rewrite E. cbn [snd]. split; [exact K|]. split; [exact Q8|].
    split; [intros q Hq; split; [exact (O1 q Hq)|unfold ringOf; rewrite Q1, Q2; reflexivity]|].
    split; [intros c A; destruct (Pn c A) as (P1 & P2); split; [rewrite (O1 _ P1); apply A|rewrite (O2 _ P2); apply A]|].
    split; [|split; [rewrite Q7; auto|rewrite Q5; auto]].
    intros c d Hd Hp. destruct (decide (number c = ph)) as [Ec|Ec].
    + subst ph. rewrite Hd in Dv'. injection Dv' as <-.
      right. right. auto.
    + right. left. split; [rewrite (O1 _ Ec); exact Hd|tauto].
Qed.
Lemma ticks_at waits : forall s, consistent s ->
  let s' := fold_left tickAt waits s in
  consistent s'
  /\ (forall q, ~ In q (List.map snd waits) -> devAt s' q = devAt s q /\ ringOf s' q = ringOf s q)
  /\ (forall c, absent s c -> absent s' c)
  /\ (forall c d, devAt s (number c) = Some d -> d_plate d = sm_plate c ->
       absent s' c \/ exists d', devAt s' (number c) = Some d' /\ d_plate d' = sm_plate c /\ d_last d' = d_last d /\ d_keep d' = d_keep d
         /\ (d_status d = Offline -> d_status d' = Offline))
  /\ (forall c, st_conns s !! c = None -> st_conns s' !! c = None).
Proof.
  induction waits as [|(t & ph) ws IH]; intros s C; cbn [fold_left].
  - split; [exact C|]. split; [auto|]. split; [auto|]. split; [|auto].
    intros c d H1 H2. right. exists d. auto.
  - destruct (tick_at s t ph C) as (C1 & _ & T2 & T3 & T4 & T5 & _). destruct (IH _ C1) as (C2 & U2 & U3 & U4 & U5).
    split; [exact C2|]. split; [|split; [|split; [|auto]]].
    + intros q Hq. cbn [List.map snd] in Hq. destruct (U2 q) as (E1 & E2); [intros X; apply Hq; right; exact X|].
      destruct (T2 q) as (E3 & E4); [intros ->; apply Hq; left; reflexivity|]. rewrite E1, E2. auto.
    + auto.
    + intros c d H1 H2. destruct (T4 c d H1 H2) as [(A & _)|[(D1 & _)|(D1 & _)]]; [left; auto|exact (U4 c d D1 H2)|].
      destruct (U4 c _ D1 H2) as [A|(d2 & F1 & F2 & F3 & F4 & F5)]; [auto|]. right. exists d2. auto 6.
Qed.
Lemma overdue_gone s waits c d : consistent s -> devAt s (number c) = Some d -> d_plate d = sm_plate c -> overdue d waits ->
  absent (fold_left tickAt waits s) c.
Proof.
  intros C Hd Hp (w1 & t1 & w2 & t2 & w3 & -> & L1 & L2).
  assert (Ph : d_phone d = number c) by (destruct (devAt_Some s C _ d Hd) as (l & _ & _ & E & _); exact E). rewrite Ph.
  rewrite fold_left_app. cbn [fold_left]. rewrite fold_left_app. cbn [fold_left].
  destruct (ticks_at w1 s C) as (C1 & _ & _ & T1 & _). set (s1 := fold_left tickAt w1 s) in *.
  destruct (tick_at s1 t1 (number c) C1) as (C2 & _ & _ & A2 & T2 & _). set (s2 := tickAt s1 (t1, number c)) in *.
  destruct (ticks_at w2 s2 C2) as (C3 & _ & A3 & T3 & _). set (s3 := fold_left tickAt w2 s2) in *.
  destruct (tick_at s3 t2 (number c) C3) as (C4 & _ & _ & A4 & T4 & _). set (s4 := tickAt s3 (t2, number c)) in *.
  destruct (ticks_at w3 s4 C4) as (_ & _ & A5 & _). apply A5.
  destruct (T1 c d Hd Hp) as [A|(d1 & D1 & D2 & D3 & D4 & _)]; [auto|].
  assert (K : absent s2 c \/ exists d2, devAt s2 (number c) = Some d2 /\ d_plate d2 = sm_plate c /\ d_last d2 = d_last d /\ d_keep d2 = d_keep d
      /\ d_status d2 = Offline).
  { destruct (T2 c d1 D1 D2) as [(A & _)|[(_ & X)|(E1 & _)]]; [auto|exfalso; apply X; split; [reflexivity|lia]|]. right. eexists. split; [exact E1|]. auto. }
  destruct K as [A|(d2 & E1 & E2 & E3 & E4 & E5)]; [auto|].
  destruct (T3 c d2 E1 E2) as [A|(d3 & F1 & F2 & F3 & F4 & F5)]; [auto|]. specialize (F5 E5).
  destruct (T4 c d3 F1 F2) as [(A & _)|[(_ & X)|(_ & _ & _ & X)]]; [exact A|exfalso; apply X; split; [reflexivity|lia]|contradiction].
Qed.

(** ... and nothing else does away with it *)
Lemma gone_overdue waits : forall s c d, consistent s -> devAt s (number c) = Some d -> d_plate d = sm_plate c ->
  absent (fold_left tickAt waits s) c ->
  (exists w1 t w2, waits = w1 ++ (t, d_phone d) :: w2 /\ (d_last d + d_keep d < t)%Z) /\ (d_status d <> Offline -> overdue d waits).
Proof.
  induction waits as [|(t & ph) ws IH]; intros s c d C Hd Hp A; [destruct A as (A & _); cbn [fold_left] in A; congruence|].
  assert (Ph : d_phone d = number c) by (destruct (devAt_Some s C _ d Hd) as (l & _ & _ & E & _); exact E).
  cbn [fold_left] in A. destruct (tick_at s t ph C) as (C1 & _ & _ & _ & T & _). destruct (T c d Hd Hp) as [(_ & E & Lt & Of)|[(D1 & _)|(D1 & E & Lt & Of)]].
  - split; [|contradiction]. exists [], t, ws. rewrite Ph, E. auto.
  - destruct (IH _ c d C1 D1 Hp A) as ((w1 & t1 & w2 & -> & L) & O). split; [exists ((t, ph) :: w1), t1, w2; auto|].
    intros X. destruct (O X) as (v1 & u1 & v2 & u2 & v3 & -> & L1 & L2). exists ((t, ph) :: v1), u1, v2, u2, v3. auto.
  - destruct (IH _ c _ C1 D1 Hp A) as ((w1 & t1 & w2 & Ew & L) & _). cbn in Ew, L. split; [exists [], t, ws; rewrite Ph, E; auto|].
    intros _. exists [], t, w1, t1, w2. rewrite Ew, Ph, E. auto.
Qed.

(** a caller's sessions, each on a connection it has *)
Definition own_conns (s : st) : Prop := forall l x, st_sess s !! l = Some x -> is_Some (st_conns s !! ss_conn x).
Definition grows (s s' : st) : Prop :=
  (forall l x, st_sess s !! l = Some x -> st_sess s' !! l = Some x) /\ (forall c k, st_conns s !! c = Some k -> st_conns s' !! c = Some k).
Lemma dial_ok s c addr : own_conns s -> st_conns s !! c = None ->
  let l := fresh (dom (st_sess s)) in
  let s1 := set_sess (<[l := mkSession addr c 0]>) (set_conns (<[c := mkConn true []]>) s) in
  run (dial c addr) (set_conns (<[c := mkConn true []]>) s) = (Ok l, s1) /\ own_conns s1 /\ st_sess s !! l = None.
Proof.
  intros C Hc. cbn zeta. set (l := fresh (dom (st_sess s))).
  split; [reflexivity|]. split; [|apply not_elem_of_dom; apply is_fresh].
  intros l' x. cbn. destruct (decide (l' = l)) as [->|Hn].
  - rewrite lookup_insert. intros [= <-]. cbn. rewrite lookup_insert. eauto.
  - rewrite lookup_insert_ne by congruence. intros H. destruct (C l' x H) as (k & Hk).
    destruct (decide (ss_conn x = c)) as [Hd|Hd]; [rewrite Hd, Hc in Hk; discriminate Hk|]. rewrite lookup_insert_ne by congruence. eauto.
Qed.
Lemma joined_ok news : forall s sc, consistent s -> own_conns sc ->
  Forall (fun w => st_conns s !! nw_conn w = None) news -> Forall (fun w => st_conns sc !! nw_cconn w = None) news ->
  base.NoDup (List.map nw_conn news) -> base.NoDup (List.map nw_cconn news) ->
  let n := joined s sc news in
  consistent (nt_srv n) /\ persists s (nt_srv n) /\ grows s (nt_srv n) /\ grows sc (nt_cli n)
  /\ length (nt_terms n) = length news
  /\ forall i w, news !! i = Some w -> exists sl slc,
     nt_terms n !! i = Some (mkTerm (nw_conf w) (nw_geo w) sl slc PIdle 0 0 true true)
     /\ st_sess (nt_srv n) !! sl = Some (mkSession (nw_addr w) (nw_conn w) 0) /\ st_conns (nt_srv n) !! nw_conn w = Some (mkConn true [])
     /\ st_sess (nt_cli n) !! slc = Some (mkSession (nw_caddr w) (nw_cconn w) 0) /\ st_conns (nt_cli n) !! nw_cconn w = Some (mkConn true []).
Proof.
  induction news as [|w ws IH]; intros s sc C Cc F1 F2 D1 D2.
  - cbn. split; [exact C|]. split; [apply persists_refl|]. split; [split; auto|]. split; [split; auto|]. split; [reflexivity|].
    intros i w Hi. rewrite lookup_nil in Hi. discriminate Hi.
  - apply Forall_cons_iff in F1 as (N1 & F1). apply Forall_cons_iff in F2 as (N2 & F2).
    cbn [List.map] in D1, D2. apply list.NoDup_cons in D1 as (D1' & D1). apply list.NoDup_cons in D2 as (D2' & D2).
    cbn [joined]. destruct (accept_ok s (nw_conn w) (nw_addr w) C N1) as (Ra & Ca & Hf). rewrite Ra. clear Ra.
    destruct (dial_ok sc (nw_cconn w) (nw_caddr w) Cc N2) as (Rd & Cd & Hg). rewrite Rd. clear Rd. cbn zeta.
    set (l := fresh (dom (st_sess s))) in *. set (lc := fresh (dom (st_sess sc))) in *.
    set (s1 := set_byID _ _) in *. set (sc1 := set_sess (<[lc := _]>) _) in *.
    assert (G1 : grows s s1).
    { split.
      - intros l' x H. cbn. rewrite lookup_insert_ne; [exact H|]. intros <-. congruence.
      - intros c k H. cbn. rewrite lookup_insert_ne; [exact H|]. intros <-. congruence. }
    assert (G2 : grows sc sc1).
    { split.
      - intros l' x H. cbn. rewrite lookup_insert_ne; [exact H|]. intros <-. congruence.
      - intros c k H. cbn. rewrite lookup_insert_ne; [exact H|]. intros <-. congruence. }
    destruct (IH s1 sc1 Ca Cd) as (C' & P & (Ga & Gb) & (Gc & Gd) & L & T); [..|exact D1|exact D2|].
    + apply List.Forall_forall. intros w' Hw'. cbn. rewrite lookup_insert_ne; [apply (proj1 (List.Forall_forall _ _) F1 w' Hw')|].
      intros E. apply D1'. rewrite E. apply elem_of_list_In, in_map. exact Hw'.
    + apply List.Forall_forall. intros w' Hw'. cbn. rewrite lookup_insert_ne; [apply (proj1 (List.Forall_forall _ _) F2 w' Hw')|].
      intros E. apply D2'. rewrite E. apply elem_of_list_In, in_map. exact Hw'.
    + cbn [nt_srv nt_cli nt_terms]. split; [exact C'|]. split; [eapply persists_trans; [|exact P]; intros q; auto|].
      split; [split; intros; [apply Ga|apply Gb]; apply G1; assumption|]. split; [split; intros; [apply Gc|apply Gd]; apply G2; assumption|].
      split; [cbn; rewrite L; reflexivity|]. intros [|i] w' Hw'; [|apply T; exact Hw'].
      injection Hw' as <-. exists l, lc. split; [reflexivity|]. split; [apply Ga; cbn; apply lookup_insert|].
      split; [apply Gb; cbn; apply lookup_insert|]. split; [apply Gc; cbn; apply lookup_insert|apply Gd; cbn; apply lookup_insert].
Qed.

Lemma restart_ok e B n G ends waits now news : let o := e_o e in rinv o B n G -> restartable o n ends news ->
  let n' := restart e ends waits now news n in
  redialled o n'
  /\ (forall q, ~ In q (List.map snd waits) -> devAt (nt_srv n') q = devAt (nt_srv n) q /\ ringOf (nt_srv n') q = ringOf (nt_srv n) q)
  /\ (forall c, absent (nt_srv n) c -> absent (nt_srv n') c)
  /\ (forall c d, devAt (nt_srv n) (number c) = Some d -> d_plate d = sm_plate c -> overdue d waits -> absent (nt_srv n') c)
  /\ (forall c d, devAt (nt_srv n) (number c) = Some d -> d_plate d = sm_plate c -> d_status d <> Offline -> ~ overdue d waits -> leftover (nt_srv n') c)
  /\ Forall2 (fun t t' => number (tm_conf t') = number (tm_conf t) /\ sm_plate (tm_conf t') = sm_plate (tm_conf t)) (nt_terms n) (nt_terms n')
  /\ List.map tm_conf (nt_terms n') = List.map nw_conf news.
Proof.
  intros o I (F & Ab & Cn & D1 & D2 & En) n'. pose proof I as (C & A & _).
  destruct (hang_ups e ends (nt_srv n) C En) as (C1 & P1 & N1).
  set (s1 := fold_left (hangUp e) ends (nt_srv n)) in *.
  destruct (ticks_at waits s1 C1) as (Cw & W1 & W2 & W3 & W4).
  destruct (joined_ok news (fold_left tickAt waits s1) (init now) Cw) as (C2 & P2 & _ & _ & L & T); [..|exact D1|exact D2|].
  { intros l x H. cbn in H. rewrite lookup_empty in H. discriminate H. }
  { eapply List.Forall_impl; [|exact Cn]. intros w Hw. apply W4, N1, Hw. }
  { apply List.Forall_forall. intros w _. cbn. apply lookup_empty. }
  change (joined (fold_left tickAt waits s1) (init now) news) with n' in C2, P2, L, T.
  assert (Ab1 : forall c, absent (nt_srv n) c -> absent (nt_srv n') c).
  { intros c (U1 & U2). destruct (W2 c) as (V1 & V2); [split; [rewrite (proj1 (P1 _)); exact U1|rewrite (proj1 (proj2 (P1 _))); exact U2]|].
    split; [rewrite (proj1 (P2 _)); exact V1|rewrite (proj1 (proj2 (P2 _))); exact V2]. }
  assert (Lf1 : forall c, leftover (nt_srv n) c -> absent (nt_srv n') c \/ leftover (nt_srv n') c).
  { intros c (d & U1 & U2). destruct (W3 c d) as [(V1 & V2)|(d' & V1 & V2 & _)]; [rewrite (proj1 (P1 _)); exact U1|exact U2|left|right].
    - split; [rewrite (proj1 (P2 _)); exact V1|rewrite (proj1 (proj2 (P2 _))); exact V2].
    - exists d'. rewrite (proj1 (P2 _)). auto. }
  assert (Old : forall i t', nt_terms n' !! i = Some t' -> exists t w sl slc, nt_terms n !! i = Some t /\ news !! i = Some w /\ same_vehicle t w
     /\ t' = mkTerm (nw_conf w) (nw_geo w) sl slc PIdle 0 0 true true
     /\ st_sess (nt_srv n') !! sl = Some (mkSession (nw_addr w) (nw_conn w) 0) /\ st_conns (nt_srv n') !! nw_conn w = Some (mkConn true [])
     /\ st_sess (nt_cli n') !! slc = Some (mkSession (nw_caddr w) (nw_cconn w) 0) /\ st_conns (nt_cli n') !! nw_cconn w = Some (mkConn true [])).
  { intros i t' Ht'. assert (Hl : (i < length news)%nat) by (rewrite <- L; apply lookup_lt_Some in Ht'; exact Ht').
    apply lookup_lt_is_Some_2 in Hl as (w & Hw). destruct (T i w Hw) as (sl & slc & T1 & T2). rewrite Ht' in T1. injection T1 as ->.
    destruct (Forall2_lookup_r _ _ _ _ _ F Hw) as (t & Ht & Hv). exists t, w, sl, slc. auto. }
  split; [|split; [|split; [exact Ab1|split; [|split; [|split]]]]].
  - split; [exact C2|]. split.
    + intros i j t' u' Hij Ht' Hu'. destruct (Old _ _ Ht') as (t & w & sl & slc & O1 & O2 & (V1 & V2) & -> & X1 & X2 & X3 & X4).
      destruct (Old _ _ Hu') as (u & v & sm & smc & O1' & O2' & (V1' & V2') & -> & Y1 & Y2 & Y3 & Y4).
      cbn [tm_conf tm_srv tm_cli]. destruct (A _ _ _ _ Hij O1 O1') as (A1 & A2 & _). rewrite V1, V2, V1', V2'.
      split; [exact A1|]. split; [exact A2|]. split.
      * intros <-. rewrite X1 in Y1. injection Y1 as _ Ec. apply Hij.
        eapply (NoDup_lookup (List.map nw_conn news) i j); [exact D1| |].
        -- change (List.map nw_conn news) with (nw_conn <$> news). rewrite list_lookup_fmap, O2. reflexivity.
        -- change (List.map nw_conn news) with (nw_conn <$> news). rewrite list_lookup_fmap, O2'. cbn. rewrite Ec. reflexivity.
      * intros x y Hx Hy. rewrite X3 in Hx. injection Hx as <-. rewrite Y3 in Hy. injection Hy as <-. cbn. intros Ec. apply Hij.
        eapply (NoDup_lookup (List.map nw_cconn news) i j); [exact D2| |].
        -- change (List.map nw_cconn news) with (nw_cconn <$> news). rewrite list_lookup_fmap, O2. reflexivity.
        -- change (List.map nw_cconn news) with (nw_cconn <$> news). rewrite list_lookup_fmap, O2'. cbn. rewrite Ec. reflexivity.
    + intros i t' Ht'. destruct (Old _ _ Ht') as (t & w & sl & slc & O1 & O2 & (V1 & V2) & -> & X1 & X2 & X3 & X4).
      cbn [tm_conf tm_srv tm_cli tm_at tm_up tm_down tm_served tm_runs].
      split; [apply (proj1 (List.Forall_forall _ _) Ab w); apply elem_of_list_In; eapply elem_of_list_lookup_2; exact O2|].
      do 5 (split; [reflexivity|]). split; [eexists; split; [exact X1|exact X2]|]. split; [eexists; split; [exact X3|exact X4]|].
      assert (Nm : forall s, absent s (tm_conf t) -> absent s (nw_conf w)) by (intros s0; unfold absent; rewrite V1, V2; auto).
      assert (Nl : forall s, leftover s (tm_conf t) -> leftover s (nw_conf w)) by (intros s0; unfold leftover; rewrite V1, V2; auto).
      destruct (rinv_says e B n G i t I O1) as (_ & _ & _ & [U|U] & _); [left; auto|].
      destruct (Lf1 _ U); [left|right]; auto.
  - intros q Hq. destruct (W1 q Hq) as (E1 & E2). destruct (P2 q) as (E3 & _ & E4). destruct (P1 q) as (E5 & _ & E6).
    rewrite E3, E4, E1, E2. auto.
  - intros c d Hd Hp Ov. destruct (overdue_gone s1 waits c d C1) as (V1 & V2); [rewrite (proj1 (P1 _)); exact Hd|exact Hp|exact Ov|].
    split; [rewrite (proj1 (P2 _)); exact V1|rewrite (proj1 (proj2 (P2 _))); exact V2].
  - intros c d Hd Hp St Ov. assert (Hd1 : devAt s1 (number c) = Some d) by (rewrite (proj1 (P1 _)); exact Hd).
    destruct (W3 c d Hd1 Hp) as [A0|(d' & V1 & V2 & _)]; [|exists d'; rewrite (proj1 (P2 _)); auto].
    exfalso. apply Ov. apply (gone_overdue waits s1 c d C1 Hd1 Hp A0). exact St.
  - apply Forall2_same_length_lookup. split; [rewrite L; apply (Forall2_length _ _ _ F)|].
    intros i t t' Ht Ht'. destruct (Old _ _ Ht') as (t0 & w & sl & slc & O1 & _ & (V1 & V2) & -> & _). rewrite Ht in O1. injection O1 as <-. auto.
  - apply list_eq. intros i. change (List.map tm_conf (nt_terms n')) with (tm_conf <$> nt_terms n'). change (List.map nw_conf news) with (nw_conf <$> news).
    rewrite !list_lookup_fmap. destruct (nt_terms n' !! i) as [t'|] eqn:Ht'.
    + destruct (Old _ _ Ht') as (t0 & w & sl & slc & _ & O2 & _ & -> & _). rewrite O2. reflexivity.
    + apply lookup_ge_None in Ht'. rewrite L in Ht'. apply lookup_ge_None in Ht'. rewrite Ht'. reflexivity.
Qed.

(** * A simulator that is started again *)
Lemma dialled_redialled o n : dialled o n -> redialled o n
  /\ forall i t, nt_terms n !! i = Some t -> absent (nt_srv n) (tm_conf t) /\ track (nt_srv n) (number (tm_conf t)) [].
Proof.
  intros (C & A & I). split.
  - split; [exact C|]. split; [exact A|]. intros i t Hi. destruct (I _ _ Hi) as (B1 & B2 & B3 & B4 & B5 & B6 & B7 & B8 & B9 & B10 & B11).
    do 8 (split; [assumption|]). left. split; assumption.
  - intros i t Hi. destruct (I _ _ Hi) as (B1 & B2 & B3 & B4 & B5 & B6 & B7 & B8 & B9 & B10 & B11). split; [split; assumption|exact B11].
Qed.
Section Restart.
Context (e ec : env) (other : binary64 -> N).
Hypothesis Ho : e_o ec = e_o e.
Let o := e_o e.
Lemma restarted n evs ends waits now news : redialled o n -> all_punctual e ec other n evs ->
  let n1 := nruns e ec other n evs in restartable o n1 ends news ->
  let n2 := restart e ends waits now news n1 in
  redialled o n2
  /\ (forall q, ~ In q (List.map snd waits) -> devAt (nt_srv n2) q = devAt (nt_srv n1) q /\ ringOf (nt_srv n2) q = ringOf (nt_srv n1) q)
  /\ (forall c, absent (nt_srv n1) c -> absent (nt_srv n2) c)
  /\ (forall c d, devAt (nt_srv n1) (number c) = Some d -> d_plate d = sm_plate c -> overdue d waits -> absent (nt_srv n2) c)
  /\ (forall c d, devAt (nt_srv n1) (number c) = Some d -> d_plate d = sm_plate c -> d_status d <> Offline -> ~ overdue d waits -> leftover (nt_srv n2) c)
  /\ Forall2 (fun t t' => number (tm_conf t') = number (tm_conf t) /\ sm_plate (tm_conf t') = sm_plate (tm_conf t)) (nt_terms n1) (nt_terms n2)
  /\ List.map tm_conf (nt_terms n2) = List.map nw_conf news.
Proof using Ho.
  intros Hd P n1 R. destruct (all_tracks n (proj1 Hd)) as (G & HG).
  destruct (rrun_inv e ec other Ho (known n) evs n G (redialled_inv e n G Hd HG) P) as (I & _).
  exact (restart_ok e (known n) n1 _ ends waits now news I R).
Qed.
(** online when the simulator ended, started again before two late checks *)
Lemma refused n evs ends waits now news evs2 i t1 d1 : redialled o n -> all_punctual e ec other n evs ->
  let n1 := nruns e ec other n evs in restartable o n1 ends news ->
  let n2 := restart e ends waits now news n1 in all_punctual e ec other n2 evs2 ->
  let n3 := nruns e ec other n2 evs2 in
  nt_terms n1 !! i = Some t1 -> online n1 t1 -> devAt (nt_srv n1) (number (tm_conf t1)) = Some d1 -> ~ overdue d1 waits ->
  exists t3, nt_terms n3 !! i = Some t3 /\ number (tm_conf t3) = number (tm_conf t1) /\ sm_plate (tm_conf t3) = sm_plate (tm_conf t1)
    /\ tm_at t3 <> POnline /\ all_generated e ec other n2 i evs2 = []
    /\ (tm_at t3 <> PIdle -> exists d, devAt (nt_cli n3) (number (tm_conf t3)) = Some d /\ d_status d = Offline)
    /\ (tm_at t3 = PSent -> settled n3 t3 -> absent (nt_srv n3) (tm_conf t3)).
Proof using Ho.
  intros Hd P n1 R n2 P2 n3 Ht (_ & x & d & _ & Dv & _ & Dp & _ & _ & _ & Ds & _) Hd1 Ov. rewrite Dv in Hd1. injection Hd1 as <-.
  destruct (restarted n evs ends waits now news Hd P R) as (R1 & _ & _ & _ & Lf & F & _). fold n1 n2 in R1, Lf, F.
  pose proof (Lf (tm_conf t1) d Dv Dp Ds Ov) as L.
  destruct (Forall2_lookup_l _ _ _ _ _ F Ht) as (t2 & Ht2 & V1 & V2).
  assert (L2 : leftover (nt_srv n2) (tm_conf t2)) by (unfold leftover; rewrite V1, V2; exact L).
  destruct (some_track (nt_srv n2) (number (tm_conf t2)) (proj1 R1)) as (ws & Hw).
  destruct (again e ec other Ho n2 evs2 R1 P2) as (A & _). destruct (A i t2 ws Ht2 Hw) as (t3 & Ht3 & E1 & _ & _ & _ & _ & _ & _ & B).
  destruct (B L2) as (B1 & B2 & _ & B4 & B5). exists t3. split; [exact Ht3|]. rewrite E1. split; [exact V1|]. split; [exact V2|]. split; [exact B1|].
  split; [exact B2|]. split; [exact B4|exact B5].
Qed.
End Restart.
