(** The session registry, platform commands, location history after a new registration *)
From stdpp Require Import gmap.
From Verif Require Import Base HexM TimeM HashM HeaderM ParamsM GeoM MsgM PacketM FrameM ProgM ProgP RingM SpecRing RingP
  StateM ProcM ServerM SpecState SpecCodec StateP ProcP ServerP ParamsP EffectP ReplyP HandshakeP CmdP.
Local Open Scope N_scope.

(** * The registry (C61) *)
(** no connection is accepted from the address of a session that is still served *)
Fixpoint fresh_addrs (e : env) (w : world) (evs : list event) : Prop :=
  match evs with
  | [] => True
  | ev :: t =>
      match ev with
      | EAccept _ addr => forall l x, l ∈ w_live w -> st_sess (w_st w) !! l = Some x -> ss_id x <> addr
      | _ => True
      end /\ fresh_addrs e (step e w ev) t
  end.
Record reg_ok (w : world) : Prop := {
  ro_ok : world_ok w;
  ro_open : forall l x k, l ∈ w_live w -> st_sess (w_st w) !! l = Some x ->
    st_conns (w_st w) !! ss_conn x = Some k -> cn_open k = true -> st_byID (w_st w) !! ss_id x = Some l;
  ro_one : forall l l' x x', l ∈ w_live w -> l' ∈ w_live w -> st_sess (w_st w) !! l = Some x ->
    st_sess (w_st w) !! l' = Some x' -> ss_id x = ss_id x' -> l = l'
}.
Lemma sess_back s s' : (forall l, ss_id <$> st_sess s' !! l = ss_id <$> st_sess s !! l
              /\ ss_conn <$> st_sess s' !! l = ss_conn <$> st_sess s !! l) ->
  forall l x', st_sess s' !! l = Some x' -> exists x, st_sess s !! l = Some x /\ ss_id x' = ss_id x /\ ss_conn x' = ss_conn x.
Proof.
  intros H l x' Hx. destruct (H l) as (H1 & H2). rewrite Hx in H1, H2.
  destruct (st_sess s !! l) as [x|]; cbn in *; [|discriminate].
  injection H1 as H1. injection H2 as H2. eauto.
Qed.
(** a step that starts no session, opens no connection and keeps open sessions registered *)
Lemma reg_ok_mono w w' : reg_ok w -> world_ok w' ->
  (forall l, ss_id <$> st_sess (w_st w') !! l = ss_id <$> st_sess (w_st w) !! l
             /\ ss_conn <$> st_sess (w_st w') !! l = ss_conn <$> st_sess (w_st w) !! l) ->
  w_live w' ⊆ w_live w ->
  (forall l x k, l ∈ w_live w' -> st_sess (w_st w) !! l = Some x -> st_conns (w_st w') !! ss_conn x = Some k -> cn_open k = true ->
     (exists k0, st_conns (w_st w) !! ss_conn x = Some k0 /\ cn_open k0 = true)
     /\ (st_byID (w_st w) !! ss_id x = Some l -> st_byID (w_st w') !! ss_id x = Some l)) ->
  reg_ok w'.
Proof.
  intros [W Ho H1] W' Hs Hl Hk. split; [exact W'| |].
  - intros l x' k Hlv Hx' Hc Hop. destruct (sess_back _ _ Hs l x' Hx') as (x & Hx & Hi & Hcx).
    rewrite Hcx in Hc. rewrite Hi. destruct (Hk l x k Hlv Hx Hc Hop) as ((k0 & Hk0 & Hop0) & Hreg).
    apply Hreg. eapply Ho; eauto.
  - intros l l' x x' Hlv Hlv' Hx Hx' Hid.
    destruct (sess_back _ _ Hs l x Hx) as (y & Hy & Hi & _), (sess_back _ _ Hs l' x' Hx') as (y' & Hy' & Hi' & _).
    apply (H1 l l' y y'); auto. congruence.
Qed.
Lemma tick_conns ph s : consistent s -> forall c k, st_conns (snd (run (checkKeepalive ph) s)) !! c = Some k ->
  cn_open k = true -> st_conns s !! c = Some k.
Proof.
  intros C c k. destruct (st_byPhone s !! ph) as [l|] eqn:Hl.
  2:{ rewrite (tick_unknown ph s Hl). auto. }
  destruct (cs_phone s C _ _ Hl) as (d & Hd & _). rewrite (run_keepalive ph s l d C Hl Hd). cbn [snd].
  destruct (expired s d); [|auto]. destruct (d_status d =? Offline); [|auto].
  cbn. destruct (decide (c = d_conn d)) as [->|Hn].
  - rewrite lookup_alter. destruct (st_conns s !! d_conn d); [|discriminate]. intros [= <-]. discriminate.
  - rewrite lookup_alter_ne by congruence. auto.
Qed.
Lemma world_track s ph : consistent s -> exists ws, track s ph ws.
Proof.
  intros C. unfold track, ringOf. destruct (st_geo s !! ph) as [rl|] eqn:Eg; [|eauto].
  destruct (cs_geo _ C _ _ Eg) as (r & ws & Hr & Hh & _). rewrite Hr. eauto.
Qed.
Lemma api_kept e ph s : consistent s ->
  (forall w, exists c, cmd_kept c s (snd (run (apiGetParams e ph w) s)))
  /\ (forall bad ps w, exists c, cmd_kept c s (snd (run (apiPutParams e ph bad ps w) s))).
Proof.
  intros C. split.
  - intros w. rewrite run_apiGetParams. destruct (st_byPhone s !! ph) as [l|].
    + destruct (st_devs s !! l); [apply command_kept; exact C|exists None; apply cmd_kept_refl; exact C].
    + exists None. apply cmd_kept_refl. exact C.
  - intros bad ps w. rewrite run_apiPutParams. destruct (st_byPhone s !! ph) as [l|].
    + destruct (st_devs s !! l); [apply command_kept; exact C|exists None; apply cmd_kept_refl; exact C].
    + exists None. apply cmd_kept_refl. exact C.
Qed.

Lemma step_reg e w ev : reg_ok w ->
  match ev with
  | EAccept _ addr => forall l x, l ∈ w_live w -> st_sess (w_st w) !! l = Some x -> ss_id x <> addr
  | _ => True
  end -> reg_ok (step e w ev).
Proof.
  intros R Hnew. pose proof (step_ok e w ev (ro_ok w R)) as W'.
  pose proof (wo_ok _ (ro_ok w R)) as C. pose proof (wo_alive _ (ro_ok w R)) as D.
  unfold step in *. rewrite D in *. destruct ev as [c addr|sl r x|ph| |ph|ph x|ph bad ps x|t].
  - destruct (st_conns (w_st w) !! c) as [k|] eqn:Ec; [exact R|].
    destruct (accept_ok (w_st w) c addr C Ec) as (E & C' & Hf). rewrite E in *.
    set (n := fresh (dom (st_sess (w_st w)))) in *. destruct R as [W Ho H1].
    assert (Hnl : n ∉ w_live w) by (intros Hn; destruct (wo_live _ W n Hn); congruence).
    split; [exact W'|..]; cbn.
    + intros l x k Hl Hx Hc Hop. destruct (decide (l = n)) as [->|Hn].
      * rewrite lookup_insert in Hx. injection Hx as <-. cbn. apply lookup_insert.
      * rewrite lookup_insert_ne in Hx by congruence. assert (Hl' : l ∈ w_live w) by set_solver.
        destruct (cs_conn _ C _ _ Hx) as ((k0 & Hk0) & _).
        rewrite lookup_insert_ne in Hc by (intros ->; congruence).
        rewrite lookup_insert_ne by (intros ->; exact (Hnew l x Hl' Hx eq_refl)). exact (Ho l x k Hl' Hx Hc Hop).
    + intros l l' x x' Hl Hl' Hx Hx' Hid.
      destruct (decide (l = n)) as [->|Hn], (decide (l' = n)) as [->|Hm]; [reflexivity|..].
      * rewrite lookup_insert in Hx. rewrite lookup_insert_ne in Hx' by congruence. injection Hx as <-. cbn in Hid. exfalso. apply (Hnew l' x'); [set_solver|exact Hx'|congruence].
      * rewrite lookup_insert in Hx'. rewrite lookup_insert_ne in Hx by congruence. injection Hx' as <-. cbn in Hid. exfalso. apply (Hnew l x); [set_solver|exact Hx|congruence].
      * rewrite lookup_insert_ne in Hx, Hx' by congruence. apply (H1 l l' x x'); auto; set_solver.
  - case_bool_decide as Hl; [|exact R].
    destruct (wo_live _ (ro_ok w R) sl Hl) as (y & Hy). destruct (cs_conn _ C _ _ Hy) as ((k & Hk) & _).
    destruct (serve_frame e sl r x (w_st w) y k C Hy Hk) as (s1 & E & C1 & _ & Hc & Hk1 & Hb & Hs).
    rewrite E in *. cbn zeta in *. set (go := goesOn _) in *.
    assert (Hlive : forall l x0 k0, l ∈ w_live w -> (go = false -> l <> sl) -> st_sess (w_st w) !! l = Some x0 ->
       st_conns s1 !! ss_conn x0 = Some k0 -> cn_open k0 = true ->
       (exists k1, st_conns (w_st w) !! ss_conn x0 = Some k1 /\ cn_open k1 = true)
       /\ (st_byID (w_st w) !! ss_id x0 = Some l -> st_byID s1 !! ss_id x0 = Some l)).
    { intros l x0 k0 Hlv Hgo Hx0 Hk0 Hop. split.
      - destruct (decide (ss_conn x0 = ss_conn y)) as [Ec|Hn].
        + rewrite Ec, Hk1 in Hk0. injection Hk0 as <-. cbn in Hop. apply andb_prop in Hop as (_ & Hop).
          rewrite Ec. eauto.
        + rewrite Hc in Hk0 by exact Hn. eauto.
      - intros Hreg. rewrite Hb. destruct go; [exact Hreg|].
        rewrite decide_False; [exact Hreg|]. intros Hid. apply (Hgo eq_refl).
        apply (ro_one w R l sl x0 y); auto. }
    destruct go; cbn [negb] in *.
    + apply (reg_ok_mono w); auto; cbn.
      intros l x0 k0 Hlv. apply Hlive; [exact Hlv|discriminate].
    + apply (reg_ok_mono w); auto; cbn; [set_solver|].
      intros l x0 k0 Hlv. apply Hlive; [set_solver|intros _; set_solver].
  - case_bool_decide as Hj; [|exact R].
    destruct (keepalive_ok ph (w_st w) C Hj) as (E & C' & Es & Ei).
    pose proof (tick_conns ph (w_st w) C) as Ht.
    destruct (run (checkKeepalive ph) (w_st w)) as [q s']. cbn [fst snd] in *. subst q.
    apply (reg_ok_mono w); auto; cbn; [rewrite Es; auto|].
    intros l x0 k0 Hlv Hx0 Hk0 Hop. rewrite Ei. split; [|auto]. specialize (Ht _ _ Hk0 Hop). eauto.
  - exact R.
  - pose proof (run_apiGeo ph (w_st w) C) as H. destruct (st_byPhone (w_st w) !! ph) as [l|].
    + destruct H as (s' & (H1 & H2 & H3 & H4 & H5 & H6 & H7 & H8 & H9 & H10) & C' & _ & Ht).
      destruct (world_track (w_st w) ph C) as (ws & Hws).
      destruct (Ht ws Hws) as (_ & E). rewrite E in *. cbn [snd] in *.
      apply (reg_ok_mono w); auto; cbn; [rewrite H6; auto|]. rewrite H7, H9. eauto.
    + rewrite H in *. cbn [snd] in *. apply (reg_ok_mono w); auto; cbn. eauto.
  - destruct (proj1 (api_kept e ph (w_st w) C) x) as (c & [K1 K2 K3 K4 K5 K6 K7 K8]).
    apply (reg_ok_mono w); auto; cbn. intros l x0 k0 Hlv Hx0 Hk0 Hop. split; [eapply K7; eassumption|].
    intros Hreg. eapply K8; eassumption.
  - destruct (proj2 (api_kept e ph (w_st w) C) bad ps x) as (c & [K1 K2 K3 K4 K5 K6 K7 K8]).
    apply (reg_ok_mono w); auto; cbn. intros l x0 k0 Hlv Hx0 Hk0 Hop. split; [eapply K7; eassumption|].
    intros Hreg. eapply K8; eassumption.
  - apply (reg_ok_mono w); auto; cbn. eauto.
Qed.
Lemma fold_reg e evs : forall w, reg_ok w -> fresh_addrs e w evs -> reg_ok (fold_left (step e) evs w).
Proof.
  induction evs as [|ev evs IH]; intros w R H; [exact R|]. cbn [fold_left]. destruct H as (H1 & H2).
  apply IH; [apply step_reg; assumption|exact H2].
Qed.
Lemma registry e now evs : fresh_addrs e (world0 now) evs ->
  let w := history e now evs in let s := w_st w in
  (forall l x k, l ∈ w_live w -> st_sess s !! l = Some x -> st_conns s !! ss_conn x = Some k -> cn_open k = true ->
     st_byID s !! ss_id x = Some l)
  /\ (forall l l' x x', l ∈ w_live w -> l' ∈ w_live w -> st_sess s !! l = Some x -> st_sess s !! l' = Some x' ->
        ss_id x = ss_id x' -> l = l').
Proof.
  intros H. cbn zeta. destruct (fold_reg e evs (world0 now)) as [_ R1 R2]; [|exact H|split; assumption].
  split; [apply (history_ok e now [])|..]; cbn; set_solver.
Qed.
Lemma looked_up e now evs i l : let w := history e now evs in st_byID (w_st w) !! i = Some l ->
  l ∈ w_live w /\ exists x, st_sess (w_st w) !! l = Some x /\ ss_id x = i.
Proof.
  intros w H. destruct (history_ok e now evs) as [C _ _ R]. split; [exact (R i l H)|exact (cs_sess _ C i l H)].
Qed.
Lemma accepted e now evs c a : let w := history e now evs in st_conns (w_st w) !! c = None ->
  let w' := history e now (evs ++ [EAccept c a]) in
  exists l, st_byID (w_st w') !! a = Some l /\ l ∈ w_live w' /\ l ∉ w_live w
    /\ st_sess (w_st w') !! l = Some (mkSession a c 0)
    /\ st_conns (w_st w') !! c = Some (mkConn true [])
    /\ forall i, i <> a -> st_byID (w_st w') !! i = st_byID (w_st w) !! i.
Proof.
  cbn zeta. intros Hc. rewrite history_snoc. destruct (history_ok e now evs) as [C D L _].
  unfold step. rewrite D, Hc. destruct (accept_ok _ c a C Hc) as (E & _ & Hf). rewrite E. cbn.
  eexists. split; [apply lookup_insert|]. split; [set_solver|]. split.
  { intros Hn. destruct (L _ Hn). congruence. }
  rewrite !lookup_insert. split; [reflexivity|]. split; [reflexivity|].
  intros i Hi. apply lookup_insert_ne. congruence.
Qed.
(** when serve ends, its session can no longer be found under its address *)
Lemma gone e sl s x k r w : consistent s -> st_sess s !! sl = Some x -> st_conns s !! ss_conn x = Some k ->
  fst (run (serveLoop e sl [(r, w)]) s) = Ok true ->
  st_byID (snd (run (serveLoop e sl [(r, w)]) s)) !! ss_id x = None
  /\ exists k', st_conns (snd (run (serveLoop e sl [(r, w)]) s)) !! ss_conn x = Some k' /\ cn_open k' = false.
Proof.
  intros C Hx Hk. destruct (serve_frame e sl r w s x k C Hx Hk) as (s1 & E & _ & _ & _ & Hc & Hb & _).
  rewrite E. cbn [fst snd]. destruct (goesOn _); cbn; [discriminate|]. intros _.
  rewrite Hb, decide_True by reflexivity. split; [reflexivity|]. eexists. split; [exact Hc|reflexivity].
Qed.
Lemma reused e now a : exists sl sl',
  let w := history e now [EAccept 0 a; EAccept 1 a; EFrame sl (Err ErrEOF) None] in
  sl' ∈ w_live w /\ (exists x, st_sess (w_st w) !! sl' = Some x /\ ss_id x = a /\ ss_conn x = 1%nat)
  /\ st_conns (w_st w) !! 1%nat = Some (mkConn true []) /\ st_byID (w_st w) !! a = None.
Proof.
  destruct (accepted e now [] 0%nat a eq_refl) as (sl & B0 & L0 & _ & S0 & K0 & _). cbn [app] in *.
  destruct (accepted e now [EAccept 0 a] 1%nat a eq_refl) as (sl' & B1 & L1 & N1 & S1 & K1 & I1). cbn [app] in *.
  assert (Hne : sl <> sl') by congruence.
  exists sl, sl'. cbn zeta. set (w1 := history e now [EAccept 0 a]) in *. set (w2 := history e now [EAccept 0 a; EAccept 1 a]) in *.
  assert (Hw2 : w2 = step e w1 (EAccept 1 a)) by reflexivity.
  assert (Hold : sl ∈ w_live w2 /\ st_sess (w_st w2) !! sl = Some (mkSession a 0%nat 0)
                 /\ st_conns (w_st w2) !! 0%nat = Some (mkConn true [])).
  { destruct (history_ok e now [EAccept 0 a]) as [C D _ _]. rewrite Hw2. unfold step. fold w1 in C, D. rewrite D.
    destruct (accept_ok (w_st w1) 1%nat a C eq_refl) as (E & _ & Hf).
    replace (st_conns (w_st w1) !! 1%nat) with (@None conn) by reflexivity. rewrite E. cbn -[w1].
    split; [set_solver|]. split; [rewrite lookup_insert_ne by congruence; exact S0|].
    rewrite lookup_insert_ne by discriminate. exact K0. }
  destruct Hold as (L2 & S2 & K2).
  change [EAccept 0 a; EAccept 1 a; EFrame sl (Err ErrEOF) None] with ([EAccept 0 a; EAccept 1 a] ++ [EFrame sl (Err ErrEOF) None]).
  rewrite history_snoc. fold w2. unfold step. destruct (history_ok e now [EAccept 0 a; EAccept 1 a]) as [C D _ _]. fold w2 in C, D.
  rewrite D, bool_decide_eq_true_2 by exact L2.
  destruct (serve_frame e sl (Err ErrEOF) None (w_st w2) _ _ C S2 K2) as (s1 & E & _ & _ & Hc & _ & Hb & Hs).
  rewrite E. cbn in *. split; [set_solver|]. split.
  - destruct (same_sess _ _ Hs sl' _ S1) as (x1 & Hx1 & Hx2). eauto.
  - split; [rewrite Hc by discriminate; exact K1|]. rewrite Hb, decide_True by reflexivity. reflexivity.
Qed.

(** * Commands (C64, C65) *)
Lemma command_none e s ph w : devAt s ph = None -> consistent s ->
  run (apiGetParams e ph w) s = (Ok [400], s)
  /\ forall bad ps, exists l, run (apiPutParams e ph bad ps w) s = (Ok l, s) /\ List.head l = Some 400.
Proof.
  intros H C. apply (devAt_None s C) in H. split.
  - rewrite run_apiGetParams, H. reflexivity.
  - intros bad ps. rewrite run_apiPutParams, H. eexists. split; [reflexivity|]. destruct bad; reflexivity.
Qed.
Section Commands.
Context (e : env) (s : st) (ph : str) (d : device) (C : consistent s) (Hd : devAt s ph = Some d).
Lemma api_get w : run (apiGetParams e ph w) s = run (command e d 0x8104 B8104 w []) s.
Proof.
  destruct (devAt_Some s C ph d Hd) as (l & Hl & Hl' & _). rewrite run_apiGetParams, Hl, Hl'. reflexivity.
Qed.
Lemma api_put bad ps w : run (apiPutParams e ph bad ps w) s =
  run (command e d 0x8103 (B8103 0 (Some ps)) w (if bad then [400] else [])) s.
Proof.
  destruct (devAt_Some s C ph d Hd) as (l & Hl & Hl' & _). rewrite run_apiPutParams, Hl, Hl'. reflexivity.
Qed.
(** the message that is sent: the device's phone, the next serial number of the session *)
Definition cmd (id : N) (b : body) (sn : N) : msg :=
  mkMsg (genMsgHeader (d_ver d) (d_proto d) (d_phone d) id ((sn + 1) mod 65536)) b.
Lemma sessAt_Some i x : sessAt s i = Some x ->
  exists sl, st_byID s !! i = Some sl /\ st_sess s !! sl = Some x.
Proof. unfold sessAt. destruct (st_byID s !! i) as [sl|]; [eauto|discriminate]. Qed.
Lemma sent_command id b post x k : sessAt s (d_sid d) = Some x -> st_conns s !! ss_conn x = Some k -> cn_open k = true ->
  forall f, encodePacket (e_o e) (cmd id b (ss_sn x)) = Ok f ->
  exists s', run (command e d id b None post) s = (Ok post, s')
    /\ st_conns s' !! ss_conn x = Some (mkConn true (cn_out k ++ [f]))
    /\ (forall c, c <> ss_conn x -> st_conns s' !! c = st_conns s !! c)
    /\ (forall q, devAt s' q = devAt s q /\ ringOf s' q = ringOf s q /\ st_params s' !! q = st_params s !! q)
    /\ consistent s'.
Proof.
  intros Hx Hk Ho f Hf. destruct (sessAt_Some _ _ Hx) as (sl & Hi & Hs).
  pose proof (run_command e d id b None post s C) as H. rewrite Hi in H.
  destruct H as (x' & k' & q & s' & Hs' & _ & Hk' & E & K & l & o & _ & Hc & Hok & _).
  assert (x' = x) by congruence. subst x'. assert (k' = k) by congruence. subst k'.
  destruct (Hok Ho eq_refl f Hf) as (-> & -> & ->). exists s'. split; [exact E|]. split; [exact Hc|].
  destruct K. split; [|auto]. intros c Hn. apply ck_conns. congruence.
Qed.
Lemma panicked_command id b post x : sessAt s (d_sid d) = Some x ->
  encodePacket (e_o e) (cmd id b (ss_sn x)) = Panic -> forall w,
  exists s', run (command e d id b w post) s = (Panic, s') /\ st_conns s' = st_conns s.
Proof.
  intros Hx Hf w. destruct (sessAt_Some _ _ Hx) as (sl & Hi & Hs).
  pose proof (run_command e d id b w post s C) as H. rewrite Hi in H.
  destruct H as (x' & k' & q & s' & Hs' & _ & Hk' & E & K & l & o & _ & Hc & _ & Hp).
  assert (x' = x) by congruence. subst x'. destruct (Hp Hf) as (-> & Hcs). exists s'. auto.
Qed.
Lemma get_frame sn : exists f, encodePacket (e_o e) (cmd 0x8104 B8104 sn) = Ok f.
Proof. eexists. reflexivity. Qed.
Lemma put_frame ps b sn : paramsEncode (e_o e) ps = Ok b ->
  exists f, encodePacket (e_o e) (cmd 0x8103 (B8103 0 (Some ps)) sn) = Ok f.
Proof. intros H. unfold encodePacket, msgEncode, cmd. cbn. rewrite H. eexists. reflexivity. Qed.
Lemma put_panics ps sn : paramsEncode (e_o e) ps = Panic ->
  encodePacket (e_o e) (cmd 0x8103 (B8103 0 (Some ps)) sn) = Panic.
Proof. intros H. unfold encodePacket, msgEncode, cmd. cbn. rewrite H. reflexivity. Qed.
(** without a registered session the handler panics *)
Lemma lost_command id b post w : st_byID s !! d_sid d = None ->
  run (command e d id b w post) s = (Panic, s).
Proof. intros H. pose proof (run_command e d id b w post s C) as R. rewrite H in R. exact R. Qed.
(** whatever happens, only the connection of the session with the device's address is used *)
Lemma elsewhere id b post w sl' x' : st_sess s !! sl' = Some x' -> ss_id x' <> d_sid d ->
  st_conns (snd (run (command e d id b w post) s)) !! ss_conn x' = st_conns s !! ss_conn x'.
Proof.
  intros Hx' Hn. pose proof (run_command e d id b w post s C) as R.
  destruct (st_byID s !! d_sid d) as [sl|] eqn:Hi; [|rewrite R; reflexivity].
  destruct R as (x & k & q & s' & Hs & Hid & Hk & E & K & _). rewrite E. cbn [snd].
  apply (ck_conns _ _ _ K). intros [= Ec].
  assert (sl = sl') by (eapply (cs_conn_inj s C); eassumption). subst sl'. congruence.
Qed.
End Commands.
Lemma get_params e s ph d x k : consistent s -> devAt s ph = Some d -> sessAt s (d_sid d) = Some x ->
  st_conns s !! ss_conn x = Some k -> cn_open k = true ->
  exists f s', encodePacket (e_o e) (cmd d 0x8104 B8104 (ss_sn x)) = Ok f
    /\ run (apiGetParams e ph None) s = (Ok [], s')
    /\ st_conns s' !! ss_conn x = Some (mkConn true (cn_out k ++ [f]))
    /\ (forall c, c <> ss_conn x -> st_conns s' !! c = st_conns s !! c)
    /\ (forall q, devAt s' q = devAt s q /\ ringOf s' q = ringOf s q /\ st_params s' !! q = st_params s !! q)
    /\ consistent s'.
Proof.
  intros C Hd Hx Hk Ho. destruct (get_frame e d (ss_sn x)) as (f & Hf). rewrite (api_get e s ph d C Hd).
  destruct (sent_command e s d C 0x8104 B8104 [] x k Hx Hk Ho f Hf) as (s' & H). exists f, s'. tauto.
Qed.
Lemma put_params e s ph d x k ps b bad : consistent s -> devAt s ph = Some d -> sessAt s (d_sid d) = Some x ->
  st_conns s !! ss_conn x = Some k -> cn_open k = true -> paramsEncode (e_o e) ps = Ok b ->
  exists f s', encodePacket (e_o e) (cmd d 0x8103 (B8103 0 (Some ps)) (ss_sn x)) = Ok f
    /\ run (apiPutParams e ph bad ps None) s = (Ok (if bad then [400] else []), s')
    /\ st_conns s' !! ss_conn x = Some (mkConn true (cn_out k ++ [f]))
    /\ (forall c, c <> ss_conn x -> st_conns s' !! c = st_conns s !! c)
    /\ (forall q, devAt s' q = devAt s q /\ ringOf s' q = ringOf s q /\ st_params s' !! q = st_params s !! q)
    /\ consistent s'.
Proof.
  intros C Hd Hx Hk Ho Hb. destruct (put_frame e d ps b (ss_sn x) Hb) as (f & Hf). rewrite (api_put e s ph d C Hd).
  destruct (sent_command e s d C _ _ (if bad then [400] else []) x k Hx Hk Ho f Hf) as (s' & H). exists f, s'. tauto.
Qed.
Lemma put_params_panics e s ph d x ps bad w : consistent s -> devAt s ph = Some d -> sessAt s (d_sid d) = Some x ->
  paramsEncode (e_o e) ps = Panic ->
  exists s', run (apiPutParams e ph bad ps w) s = (Panic, s') /\ st_conns s' = st_conns s.
Proof.
  intros C Hd Hx Hb. rewrite (api_put e s ph d C Hd).
  exact (panicked_command e s d C _ _ _ x Hx (put_panics e d ps _ Hb) w).
Qed.
Lemma command_lost e s ph d : consistent s -> devAt s ph = Some d -> st_byID s !! d_sid d = None ->
  (forall w, run (apiGetParams e ph w) s = (Panic, s))
  /\ forall bad ps w, run (apiPutParams e ph bad ps w) s = (Panic, s).
Proof.
  intros C Hd Hn. split; intros.
  - rewrite (api_get e s ph d C Hd). apply lost_command; assumption.
  - rewrite (api_put e s ph d C Hd). apply lost_command; assumption.
Qed.
(** authentication over a new connection leaves the commands where they were *)
Lemma reconnect e sl s p al code imei sw d x : consistent s ->
  carries e s p 0x0102 (B0102 al code imei sw) -> devAt s (h_phone (pk_hdr p)) = Some d ->
  is_code (d_id d) (d_plate d) (d_phone d) code -> st_sess s !! sl = Some x -> ss_id x <> d_sid d ->
  exists m s', run (process e sl p) s = (Ok (Some m), s') /\ consistent s'
    /\ answers p 0x8001 (B8001 (h_sn (pk_hdr p)) 0x0102 0) m
    /\ st_conns s' !! ss_conn x = st_conns s !! ss_conn x
    /\ (forall w, st_conns (snd (run (apiGetParams e (h_phone (pk_hdr p)) w) s')) !! ss_conn x = st_conns s' !! ss_conn x)
    /\ (forall bad ps w, st_conns (snd (run (apiPutParams e (h_phone (pk_hdr p)) bad ps w) s')) !! ss_conn x
                         = st_conns s' !! ss_conn x)
    /\ (st_byID s !! d_sid d = None -> forall w, fst (run (apiGetParams e (h_phone (pk_hdr p)) w) s') = Panic).
Proof.
  intros C Hc Hd Hcode Hx Hn.
  destruct (authentication e sl s p al code imei sw d C Hc Hd) as (m & s' & E & C' & _ & RK & Hok & _).
  destruct (Hok Hcode) as (Ha & Hd' & _). exists m, s'. split; [exact E|]. split; [exact C'|]. split; [exact Ha|].
  destruct RK as (_ & _ & _ & _ & RS & RB & RN & _).
  assert (Hx' : st_sess s' !! sl = Some x) by (rewrite RS; exact Hx).
  split; [rewrite RN; reflexivity|]. split; [|split].
  - intros w. rewrite (api_get e s' _ _ C' Hd'). eapply elsewhere; [exact C'|exact Hx'|exact Hn].
  - intros bad ps w. rewrite (api_put e s' _ _ C' Hd'). eapply elsewhere; [exact C'|exact Hx'|exact Hn].
  - intros Hb w. rewrite (api_get e s' _ _ C' Hd'). rewrite lost_command; [reflexivity|exact C'|].
    cbn. rewrite RB. exact Hb.
Qed.

(** * Location history (C69) *)
Lemma track_rest s s' ph ws : rest_kept s s' -> track s ph ws -> track s' ph ws.
Proof. intros (R1 & R2 & _). unfold track, ringOf. rewrite R1, R2. auto. Qed.
Lemma inherited e sl s p p' r d x ws g : consistent s -> st_sess s !! sl = Some x ->
  carries e s p 0x0003 B0003 -> devAt s (h_phone (pk_hdr p)) = Some d ->
  track s (h_phone (pk_hdr p)) (ws ++ [g]) -> (length ws mod 100 <> 99)%nat ->
  carries e s p' 0x0100 (B0100 r) -> h_phone (pk_hdr p') = h_phone (pk_hdr p) ->
  (r_plate r = d_plate d \/ devWithPlate s (r_plate r) = None) ->
  exists s1 s2 m1 m2 c, run (process e sl p) s = (Ok (Some m1), s1)
    /\ devAt s1 (h_phone (pk_hdr p)) = None
    /\ run (process e sl p') s1 = (Ok (Some m2), s2) /\ answers p' 0x8100 (B8100 (h_sn (pk_hdr p')) 0 c) m2
    /\ fst (run (apiGeo (h_phone (pk_hdr p))) s2) = Ok ([200], Some g).
Proof.
  intros C Hx Hc Hd Ht Hm Hc' Hph Hpl.
  destruct (logout e sl s p d C Hc Hd) as (m1 & s1 & E1 & C1 & _ & D1 & P1 & (O1 & O2) & _ & RK1).
  assert (Hx1 : st_sess s1 !! sl = Some x) by (destruct RK1 as (_ & _ & _ & _ & -> & _); exact Hx).
  assert (Hc1 : carries e s1 p' 0x0100 (B0100 r)).
  { unfold carries in *. destruct RK1 as (_ & _ & _ & _ & _ & _ & _ & ->). exact Hc'. }
  destruct (registration e sl s1 p' r x C1 Hc1 Hx1) as (m2 & s2 & E2 & R).
  rewrite Hph, D1 in R.
  assert (devWithPlate s1 (r_plate r) = None) as Hp1.
  { destruct (decide (r_plate r = d_plate d)) as [->|Hn]; [exact P1|]. rewrite O2 by exact Hn.
    destruct Hpl as [|]; [contradiction|assumption]. }
  rewrite Hp1 in R. destruct R as ((c & _ & Ha) & Hd2 & _ & _ & _ & RK2 & C2).
  exists s1, s2, m1, m2, c. split; [exact E1|]. split; [exact D1|]. split; [exact E2|]. split; [exact Ha|].
  pose proof (track_rest _ _ _ _ RK2 (track_rest _ _ _ _ RK1 Ht)) as Ht2.
  destruct (devAt_Some s2 C2 _ _ Hd2) as (l & Hl & _).
  pose proof (run_apiGeo (h_phone (pk_hdr p)) s2 C2) as G. rewrite Hl in G.
  destruct G as (s3 & _ & _ & _ & G). destruct (G _ Ht2) as (_ & ->). cbn [fst]. f_equal.
  destruct (length (ws ++ [g]) mod 100 =? 0)%nat eqn:E0.
  - exfalso. apply Nat.eqb_eq in E0. rewrite app_length in E0. cbn [length] in E0.
    pose proof (Nat.div_mod (length ws) 100). pose proof (Nat.div_mod (length ws + 1) 100).
    pose proof (Nat.mod_upper_bound (length ws) 100). lia.
  - unfold last_of. rewrite rev_app_distr. reflexivity.
Qed.
