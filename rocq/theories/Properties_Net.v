(** Property theorems C107-C109: a fleet of simulated terminals against the server. *)
From Coq Require Import Reals.
From stdpp Require Import gmap.
From Flocq Require Import IEEE754.Binary IEEE754.Bits.
From Verif Require Import Base HexM TimeM HashM HeaderM ParamsM GeoM MsgM PacketM FrameM FloatM ProgM RingM
  StateM ProcM ServerM ClientM DatagenM NetM SpecRing SpecState SpecCodec SpecSim SpecNet TimeP DatagenP ServerP ConcP FleetP4 FleetP5
  ExampleData ExampleState Properties_Sim.
Local Open Scope N_scope.
Ltac vmr := vm_compute; reflexivity.

(** C107: whatever the order in which the programs go on and frames arrive, no connection is given
    up; a terminal past its status check is online on both sides; whenever a terminal that has sent its
    registration has nothing on its way it is online and the server has exactly the reports it
    generated (of which it always has a prefix); no device outside the fleet is touched *)
Theorem C107_fleet : forall e ec other n evs, e_o ec = e_o e -> dialled (e_o e) n -> all_punctual e ec other n evs ->
  let n' := nruns e ec other n evs in
  (forall i t, nt_terms n !! i = Some t -> exists t', nt_terms n' !! i = Some t'
     /\ tm_conf t' = tm_conf t /\ tm_srv t' = tm_srv t /\ tm_cli t' = tm_cli t
     /\ tm_served t' = true /\ tm_runs t' = true /\ tm_at t' <> PDead
     /\ (exists k, track (nt_srv n') (number (tm_conf t)) (firstn k (all_generated e ec other n i evs)))
     /\ (tm_at t' = POnline -> online n' t')
     /\ (tm_at t' = PSent \/ tm_at t' = POnline -> settled n' t' ->
         online n' t' /\ track (nt_srv n') (number (tm_conf t)) (all_generated e ec other n i evs)))
  /\ (forall q, outside n q -> devAt (nt_srv n') q = devAt (nt_srv n) q /\ ringOf (nt_srv n') q = ringOf (nt_srv n) q).
Proof. intros e ec other n evs Ho. exact (fleet e ec other Ho n evs). Qed.
Print Assumptions C107_fleet.

(** two terminals, versions 2019 and 2013, on a new server and a new client *)
Definition conf2 : simconf :=
  mkSim [73; 68; 48; 48; 48; 48; 50] [65; 49; 50; 51; 52; 54] [49; 51; 57; 49; 50; 51; 52; 53; 54; 55; 57] (repeat 50 15) v13 20 [51; 49] [49; 49; 53] [49].
Definition two : st := w_st (history e0 1000 [EAccept 0 addr1; EAccept 1 addr2]).
Definition net0 : net :=
  mkNet two two [mkTerm (conf v19) geo31 0 0 PIdle 0 0 true true; mkTerm conf2 geo31 1 1 PIdle 0 0 true true].
Definition run0 : list nevent :=
  [NBuild 1; NBuild 0; NRegister 0; NRegister 1; NServe 1; NServe 0; NClient 0; NCheck 0; NServe 0; NClient 1; NClock 2000; NTick 0;
   NClient 0; NServe 1; NCheck 0; NReport 0 draw0; NClient 1; NCheck 1; NBeat 1; NServe 0; NBeat 0; NServe 1; NClient 1; NReport 1 draw0].
Lemma two_x1 : st_sess two !! 0%nat = Some x1.
Proof. vmr. Qed.
Lemma two_x2 : st_sess two !! 1%nat = Some x2.
Proof. vmr. Qed.
Lemma net0_dialled : dialled o0 net0.
Proof.
  assert (T : forall n w, (7 <= n)%nat -> w <> 0 -> text_fits n [73; 68; 48; 48; 48; 48; w]).
  { intros n w Hn Hw. split; [cbn; lia|]. right. exists [73; 68; 48; 48; 48; 48], w. split; [reflexivity|exact Hw]. }
  split; [exact (wo_ok _ (history_ok e0 1000 _))|]. split.
  { intros i j t u Hn Hi Hj. destruct i as [|[|i]]; [| |discriminate Hi]; (destruct j as [|[|j]]; [| |discriminate Hj]);
      try contradiction; injection Hi as <-; injection Hj as <-; cbn [tm_conf tm_srv tm_cli];
      (split; [vm_compute; discriminate|]; split; [vm_compute; discriminate|]; split; [discriminate|]);
      intros x y Hx Hy; change (nt_cli net0) with two in *; rewrite ?two_x1, ?two_x2 in *;
      injection Hx as <-; injection Hy as <-; discriminate. }
  intros i t Hi. destruct i as [|[|i]]; [| |discriminate Hi]; injection Hi as <-;
    cbn [tm_conf tm_srv tm_cli tm_at tm_up tm_down tm_served tm_runs].
  - split.
    { split; [vmr|]. exists (sm_plate (conf v19)). split; [split; reflexivity|]. left. split; [vmr|]. split; [vm_compute; lia|].
      split; [apply (T 30%nat 49); [lia|discriminate]|]. split; [reflexivity|vm_compute; lia]. }
    do 5 (split; [reflexivity|]). split; [exists x1; split; [exact two_x1|vmr]|]. split; [exists x1; split; [exact two_x1|vmr]|].
    split; [vmr|]. split; [vmr|]. vm_compute. reflexivity.
  - split.
    { split; [vmr|]. exists (sm_plate conf2). split; [split; reflexivity|]. right. split; [vmr|]. split; [vm_compute; lia|].
      split; [apply (T 7%nat 50); [lia|discriminate]|]. split; [discriminate|vm_compute; lia]. }
    do 5 (split; [reflexivity|]). split; [exists x2; split; [exact two_x2|vmr]|]. split; [exists x2; split; [exact two_x2|vmr]|].
    split; [vmr|]. split; [vmr|]. vm_compute. reflexivity.
Qed.
Definition other0 : binary64 -> N := fun _ => 0.
(** [all_punctual] for these environments, computed *)
Definition punctualb (n : net) (ev : nevent) : bool :=
  match ev with
  | NTick i => match nt_terms n !! i with
               | Some t => match devAt (nt_srv n) (number (tm_conf t)) with
                           | Some d => (st_clock (nt_srv n) <=? d_last d + d_keep d)%Z | None => true end
               | None => true end
  | _ => true
  end.
Fixpoint all_punctualb (n : net) (evs : list nevent) : bool :=
  match evs with [] => true | ev :: t => punctualb n ev && all_punctualb (nstep e0 e0 other0 n ev) t end.
Lemma all_punctualb_ok : forall evs n, all_punctualb n evs = true -> all_punctual e0 e0 other0 n evs.
Proof.
  induction evs as [|ev evs IH]; intros n H; [exact Logic.I|]. cbn [all_punctualb] in H. apply andb_prop in H as [H1 H2].
  split; [|exact (IH _ H2)]. destruct ev; cbn [punctual]; try exact Logic.I.
  - exact t_now_ok.
  - intros t d Ht Hd. cbn [punctualb] in H1. rewrite Ht, Hd in H1. apply Z.leb_le in H1. exact H1.
Qed.
(** a run in which both come online and one's report arrives; the other's is on its way *)
Definition net1 : net := nruns e0 e0 other0 net0 run0.
Example C107_ex : dialled (e_o e0) net0 /\ all_punctual e0 e0 other0 net0 run0
  /\ List.map tm_at (nt_terms net1) = [POnline; POnline]
  /\ length (all_generated e0 e0 other0 net0 0%nat run0) = 1%nat
  /\ length (all_generated e0 e0 other0 net0 1%nat run0) = 1%nat
  /\ (if ringOf (nt_srv net1) (number (conf v19)) then true else false) = true
  /\ (if ringOf (nt_srv net1) (number conf2) then true else false) = false.
Proof.
  split; [exact net0_dialled|]. split; [apply all_punctualb_ok; vmr|]. repeat (split; [vmr|]). vmr.
Qed.

(** C108: however far the programs have come, every terminal can still come online by steps taken for
    it alone, five kinds of them; the server then has all of the reports it has generated *)
Theorem C108_live : forall e ec other n evs, e_o ec = e_o e -> dialled (e_o e) n -> all_punctual e ec other n evs ->
  let n' := nruns e ec other n evs in
  forall i t, nt_terms n' !! i = Some t ->
  exists evs', Forall (coming_online i) evs' /\ exists t', nt_terms (nruns e ec other n' evs') !! i = Some t'
    /\ tm_conf t' = tm_conf t /\ tm_at t' = POnline
    /\ settled (nruns e ec other n' evs') t' /\ online (nruns e ec other n' evs') t'
    /\ track (nt_srv (nruns e ec other n' evs')) (number (tm_conf t)) (all_generated e ec other n i evs).
Proof. intros e ec other n evs Ho. exact (fleet_live e ec other Ho n evs). Qed.
Print Assumptions C108_live.
(** cut off after five events: neither terminal is online, the steps for the first one are these *)
Example C108_ex : all_punctual e0 e0 other0 net0 (firstn 5 run0)
  /\ List.map tm_at (nt_terms (nruns e0 e0 other0 net0 (firstn 5 run0))) = [PSent; PSent]
  /\ let evs' := [NServe 0; NClient 0; NServe 0; NClient 0; NCheck 0] in
     Forall (coming_online 0%nat) evs'
     /\ List.map tm_at (nt_terms (nruns e0 e0 other0 (nruns e0 e0 other0 net0 (firstn 5 run0)) evs')) = [POnline; PSent].
Proof.
  split; [apply all_punctualb_ok; vmr|]. split; [vmr|]. split; [|vmr].
  unfold coming_online. repeat constructor; tauto.
Qed.

(** C109: in every run that never ends and in which what can be done to bring terminal [i] online is
    tried again and again, whatever else happens, the terminal comes online and stays so, and
    every report it generates reaches the server *)
Theorem C109_fair : forall e ec other n ev i t, e_o ec = e_o e -> dialled (e_o e) n ->
  (forall m, all_punctual e ec other n (upto ev m)) -> fair_for i ev -> nt_terms n !! i = Some t ->
  let after m := nruns e ec other n (upto ev m) in
  let reports m := all_generated e ec other n i (upto ev m) in
  (exists m, forall m', (m <= m')%nat -> exists t', nt_terms (after m') !! i = Some t' /\ tm_conf t' = tm_conf t
     /\ tm_at t' = POnline /\ online (after m') t')
  /\ forall m, exists m', (m <= m')%nat /\ forall k, (m' <= k)%nat ->
       exists ws, track (nt_srv (after k)) (number (tm_conf t)) ws /\ prefix (reports m) ws /\ prefix ws (reports k).
Proof.
  intros e ec other n ev i t Ho Hd Hp Hf Ht. split.
  - exact (fair_online e ec other Ho n ev Hd Hp i Hf t Ht).
  - intros m. exact (fair_reports e ec other Ho n ev Hd Hp i Hf t m Ht).
Qed.
Print Assumptions C109_fair.
(** two terminals served in turn; both report now and then *)
Definition turn : list nevent :=
  [NServe 1; NReport 0 draw0; NBuild 0; NClient 1; NCheck 0; NRegister 0; NBeat 1; NServe 0; NClock 2000; NBuild 1; NCheck 1; NClient 0;
   NRegister 1; NReport 1 draw0].
Definition forever (m : nat) : nevent := nth (m mod 14) turn (NServe 0).
Lemma forever_fair i : (i < 2)%nat -> fair_for i forever.
Proof.
  intros Hi a Ha m.
  assert (K : forall k b, nth_error turn k = Some b -> exists m', (m <= m')%nat /\ forever m' = b).
  { intros k b Hk. assert (L : (k < 14)%nat) by (change 14%nat with (length turn); apply nth_error_Some; rewrite Hk; discriminate).
    exists (k + m * 14)%nat. split; [lia|]. unfold forever. rewrite Nat.mod_add by discriminate. rewrite Nat.mod_small by exact L.
    apply nth_error_nth. exact Hk. }
  destruct i as [|[|i]]; [| |lia]; destruct Ha as [->|[->|[->|[->| ->]]]].
  - exact (K 2%nat _ eq_refl).
  - exact (K 5%nat _ eq_refl).
  - exact (K 7%nat _ eq_refl).
  - exact (K 11%nat _ eq_refl).
  - exact (K 4%nat _ eq_refl).
  - exact (K 9%nat _ eq_refl).
  - exact (K 12%nat _ eq_refl).
  - exact (K 0%nat _ eq_refl).
  - exact (K 3%nat _ eq_refl).
  - exact (K 10%nat _ eq_refl).
Qed.
Definition no_tick (ev : nevent) : bool := match ev with NTick _ => false | _ => true end.
Lemma no_tick_punctual evs : forall n, forallb no_tick evs = true -> all_punctual e0 e0 other0 n evs.
Proof.
  induction evs as [|ev evs IH]; intros n H; [exact Logic.I|]. cbn [forallb] in H. apply andb_prop in H as [H1 H2].
  split; [|exact (IH _ H2)]. destruct ev; try exact Logic.I; [exact t_now_ok|discriminate H1].
Qed.
Example C109_ex : dialled (e_o e0) net0 /\ (forall m, all_punctual e0 e0 other0 net0 (upto forever m))
  /\ fair_for 0 forever /\ fair_for 1 forever
  /\ List.map tm_at (nt_terms (nruns e0 e0 other0 net0 (upto forever 14))) = [PSent; PSent]
  /\ List.map tm_at (nt_terms (nruns e0 e0 other0 net0 (upto forever 70))) = [POnline; POnline]
  /\ length (all_generated e0 e0 other0 net0 0%nat (upto forever 70)) = 2%nat.
Proof.
  split; [exact net0_dialled|]. split.
  { intros m. apply no_tick_punctual. apply forallb_forall. intros x Hx. apply in_map_iff in Hx as (k & <- & _).
    unfold forever. assert (L : (k mod 14 < 14)%nat) by (apply Nat.mod_upper_bound; discriminate).
    revert L. generalize (k mod 14)%nat. intros j L. do 14 (destruct j as [|j]; [reflexivity|]). lia. }
  split; [apply forever_fair; lia|]. split; [apply forever_fair; lia|]. repeat (split; [vmr|]). vmr.
Qed.
