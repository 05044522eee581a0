(** Property theorems C134: the fleet of simulated terminals over connections that carry bytes. *)
From Coq Require Import Reals.
From stdpp Require Import gmap.
From Flocq Require Import IEEE754.Binary IEEE754.Bits.
From Verif Require Import Base HexM TimeM HashM HeaderM ParamsM GeoM MsgM PacketM FrameM FloatM ProgM RingM
  StateM ProcM ServerM ClientM DatagenM NetM WireM SpecRing SpecState SpecCodec SpecSim SpecNet SpecWire WireP
  ExampleData ExampleState Properties_Sim Properties_Net.
Local Open Scope N_scope.

(** C134: however the bytes of the connections are cut into pieces and whenever the pieces arrive, the
    programs do what they do over connections that deliver whole frames: Recv returns the next frame
    exactly when all its bytes have arrived and waits otherwise, with no effect *)
Theorem C134_frames : forall e ec other x evs, connected x ->
  wn_net (wruns e ec other x evs) = nruns e ec other (wn_net x) (all_as_frames e ec other x evs).
Proof. intros e ec other x evs Hc. exact (proj2 (winv_runs e ec other evs x (connected_winv e ec other x Hc))). Qed.
Print Assumptions C134_frames.
(** what C107 says of a fleet, over byte streams *)
Theorem C134_fleet : forall e ec other x evs, e_o ec = e_o e -> dialled (e_o e) (wn_net x) -> connected x -> wpunctual e ec other x evs ->
  let n := wn_net x in let n' := wn_net (wruns e ec other x evs) in
  (forall i t, nt_terms n !! i = Some t -> exists t', nt_terms n' !! i = Some t'
     /\ tm_conf t' = tm_conf t /\ tm_srv t' = tm_srv t /\ tm_cli t' = tm_cli t
     /\ tm_served t' = true /\ tm_runs t' = true /\ tm_at t' <> PDead
     /\ (exists k, track (nt_srv n') (number (tm_conf t)) (firstn k (wgenerated e ec other x i evs)))
     /\ (tm_at t' = POnline -> online n' t')
     /\ (tm_at t' = PSent \/ tm_at t' = POnline -> settled n' t' ->
         online n' t' /\ track (nt_srv n') (number (tm_conf t)) (wgenerated e ec other x i evs)))
  /\ (forall q, outside n q -> devAt (nt_srv n') q = devAt (nt_srv n) q /\ ringOf (nt_srv n') q = ringOf (nt_srv n) q).
Proof. intros e ec other x evs Ho. exact (wire_fleet e ec other Ho x evs). Qed.
Print Assumptions C134_fleet.
(** what C109 says of it: a terminal comes online and stays so, and every report it generates reaches
    the server, when its bytes go on arriving, however few at a time *)
Theorem C134_fair : forall e ec other x ev i t, e_o ec = e_o e -> dialled (e_o e) (wn_net x) -> connected x ->
  (forall m, wpunctual e ec other x (wupto ev m)) -> wfair_for i ev -> nt_terms (wn_net x) !! i = Some t ->
  let after m := wn_net (wruns e ec other x (wupto ev m)) in
  let reports m := wgenerated e ec other x i (wupto ev m) in
  (exists m, forall m', (m <= m')%nat -> exists t', nt_terms (after m') !! i = Some t' /\ tm_conf t' = tm_conf t
     /\ tm_at t' = POnline /\ online (after m') t')
  /\ forall m, exists m', (m <= m')%nat /\ forall k, (m' <= k)%nat ->
       exists ws, track (nt_srv (after k)) (number (tm_conf t)) ws /\ prefix (reports m) ws /\ prefix ws (reports k).
Proof. intros e ec other x ev i t Ho. exact (wire_fair e ec other Ho x ev i t). Qed.
Print Assumptions C134_fair.

(** two terminals; the first one's registration arrives in two pieces, the reply in three *)
Definition wire0 : wire := mkWire (mkStream [] [] ErrEOF) 0.
Definition wnet0 : wnet := mkWnet net0 [wire0; wire0] [wire0; wire0].
Definition pieces : list wevent :=
  [WDo (NBuild 0); WDo (NRegister 0); WUp 0 20; WDo (NServe 0); WUp 0 1000; WDo (NServe 0); WDown 0 1; WDo (NClient 0);
   WDown 0 9; WDo (NClient 0); WDown 0 1000; WDo (NClient 0); WUp 0 1000; WDo (NServe 0); WDo (NCheck 0); WDown 0 1000; WDo (NClient 0);
   WDo (NCheck 0); WDo (NReport 0 draw0); WUp 0 30; WDo (NServe 0)].
Lemma wnet0_connected : connected wnet0.
Proof.
  assert (B : blank wire0) by (split; [reflexivity|]; split; [intros []|reflexivity]).
  split; [reflexivity|]. split; [reflexivity|]. split; [do 2 (constructor; [exact B|]); constructor|]. split; [do 2 (constructor; [exact B|]); constructor|].
  intros i t Hi. destruct i as [|[|i]]; [| |discriminate Hi]; injection Hi as <-; (split; [reflexivity|]); (split; [reflexivity|]); split; vmr.
Qed.
Definition no_wtick (ev : wevent) : bool := match ev with WDo a => no_tick a | _ => true end.
Lemma no_wtick_punctual evs : forall x, forallb no_wtick evs = true -> wpunctual e0 e0 other0 x evs.
Proof.
  induction evs as [|ev evs IH]; intros x H; [exact Logic.I|]. cbn [forallb] in H. apply andb_prop in H as [H1 H2].
  split; [|exact (IH _ H2)]. destruct ev as [a| |]; [|exact Logic.I..]. destruct a; try exact Logic.I; [exact t_now_ok|discriminate H1].
Qed.
Example C134_ex : dialled (e_o e0) net0 /\ connected wnet0 /\ wpunctual e0 e0 other0 wnet0 pieces
  /\ all_as_frames e0 e0 other0 wnet0 pieces =
       [NBuild 0; NRegister 0; NServe 0; NClient 0; NServe 0; NCheck 0; NClient 0; NCheck 0; NReport 0 draw0]
  /\ List.map tm_at (nt_terms (wn_net (wruns e0 e0 other0 wnet0 pieces))) = [POnline; PIdle]
  /\ List.map wr_sent (wn_up (wruns e0 e0 other0 wnet0 pieces)) <> [0; 0]%nat.
Proof.
  split; [exact net0_dialled|]. split; [exact wnet0_connected|]. split; [apply no_wtick_punctual; vmr|]. split; [vmr|]. split; [vmr|].
  vm_compute. discriminate.
Qed.
(** both served in turn, at most 40 bytes of each arriving in a turn *)
Definition wturn : list wevent := List.map WDo turn ++ [WUp 0 40; WDown 1 40; WDown 0 40; WUp 1 40].
Definition wforever (m : nat) : wevent := nth (m mod 18) wturn (WUp 0 1).
Lemma wforever_fair i : (i < 2)%nat -> wfair_for i wforever.
Proof.
  intros Hi.
  assert (K : forall m k b, nth_error wturn k = Some b -> exists m', (m <= m')%nat /\ wforever m' = b).
  { intros m k b Hk. assert (L : (k < 18)%nat) by (change 18%nat with (length wturn); apply nth_error_Some; rewrite Hk; discriminate).
    exists (k + m * 18)%nat. split; [lia|]. unfold wforever. rewrite Nat.mod_add by discriminate. rewrite Nat.mod_small by exact L.
    apply nth_error_nth. exact Hk. }
  split; [|split].
  - intros a Ha m. destruct i as [|[|i]]; [| |lia]; destruct Ha as [->|[->|[->|[->| ->]]]].
    + exact (K m 2%nat _ eq_refl).
    + exact (K m 5%nat _ eq_refl).
    + exact (K m 7%nat _ eq_refl).
    + exact (K m 11%nat _ eq_refl).
    + exact (K m 4%nat _ eq_refl).
    + exact (K m 9%nat _ eq_refl).
    + exact (K m 12%nat _ eq_refl).
    + exact (K m 0%nat _ eq_refl).
    + exact (K m 3%nat _ eq_refl).
    + exact (K m 10%nat _ eq_refl).
  - intros m. destruct i as [|[|i]]; [| |lia].
    + destruct (K m 14%nat _ eq_refl) as (m' & L & E). exists m', 39%nat. auto.
    + destruct (K m 17%nat _ eq_refl) as (m' & L & E). exists m', 39%nat. auto.
  - intros m. destruct i as [|[|i]]; [| |lia].
    + destruct (K m 16%nat _ eq_refl) as (m' & L & E). exists m', 39%nat. auto.
    + destruct (K m 15%nat _ eq_refl) as (m' & L & E). exists m', 39%nat. auto.
Qed.
Example C134_fair_ex : (forall m, wpunctual e0 e0 other0 wnet0 (wupto wforever m)) /\ wfair_for 0 wforever /\ wfair_for 1 wforever
  /\ List.map tm_at (nt_terms (wn_net (wruns e0 e0 other0 wnet0 (wupto wforever 90)))) = [PSent; PSent]
  /\ List.map tm_at (nt_terms (wn_net (wruns e0 e0 other0 wnet0 (wupto wforever 180)))) = [POnline; POnline].
Proof.
  split.
  { intros m. apply no_wtick_punctual. apply forallb_forall. intros x Hx. apply in_map_iff in Hx as (k & <- & _).
    unfold wforever. assert (L : (k mod 18 < 18)%nat) by (apply Nat.mod_upper_bound; discriminate).
    revert L. generalize (k mod 18)%nat. intros j L. do 18 (destruct j as [|j]; [reflexivity|]). lia. }
  split; [apply wforever_fair; lia|]. split; [apply wforever_fair; lia|]. split; [vmr|vmr].
Qed.
