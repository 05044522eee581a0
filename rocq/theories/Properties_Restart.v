(** Property theorem C135: the simulator is started again against the same server. *)
From Coq Require Import Reals.
From stdpp Require Import gmap.
From Flocq Require Import IEEE754.Binary IEEE754.Bits.
From Verif Require Import Base HexM TimeM HashM HeaderM ParamsM GeoM MsgM PacketM FrameM FloatM ProgM RingM
  StateM ProcM ServerM ClientM DatagenM NetM SpecRing SpecState SpecCodec SpecSim SpecNet RestartM SpecRestart TimeP DatagenP ServerP ConcP FleetP4 FleetP5
  RestartP3 RestartP4 ExampleData ExampleState Properties_Sim Properties_Net.
Local Open Scope N_scope.
Ltac vmr := vm_compute; reflexivity.

(** C135 is false: a terminal that was online when the simulator ended, and whose device has not been
    removed by two late keepalive checks before the simulator is started again with the same number
    and plate, does not come online in any run of the new process: the status check does not let it
    pass, it reports nothing, and once its messages are exchanged the server has no device for it *)
Theorem C135_refuted : forall e ec other n evs ends waits now news evs2 i t1 d1,
  e_o ec = e_o e -> redialled (e_o e) n -> all_punctual e ec other n evs ->
  let n1 := nruns e ec other n evs in restartable (e_o e) n1 ends news ->
  let n2 := restart e ends waits now news n1 in all_punctual e ec other n2 evs2 ->
  let n3 := nruns e ec other n2 evs2 in
  nt_terms n1 !! i = Some t1 -> online n1 t1 -> devAt (nt_srv n1) (number (tm_conf t1)) = Some d1 -> ~ overdue d1 waits ->
  exists t3, nt_terms n3 !! i = Some t3 /\ number (tm_conf t3) = number (tm_conf t1) /\ sm_plate (tm_conf t3) = sm_plate (tm_conf t1)
    /\ tm_at t3 <> POnline /\ all_generated e ec other n2 i evs2 = []
    /\ (tm_at t3 <> PIdle -> exists d, devAt (nt_cli n3) (number (tm_conf t3)) = Some d /\ d_status d = Offline)
    /\ (tm_at t3 = PSent -> settled n3 t3 -> absent (nt_srv n3) (tm_conf t3)).
Proof. intros e ec other n evs ends waits now news evs2 i t1 d1 Ho. exact (refused e ec other Ho n evs ends waits now news evs2 i t1 d1). Qed.
Print Assumptions C135_refuted.

(** C135, what holds in every run: a terminal the server does not know comes online as in C107, its
    reports added to what the server has of earlier ones; of a terminal the server still has a device
    for nothing is recorded, and once its messages are exchanged it is unknown; nobody else is touched *)
Theorem C135_run_partial : forall e ec other n evs, e_o ec = e_o e -> redialled (e_o e) n -> all_punctual e ec other n evs ->
  let n' := nruns e ec other n evs in
  (forall i t ws, nt_terms n !! i = Some t -> track (nt_srv n) (number (tm_conf t)) ws -> exists t', nt_terms n' !! i = Some t'
     /\ tm_conf t' = tm_conf t /\ tm_srv t' = tm_srv t /\ tm_cli t' = tm_cli t
     /\ tm_served t' = true /\ tm_runs t' = true /\ tm_at t' <> PDead
     /\ (absent (nt_srv n) (tm_conf t) ->
          (tm_at t' = POnline -> online n' t')
          /\ (tm_at t' = PSent \/ tm_at t' = POnline -> settled n' t' ->
              online n' t' /\ track (nt_srv n') (number (tm_conf t)) (ws ++ all_generated e ec other n i evs)))
     /\ (leftover (nt_srv n) (tm_conf t) ->
          tm_at t' <> POnline /\ all_generated e ec other n i evs = [] /\ track (nt_srv n') (number (tm_conf t)) ws
          /\ (tm_at t' <> PIdle -> exists d, devAt (nt_cli n') (number (tm_conf t)) = Some d /\ d_status d = Offline)
          /\ (tm_at t' = PSent -> settled n' t' -> absent (nt_srv n') (tm_conf t))))
  /\ (forall q, outside n q -> devAt (nt_srv n') q = devAt (nt_srv n) q /\ ringOf (nt_srv n') q = ringOf (nt_srv n) q).
Proof. intros e ec other n evs Ho. exact (again e ec other Ho n evs). Qed.
Print Assumptions C135_run_partial.

(** however far the programs have come, steps taken for the terminal alone bring it there: online if
    the server did not know it, unknown to the server if it did *)
Theorem C135_live_partial : forall e ec other n evs, e_o ec = e_o e -> redialled (e_o e) n -> all_punctual e ec other n evs ->
  let n' := nruns e ec other n evs in forall i t t0, nt_terms n' !! i = Some t -> nt_terms n !! i = Some t0 ->
  exists evs', Forall (coming_online i) evs' /\ let n2 := nruns e ec other n' evs' in exists t', nt_terms n2 !! i = Some t'
    /\ tm_conf t' = tm_conf t /\ settled n2 t'
    /\ (absent (nt_srv n) (tm_conf t0) -> tm_at t' = POnline /\ online n2 t'
        /\ forall ws, track (nt_srv n) (number (tm_conf t)) ws ->
           track (nt_srv n2) (number (tm_conf t)) (ws ++ all_generated e ec other n i evs))
    /\ (leftover (nt_srv n) (tm_conf t0) -> tm_at t' = PSent /\ absent (nt_srv n2) (tm_conf t)).
Proof. intros e ec other n evs Ho. exact (again_live e ec other Ho n evs). Qed.
Print Assumptions C135_live_partial.

(** however often the simulator is started again, the two theorems above apply to the new process;
    what the server has is as before, except for devices whose time was up at a check: an unknown
    terminal stays unknown, two late checks make a terminal unknown, and nothing less does it *)
Theorem C135_restart_partial : forall e ec other n evs ends waits now news, e_o ec = e_o e ->
  redialled (e_o e) n -> all_punctual e ec other n evs ->
  let n1 := nruns e ec other n evs in restartable (e_o e) n1 ends news ->
  let n2 := restart e ends waits now news n1 in
  redialled (e_o e) n2
  /\ (forall q, ~ In q (List.map snd waits) -> devAt (nt_srv n2) q = devAt (nt_srv n1) q /\ ringOf (nt_srv n2) q = ringOf (nt_srv n1) q)
  /\ (forall c, absent (nt_srv n1) c -> absent (nt_srv n2) c)
  /\ (forall c d, devAt (nt_srv n1) (number c) = Some d -> d_plate d = sm_plate c -> overdue d waits -> absent (nt_srv n2) c)
  /\ (forall c d, devAt (nt_srv n1) (number c) = Some d -> d_plate d = sm_plate c -> d_status d <> Offline -> ~ overdue d waits -> leftover (nt_srv n2) c)
  /\ Forall2 (fun t t' => number (tm_conf t') = number (tm_conf t) /\ sm_plate (tm_conf t') = sm_plate (tm_conf t)) (nt_terms n1) (nt_terms n2)
  /\ List.map tm_conf (nt_terms n2) = List.map nw_conf news.
Proof. intros e ec other n evs ends waits now news Ho. exact (restarted e ec other Ho n evs ends waits now news). Qed.
Print Assumptions C135_restart_partial.
(** the first process *)
Theorem C135_first_partial : forall o n, dialled o n -> redialled o n
  /\ forall i t, nt_terms n !! i = Some t -> absent (nt_srv n) (tm_conf t) /\ track (nt_srv n) (number (tm_conf t)) [].
Proof. exact dialled_redialled. Qed.
Print Assumptions C135_first_partial.

(** both terminals of C107 are online when the simulator ends; the new process draws other ids *)
Definition anew (c : simconf) (w : N) : simconf :=
  mkSim [73; 68; 48; 48; 48; 49; w] (sm_plate c) (sm_phone c) (repeat 51 15) (sm_version c) (sm_keep c) (sm_prov c) (sm_city c) (sm_color c).
Definition news0 (c : nat) : list newterm :=
  [mkNew (anew (conf v19) 49) geo31 c addr1 0 addr1; mkNew (anew conf2 50) geo31 (S c) addr2 1 addr2].
Definition net2 : net := restart e0 [0%nat; 1%nat] [] 3000 (news0 5) net1.
Definition bring : list nevent :=
  [NBuild 0; NRegister 0; NBuild 1; NServe 0; NClient 0; NRegister 1; NServe 1; NServe 0; NClient 0; NCheck 0; NClient 1; NServe 1; NClient 1; NCheck 1].
Definition net3 : net := nruns e0 e0 other0 net2 bring.
(** after that, once more; or with checks long after *)
Definition net4 : net := restart e0 [] [] 4000 (news0 7) net3.
Definition late : list (Z * str) :=
  [(1000000000%Z, number (conf v19)); (1000000000%Z, number conf2); (2000000000%Z, number conf2); (2000000000%Z, number (conf v19))].
Definition net5 : net := restart e0 [0%nat; 1%nat] late 3000 (news0 5) net1.
Lemma anew_able c : Forall (fun w => able o0 (nw_conf w)) (news0 c).
Proof.
  assert (T : forall n w, (7 <= n)%nat -> w <> 0 -> text_fits n [73; 68; 48; 48; 48; 49; w]).
  { intros n w Hn Hw. split; [cbn; lia|]. right. exists [73; 68; 48; 48; 48; 49], w. split; [reflexivity|exact Hw]. }
  constructor; [|constructor; [|constructor]]; cbn [nw_conf].
  - split; [vmr|]. exists (sm_plate (conf v19)). split; [split; reflexivity|]. left. split; [vmr|]. split; [vm_compute; lia|].
    split; [apply (T 30%nat 49); [lia|discriminate]|]. split; [reflexivity|vm_compute; lia].
  - split; [vmr|]. exists (sm_plate conf2). split; [split; reflexivity|]. right. split; [vmr|]. split; [vm_compute; lia|].
    split; [apply (T 7%nat 50); [lia|discriminate]|]. split; [discriminate|vm_compute; lia].
Qed.
Lemma can_restart n ends c : List.map (fun t => (number (tm_conf t), sm_plate (tm_conf t))) (nt_terms n) =
    [(number (conf v19), sm_plate (conf v19)); (number conf2, sm_plate conf2)] ->
  st_conns (nt_srv n) !! c = None -> st_conns (nt_srv n) !! S c = None -> Forall (fun sl => is_Some (st_sess (nt_srv n) !! sl)) ends ->
  restartable o0 n ends (news0 c).
Proof.
  intros Ht H1 H2 He. destruct (nt_terms n) as [|t [|u [|v l]]] eqn:En; try discriminate Ht. cbn [List.map] in Ht.
  remember (number (conf v19)) as a1 eqn:E1. remember (sm_plate (conf v19)) as a2 eqn:E2. remember (number conf2) as a3 eqn:E3. remember (sm_plate conf2) as a4 eqn:E4.
  injection Ht as T1 T2 T3 T4. split.
  { rewrite En. constructor; [|constructor; [|constructor]]; split; cbn [nw_conf].
    - rewrite T1, E1. vmr.
    - rewrite T2, E2. vmr.
    - rewrite T3, E3. vmr.
    - rewrite T4, E4. vmr. }
  split; [exact (anew_able c)|]. split; [constructor; [exact H1|constructor; [exact H2|constructor]]|].
  split; [|split; [|exact He]].
  - cbn. apply list.NoDup_cons. split; [|apply NoDup_singleton]. rewrite elem_of_list_singleton. lia.
  - cbn. apply list.NoDup_cons. split; [|apply NoDup_singleton]. rewrite elem_of_list_singleton. lia.
Qed.
Definition isSome {A} (x : option A) : bool := if x then true else false.
Example C135_ex : redialled (e_o e0) net0 /\ all_punctual e0 e0 other0 net0 run0
  /\ restartable o0 net1 [0%nat; 1%nat] (news0 5) /\ all_punctual e0 e0 other0 net2 bring /\ restartable o0 net3 [] (news0 7)
  /\ List.map tm_at (nt_terms net1) = [POnline; POnline]
  /\ List.map (fun t => isSome (devAt (nt_srv net2) (number (tm_conf t)))) (nt_terms net2) = [true; true]
  /\ List.map tm_at (nt_terms net3) = [PSent; PSent]
  /\ List.map (fun t => isSome (devAt (nt_srv net3) (number (tm_conf t)))) (nt_terms net3) = [false; false]
  /\ List.map tm_at (nt_terms (nruns e0 e0 other0 net4 bring)) = [POnline; POnline]
  /\ List.map (fun t => isSome (devAt (nt_srv net5) (number (tm_conf t)))) (nt_terms net5) = [false; false]
  /\ List.map tm_at (nt_terms (nruns e0 e0 other0 net5 bring)) = [POnline; POnline].
Proof.
  split; [exact (proj1 (dialled_redialled _ _ net0_dialled))|]. split; [apply all_punctualb_ok; vmr|].
  split.
  { apply can_restart; [vmr|vmr|vmr|]. constructor; [|constructor; [|constructor]]; (eexists; vmr). }
  split; [apply no_tick_punctual; vmr|].
  split; [apply can_restart; [vmr|vmr|vmr|constructor]|]. repeat (split; [vmr|]). vmr.
Qed.
(** the checks of [late] are late *)
Example C135_wait_ex : exists d, devAt (nt_srv net1) (number conf2) = Some d /\ overdue d late /\ ~ overdue d [].
Proof.
  destruct (devAt (nt_srv net1) (number conf2)) as [d|] eqn:E; [|exfalso; revert E; vm_compute; discriminate].
  exists d. assert (F : d_phone d = number conf2 /\ (d_last d + d_keep d <? 1000000000)%Z = true).
  { change (match Some d with Some d => d_phone d = number conf2 /\ (d_last d + d_keep d <? 1000000000)%Z = true | None => False end).
    rewrite <- E. vm_compute. split; reflexivity. }
  destruct F as (F1 & F2). apply Z.ltb_lt in F2. split; [reflexivity|]. split.
  - exists [(1000000000%Z, number (conf v19))], 1000000000%Z, [], 2000000000%Z, [(2000000000%Z, number (conf v19))]. rewrite F1. split; [reflexivity|]. lia.
  - intros (w1 & t1 & w2 & t2 & w3 & X & _). destruct w1; discriminate X.
Qed.
