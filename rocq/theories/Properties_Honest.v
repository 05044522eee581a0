(** The lists of accesses, which the races of C71 and C112 are defined by, against what the actions do (C139) *)
From stdpp Require Import gmap.
From Verif Require Import Base HexM TimeM HeaderM ParamsM GeoM MsgM PacketM FrameM ProgM RingM StateM ProcM ServerM ConcM
  ParamHeapM SpecCodec SpecState SpecConc SpecHonest RaceP HonestP ExampleData ExampleState Properties_Conc Properties_Heap.
Local Open Scope N_scope.

(** C139: in every schedule of any goroutines, the next action of each touches no shared memory but
    what its list of accesses has, and changes none but what the list has as written. *)
Theorem C139_steps : forall e gs s sch i p, nth_error (fst (running e gs s sch)) i = Some p ->
  honest_next with_cell here memory p.
Proof. exact running_honest. Qed.
Print Assumptions C139_steps.
(** Hence C71 is about memory, not about lists: unless devices are listed or sessions counted, two next
    actions that both touch memory a mutex guards, one of them changing it, hold the same mutex, or are
    both atomic. *)
Theorem C139_apart : forall e gs s sch, ~ In GList gs -> ~ In GCount gs ->
  forall i j p q c, i <> j -> nth_error (fst (running e gs s sch)) i = Some p ->
    nth_error (fst (running e gs s sch)) j = Some q -> memory c -> guarded c -> apart with_cell here c p q.
Proof. intros e gs s sch H1 H2. apply (running_apart e gs s sch guarded). apply C71_guarded_partial; assumption. Qed.
Print Assumptions C139_apart.
(** The same for the parameter objects, and so for C112: the map is only touched under its mutex; among
    queries nothing but the map is changed. *)
Theorem C139_params : forall ms h sch i p, nth_error (fst (prunning ms h sch)) i = Some p ->
  honest_next with_pcell phere pmemory p.
Proof. exact prunning_honest. Qed.
Print Assumptions C139_params.
Theorem C139_params_apart : forall ms h sch i j p q, i <> j -> nth_error (fst (prunning ms h sch)) i = Some p ->
  nth_error (fst (prunning ms h sch)) j = Some q ->
  apart with_pcell phere CParamMap p q
  /\ (Forall (fun m => exists ph def, m = PQuery ph def) ms -> forall c, pmemory c -> apart with_pcell phere c p q).
Proof.
  intros ms h sch i j p q Hij Hp Hq. destruct (C112_races_partial h ms sch) as (H1 & H2). split.
  - exact (prunning_apart ms h sch _ H1 i j p q CParamMap Hij Hp Hq Logic.I eq_refl).
  - intros Hm c Hc. exact (prunning_apart ms h sch _ (H2 Hm) i j p q c Hij Hp Hq Hc Logic.I).
Qed.
Print Assumptions C139_params_apart.

(** a heartbeat about to be answered, and a keepalive job: both touch the device index, the first one at
    a step where it changes it *)
Example C139_ex : exists p q, nth_error (fst (running e0 [GMsg 0 (unframe f_heart1); GTick phone12] s2 [0; 0; 0; 0; 0]%nat)) 0 = Some p
  /\ nth_error (fst (running e0 [GMsg 0 (unframe f_heart1); GTick phone12] s2 [0; 0; 0; 0; 0]%nat)) 1 = Some q
  /\ listed_write CDevMaps (accesses p) /\ listed CDevMaps (accesses q)
  /\ ~ In GList [GMsg 0 (unframe f_heart1); GTick phone12] /\ ~ In GCount [GMsg 0 (unframe f_heart1); GTick phone12].
Proof.
  destruct (nth_error (fst (running e0 [GMsg 0 (unframe f_heart1); GTick phone12] s2 [0; 0; 0; 0; 0]%nat)) 0) as [p|] eqn:Ep.
  2:{ exfalso. revert Ep. vm_compute. discriminate. }
  destruct (nth_error (fst (running e0 [GMsg 0 (unframe f_heart1); GTick phone12] s2 [0; 0; 0; 0; 0]%nat)) 1) as [q|] eqn:Eq.
  2:{ exfalso. revert Eq. vm_compute. discriminate. }
  exists p, q. split; [reflexivity|]. split; [reflexivity|].
  assert (Ap : option_map accesses (Some p) = Some [mkAcc CDevMaps true (Locked MDev)]) by (rewrite <- Ep; vmr).
  assert (Aq : option_map accesses (Some q) = Some [mkAcc CDevMaps false (Locked MDev)]) by (rewrite <- Eq; vmr).
  clear Ep Eq. cbn in Ap, Aq. injection Ap as ->. injection Aq as ->.
  split; [eexists; split; [left; reflexivity|split; reflexivity]|]. split; [eexists; split; [left; reflexivity|reflexivity]|].
  split; intros [H|[H|[]]]; discriminate H.
Qed.
(** an action with a wrong list is not of this kind: one that forgets what it changes, and one that calls
    a change a read *)
Example C139_ex_wrong : ~ honest_next with_cell here memory (wr1 [mkAcc CDevMaps true (Locked MDev)] (set_geo (delete phone12)))
  /\ ~ honest_next with_cell here memory (wr1 [mkAcc CGeoMap false (Locked MGeo)] (set_geo (delete phone12)))
  /\ ~ honest_next with_cell here memory (rd1 (A := option nat) [mkAcc CDevMaps true (Locked MDev)] (fun s => st_geo s !! phone12)).
Proof.
  set (s := set_geo (<[phone12 := 0%nat]>) (init 0)).
  assert (K : ~ keeps with_cell here CGeoMap (wr1 [] (set_geo (delete phone12)))).
  { intros K. specialize (K s Logic.I). apply (f_equal (fun u => st_geo u !! phone12)) in K. revert K. vm_compute. discriminate. }
  split; [|split]; intros H; destruct (H CGeoMap Logic.I) as (H1 & H2).
  - destruct H2 as [(x & [ <- |[]] & Hx & _)|H2]; [discriminate Hx|apply K; exact H2].
  - destruct H2 as [(x & [ <- |[]] & _ & Hx)|H2]; [discriminate Hx|apply K; exact H2].
  - destruct H1 as [(x & [ <- |[]] & Hx)|H1]; [discriminate Hx|].
    destruct (H1 s (init 0) Logic.I) as (_ & E). revert E. vm_compute. discriminate.
Qed.
