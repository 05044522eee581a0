(** C119: the end of the simulator's process *)
From Coq Require Import List ZArith Bool Arith Lia.
Import ListNotations.
From Verif Require Import SimM SpecProcess SimP.

(** C119: whatever terminals are running, seven failed calls of Dial for the next one end the process *)
Theorem C119_refuted : forall n evs, sm_end (simRun (Z.of_nat n) evs) = None -> ups (dials evs) < n ->
  sm_end (simRun (Z.of_nat n) (evs ++ repeat (SDial false) 7)) = Some 1%Z.
Proof. exact sim_ends_all. Qed.
Print Assumptions C119_refuted.
(** two of three terminals run, one of them after a failed call *)
Example C119_ex : sm_end (simRun 3 [SDial true; SDial false; SDial true]) = None /\ ups (dials [SDial true; SDial false; SDial true]) < 3
  /\ sm_up (simRun 3 [SDial true; SDial false; SDial true]) = 2.
Proof. vm_compute. auto. Qed.
(** that is the only way to end with an error *)
Theorem C119_exit_partial : forall n evs, sm_end (simRun (Z.of_nat n) evs) = Some 1%Z <-> hopeless n evs.
Proof. exact sim_exit. Qed.
Print Assumptions C119_exit_partial.
Example C119_exit_partial_ex : hopeless 2 ([SDial true; SStop 0] ++ repeat (SDial false) 7 ++ [SDial true])
  /\ ~ hopeless 2 (repeat (SDial false) 6 ++ [SDial true] ++ repeat (SDial false) 6 ++ [SDial true] ++ repeat (SDial false) 7).
Proof.
  split; [exists [true], [true]; vm_compute; auto|]. intros H. apply (C119_exit_partial 2) in H. vm_compute in H. discriminate H.
Qed.
(** otherwise the process ends, without error, exactly when all its terminals have connected and stopped *)
Theorem C119_done_partial : forall n evs, sm_end (simRun (Z.of_nat n) evs) = Some 0%Z <-> ~ hopeless n evs /\ forall i, i < n -> came_and_went i evs.
Proof. exact sim_done. Qed.
Print Assumptions C119_done_partial.
Theorem C119_status_partial : forall n evs s, sm_end (simRun (Z.of_nat n) evs) = Some s -> s = 0%Z \/ s = 1%Z.
Proof. exact sim_status. Qed.
Print Assumptions C119_status_partial.
(** a negative number of terminals ends the process with status 2 before any terminal connects *)
Theorem C119_negative_partial : forall conc evs, (conc < 0)%Z -> sm_end (simRun conc evs) = Some 2%Z /\ sm_up (simRun conc evs) = 0.
Proof.
  intros conc evs H. unfold simRun.
  assert (E : simStart conc = mkSim 0 1 conc [] (Some 2%Z)) by (unfold simStart; destruct (Z.ltb_spec conc 0); [reflexivity|lia]).
  rewrite E. clear E. induction evs as [|ev evs IH]; [split; reflexivity|exact IH].
Qed.
Print Assumptions C119_negative_partial.
Example C119_negative_ex : sm_end (simRun (-1) [SDial true]) = Some 2%Z.
Proof. reflexivity. Qed.
(** terminals stop in any order *)
Example C119_done_partial_ex : let evs := [SDial false; SDial true; SStop 1; SDial true; SStop 1; SStop 0] in
  sm_end (simRun 2 evs) = Some 0%Z /\ (forall i, i < 2 -> came_and_went i evs)
  /\ sm_end (simRun 2 [SDial false; SDial true; SStop 1; SDial true; SStop 0]) = None.
Proof.
  split; [reflexivity|]. split; [|reflexivity]. intros [|[|i]] H; [| |lia].
  - exists [SDial false; SDial true; SStop 1; SDial true; SStop 1], []. vm_compute. auto.
  - exists [SDial false; SDial true; SStop 1; SDial true], [SStop 0]. vm_compute. auto.
Qed.
