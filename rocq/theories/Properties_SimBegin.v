(** The goroutine that starts a terminal is that of the fleet (C142) *)
From stdpp Require Import gmap.
From Verif Require Import Base MsgM PacketM FrameM ProgM ProgP StateM ProcM ServerM ClientM DatagenM SimConcM NetM FleetP ExampleData ExampleState
  Properties_Sim.

Lemma begin_net e c sl w s : run (begin e c sl w) s =
  match run (buildDevice c sl) s with
  | (Ok _, s') => run (register e c (simPhone c) sl w) s'
  | (Err er, s') => (Err er, s')
  | (Panic, s') => (Panic, s')
  end.
Proof.
  unfold begin. rewrite run_bind. destruct (run (buildDevice c sl) s) as [[l|er|] s'] eqn:E; [|reflexivity|reflexivity].
  assert (H : exists sid cn, st_devs s' !! l = Some (genDevice c sid cn)).
  { unfold buildDevice in E. rewrite run_bind in E. unfold readSess in E. cbn [run] in E. destruct (st_sess s !! sl) as [x|]; [|discriminate].
    cbn [run ret] in E. rewrite run_bind in E. unfold allocDev in E. cbn [run ret] in E. rewrite run_bind in E.
    cbn -[insert lookup fresh dom genDevice] in E. rewrite lookup_insert in E. injection E as <- <-.
    exists (ss_id x), (ss_conn x). cbn -[insert lookup fresh dom genDevice]. rewrite lookup_insert. reflexivity. }
  destruct H as (sid & cn & H). rewrite run_bind. unfold readConst. cbn [run]. rewrite H. cbn [run ret].
  unfold simPhone. rewrite !simPhone_number. reflexivity.
Qed.
(** Run alone, it builds the device and registers the phone of its configuration, as in the model of the fleet. *)
Theorem C142_begins : forall e c sl w s, run (begin e c sl w) s =
  match run (buildDevice c sl) s with
  | (Ok _, s') => run (register e c (simPhone c) sl w) s'
  | (Err er, s') => (Err er, s')
  | (Panic, s') => (Panic, s')
  end.
Proof. exact begin_net. Qed.
Print Assumptions C142_begins.
(** a terminal of the 2013 version: one frame is sent *)
Example C142_begins_ex : let r := run (begin e0 (conf v13) 0 None) sc0 in
  fst r = Ok tt /\ simPhone (conf v13) <> d_plate (genDevice (conf v13) [] 0)
  /\ length (match st_conns (snd r) !! 0%nat with Some k => cn_out k | None => [] end) = 1%nat.
Proof. split; [vm_compute; reflexivity|]. split; [vm_compute; discriminate|vm_compute; reflexivity]. Qed.
