(** The device list while messages come in (C150) *)
From stdpp Require Import gmap.
From Verif Require Import Base HexM TimeM HeaderM ParamsM GeoM MsgM PacketM FrameM ProgM StateM ProcM ServerM ConcM ListM
  SpecCodec SpecState SpecReg SpecConc SpecList ListP ExampleData ExampleState Properties_Conc.
Local Open Scope N_scope.

(** C150: whatever runs beside a request for the device list, and in every schedule, the request is answered, and
    its list has one entry for each of the devices that were registered at one moment of the request, with their ids,
    plates and phones. *)
Theorem C150_moment_partial : forall e gs s sch r, sane s -> (forall g, In g gs -> placed s g) ->
  nth_error (fst (beside e showList gs s sch)) 0 = Some (Ret r) ->
  exists k ds, (k <= length sch)%nat /\ r = Ok (Some ds) /\ lists (snd (beside e showList gs s (firstn k sch))) ds.
Proof. exact list_moment. Qed.
Print Assumptions C150_moment_partial.
(** But the states and times it shows need not be those of one moment. *)
Definition gs150 : list goroutine := [GMsg 0 (unframe f_heart1); GMsg 1 (pk (mkMsg (hidb 0x0002) B0002)); GClock 3000].
Definition sch150 : list nat := [0; 0; 3]%nat ++ repeat 1%nat 12 ++ repeat 2%nat 12 ++ repeat 0%nat 4.
Definition shown_otherwise (t : st) (ds : list device) : bool :=
  existsb (fun d => match devAt t (d_phone d) with Some d' => negb (Z.eqb (d_last d) (d_last d')) | None => true end) ds.
Lemma shown_not_exact t ds : shown_otherwise t ds = true -> ~ lists_exactly t ds.
Proof.
  intros H K. apply existsb_exists in H as (d & Hin & Hd). apply K in Hin. rewrite Hin, Z.eqb_refl in Hd. discriminate Hd.
Qed.
Theorem C150_refuted : exists e gs s sch ds, consistent s /\ sane s /\ (forall g, In g gs -> placed s g)
  /\ nth_error (fst (beside e showList gs s sch)) 0 = Some (Ret (Ok (Some ds)))
  /\ forall k, ~ lists_exactly (snd (beside e showList gs s (firstn k sch))) ds.
Proof.
  exists e0, gs150, s2, sch150. eexists. split; [exact s2_ok|]. split; [exact s2_sane|]. split.
  { intros g [<-|[<-|[<-|[]]]]; cbn [placed]; [rewrite s2_x1; eauto| |exact Logic.I]. eexists. vmr. }
  split; [vmr|]. intros k. apply shown_not_exact.
  assert (H : forall ds, forallb (fun k => shown_otherwise (snd (beside e0 showList gs150 s2 (firstn k sch150))) ds) (seq 0 32) = true ->
    shown_otherwise (snd (beside e0 showList gs150 s2 (firstn k sch150))) ds = true).
  { intros ds F. rewrite forallb_forall in F. destruct (Nat.lt_ge_cases k 32) as [Hk|Hk]; [apply F, in_seq; lia|].
    rewrite firstn_all2 by (vm_compute; lia). rewrite <- (firstn_all2 (n:=31) sch150) by (vm_compute; lia). apply F, in_seq. lia. }
  apply H. vmr.
Qed.
Print Assumptions C150_refuted.
Example C150_ex : sane s2 /\ (forall g, In g gs150 -> placed s2 g)
  /\ exists ds, nth_error (fst (beside e0 showList gs150 s2 sch150)) 0 = Some (Ret (Ok (Some ds))) /\ List.map d_plate ds = [d_plate d1; d_plate d2]
     /\ List.map d_last ds = [2000; 3000]%Z.
Proof.
  split; [exact s2_sane|]. split.
  { intros g [<-|[<-|[<-|[]]]]; cbn [placed]; [rewrite s2_x1; eauto| |exact Logic.I]. eexists. vmr. }
  eexists. split; [vmr|]. split; vmr.
Qed.
