(** C112: parameter settings and queries of one phone at the same time *)
From stdpp Require Import gmap.
From Verif Require Import Base HexM HeaderM ParamsM MsgM ProgM StateM ProcM ParamHeapM SpecCodec SpecState SpecConc SpecParamHeap
  RaceP ParamHeapP ExampleData ExampleState.
Local Open Scope N_scope.
Ltac vmr := vm_compute; reflexivity.

(** C112 (refuted): of two settings for the same phone at the same time the second can leave no trace,
    although both have ended ... *)
Theorem C112_refuted_lost : forall h ph l old d1 d2 id q q', linked h -> ph_map h !! ph = Some l -> ph_obj h !! l = Some old ->
  value_of old id = Some q -> value_of d1 id = None -> value_of d2 id = Some q' ->
  exists sch h' d, prunning [PSet ph d1; PSet ph d2] h sch = ([Ret (Ok None); Ret (Ok None)], h')
    /\ cached h' ph = Some d /\ value_of d id = Some q.
Proof. exact lost_value. Qed.
Print Assumptions C112_refuted_lost.
(** ... and so can one of two first settings *)
Theorem C112_refuted_first : forall h ph d1 d2, ph_map h !! ph = None -> dp_phone d1 = ph -> dp_phone d2 = ph ->
  exists sch h', prunning [PSet ph d1; PSet ph d2] h sch = ([Ret (Ok None); Ret (Ok None)], h') /\ cached h' ph = Some d1.
Proof. exact lost_first. Qed.
Print Assumptions C112_refuted_first.
(** a query answered during a setting announces more parameters than it lists when the stored list has
    one twice *)
Theorem C112_refuted_count : forall h ph l old d def, ph_map h !! ph = Some l -> ph_obj h !! l = Some old ->
  (length (dp_list old) < 256)%nat -> counted (dp_cnt old) (dp_list old) -> ~ distinct (dp_list old) ->
  exists sch h' p n ps, prunning [PQuery ph def; PSet ph d] h sch = ([Ret (Ok (Some (n, ps))); p], h')
    /\ N.of_nat (length ps) < n.
Proof. exact torn_count. Qed.
Print Assumptions C112_refuted_count.
(** both fields are accessed without the mutex *)
Theorem C112_refuted_races : forall h ph l old d def, ph_map h !! ph = Some l -> ph_obj h !! l = Some old ->
  (exists sch, races_on (fun c => c = CParamList l) (fst (prunning [PSet ph d; PSet ph d] h sch)))
  /\ exists sch, races_on (fun c => c = CParamCnt l) (fst (prunning [PQuery ph def; PSet ph d] h sch)).
Proof. exact param_races. Qed.
Print Assumptions C112_refuted_races.

(** the map itself is only used under its mutex, and queries alone race on nothing *)
Definition only_read (x : access) : Prop :=
  match ac_cell x with CParamMap => ac_sync x = Locked MParam | _ => ac_write x = false end.
Lemma only_read_conflict x y : only_read x -> only_read y -> conflict x y = false.
Proof.
  intros Hx Hy. destruct (conflict x y) eqn:E; [|reflexivity]. unfold conflict in E.
  apply andb_prop in E as (E & Hs). apply andb_prop in E as (E & Hw). apply cell_eqb_eq in E.
  unfold only_read in *. rewrite <- E in Hy. destruct (ac_cell x);
    first [rewrite Hx, Hy in Hs; discriminate|rewrite Hx, Hy in Hw; discriminate].
Qed.
Theorem C112_races_partial : forall h ms sch,
  ~ races_on (fun c => c = CParamMap) (fst (prunning ms h sch))
  /\ (Forall (fun m => exists ph def, m = PQuery ph def) ms -> ~ races_on (fun _ => True) (fst (prunning ms h sch))).
Proof.
  intros h ms sch. split.
  - intros (i & j & p & q & x & y & _ & Hp & Hq & Hx & Hy & Hg & Hc).
    assert (Hall : forall k u, nth_error (fst (prunning ms h sch)) k = Some u -> all_acc disciplined u).
    { apply acc_steps. intros k u Hu. apply nth_error_In, in_map_iff in Hu. destruct Hu as (m & <- & _).
      destruct m; cbn [pcode]; unfold hSet, hQuery, hGet, hNew, hCache, hUpdate, hList, hCnt, hSetList, hSetCnt; acc. }
    rewrite (disciplined_conflict x y) in Hc; [discriminate|..].
    + exact (acc_accesses _ _ _ (Hall i p Hp) Hx).
    + exact (acc_accesses _ _ _ (Hall j q Hq) Hy).
    + rewrite Hg. exact I.
  - intros Hm (i & j & p & q & x & y & _ & Hp & Hq & Hx & Hy & _ & Hc).
    assert (Hall : forall k u, nth_error (fst (prunning ms h sch)) k = Some u -> all_acc only_read u).
    { apply acc_steps. intros k u Hu. apply nth_error_In, in_map_iff in Hu. destruct Hu as (m & <- & Hin).
      rewrite List.Forall_forall in Hm. destruct (Hm m Hin) as (ph & def & ->).
      cbn [pcode]. unfold hQuery, hGet, hNew, hCache, hList, hCnt. acc; reflexivity. }
    rewrite (only_read_conflict x y) in Hc; [discriminate|..].
    + exact (acc_accesses _ _ _ (Hall i p Hp) Hx).
    + exact (acc_accesses _ _ _ (Hall j q Hq) Hy).
Qed.
Print Assumptions C112_races_partial.

(** What holds: a message handled while no other is does what it does on values ... *)
Theorem C112_set_alone_partial : forall h s inc d out, linked h -> same_params h s -> dp_phone d = h_phone (m_hdr inc) ->
  exists h' s', run (hSet (h_phone (m_hdr inc)) d) h = (Ok tt, h') /\ run (process8103 inc (Some d) out) s = (Ok out, s')
    /\ linked h' /\ same_params h' s'.
Proof. exact set_refines. Qed.
Print Assumptions C112_set_alone_partial.
Theorem C112_query_alone_partial : forall h s e out sn cnt x def, linked h -> same_params h s -> m_body out = B0104 sn cnt x ->
  paramsDecode (e_o e) (h_phone (m_hdr out)) 39 (Str2Byte_slice paramByteStr) = Ok def -> dp_phone def = h_phone (m_hdr out) ->
  exists h' s' d, run (hQuery (h_phone (m_hdr out)) def) h = (Ok (dp_cnt d, dp_list d), h')
    /\ run (process8104 e out) s = (Ok (mkMsg (m_hdr out) (B0104 sn cnt (Some d))), s')
    /\ linked h' /\ same_params h' s'.
Proof. exact query_refines. Qed.
Print Assumptions C112_query_alone_partial.
(** ... under every schedule nothing fails, and an answer has only parameters stored or set for its phone ... *)
Theorem C112_provenance_partial : forall h ms sch i r, linked h -> Forall addressed ms ->
  nth_error (fst (prunning ms h sch)) i = Some (Ret r) ->
  exists m x, nth_error ms i = Some m /\ r = Ok x
    /\ forall n ps, x = Some (n, ps) -> forall p, In p ps -> comes_from h ms (for_phone m) p.
Proof. exact provenance. Qed.
Print Assumptions C112_provenance_partial.
(** ... and without repeated parameters every answer announces as many as it lists, each once *)
Theorem C112_counts_partial : forall h ms sch i r n ps, linked h -> Forall addressed ms ->
  (forall l d, ph_obj h !! l = Some d -> neat d) -> Forall neat_msg ms ->
  nth_error (fst (prunning ms h sch)) i = Some (Ret r) -> r = Ok (Some (n, ps)) -> counted n ps /\ distinct ps.
Proof. exact counts. Qed.
Print Assumptions C112_counts_partial.

Definition q112 (i v : N) : param := mkParam i 4 (VU32 v).
Definition ps112 (l : list param) : devparams := mkParams phone12 (N.of_nat (length l)) l.
Definition old112 : devparams := ps112 [q112 1 10; q112 2 20; q112 3 30].
Definition dup112 : devparams := ps112 [q112 1 10; q112 1 11; q112 2 20].
Definition h112 (d : devparams) : pheap := mkPHeap {[ phone12 := 5%nat ]} {[ 5%nat := d ]}.
Definition ms112 : list pmsg :=
  [PSet phone12 (ps112 [q112 1 7]); PSet phone12 (ps112 [q112 2 8; q112 9 9]); PQuery phone12 (ps112 []); PQuery phone12b (mkParams phone12b 0 [])].
Example C112_ex :
  (* a setting is lost: 2 keeps its value *)
  linked (h112 old112)
  /\ value_of old112 2 = Some (q112 2 20) /\ value_of (ps112 [q112 1 7]) 2 = None /\ value_of (ps112 [q112 2 8]) 2 = Some (q112 2 8)
  /\ cached (snd (prunning [PSet phone12 (ps112 [q112 1 7]); PSet phone12 (ps112 [q112 2 8])] (h112 old112)
                           [0; 0; 1; 1; 1; 1; 1; 0; 0; 0]%nat)) phone12 = Some (ps112 [q112 1 7; q112 2 20; q112 3 30])
  (* a count that does not belong to the list *)
  /\ counted (dp_cnt dup112) (dp_list dup112) /\ ~ distinct (dp_list dup112)
  /\ nth_error (fst (prunning [PQuery phone12 (ps112 []); PSet phone12 (ps112 [q112 1 7])] (h112 dup112) [0; 0; 1; 1; 1; 0]%nat)) 0
     = Some (Ret (Ok (Some (3, [q112 1 7; q112 2 20]))))
  (* and a run to which the last two theorems apply, with answers in it *)
  /\ Forall addressed ms112 /\ Forall neat_msg ms112 /\ (forall l d, ph_obj (h112 old112) !! l = Some d -> neat d)
  /\ nth_error (fst (prunning ms112 (h112 old112) [0; 1; 2; 3; 0; 1; 0; 2; 3; 1; 2; 3; 3; 3; 0; 1; 0; 1]%nat)) 2
     = Some (Ret (Ok (Some (3, [q112 1 10; q112 2 8; q112 3 30])))).
Proof.
  assert (N1 : neat old112).
  { split; [|reflexivity]. unfold distinct. apply NoDup_ListNoDup. repeat constructor; cbn; intuition discriminate. }
  split. { intros ph l H. unfold h112 in H. cbn [ph_map] in H. apply lookup_singleton_Some in H as (<- & <-). exists old112. split; [apply lookup_singleton|reflexivity]. }
  do 3 (split; [vmr|]). split; [vmr|]. split; [vmr|].
  split. { unfold distinct. rewrite NoDup_ListNoDup. intros H. inversion H as [|? ? H1 _]; subst. apply H1. left. reflexivity. }
  split; [vmr|]. split; [repeat constructor|]. split.
  { repeat apply Forall_cons; try apply Forall_nil; (split; [|reflexivity]); unfold distinct; apply NoDup_ListNoDup; repeat constructor; cbn; intuition discriminate. }
  split; [|vmr]. intros l d H. unfold h112 in H. cbn [ph_obj] in H. apply lookup_singleton_Some in H as (_ & <-). exact N1.
Qed.
