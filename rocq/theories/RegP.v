(** The server's data follow the machine of SpecReg *)
From Coq Require Import Sorted.
From stdpp Require Import gmap.
From Verif Require Import Base HexM TimeM HashM HeaderM ParamsM GeoM MsgM PacketM FrameM ProgM ProgP RingM SpecRing RingP
  StateM ProcM ServerM SpecCodec SpecState SpecReg StateP ProcP ServerP ParamsP DecP EffectP ReplyP HandshakeP CmdP SessP LinkP.
Local Open Scope N_scope.

(** * Codes *)
Lemma dec_string_itoa w : forall n acc, itoa_fuel w n acc = dec_string w n ++ acc.
Proof.
  induction w as [|w IH]; intros n acc; [reflexivity|]. cbn [itoa_fuel dec_string].
  destruct (N.ltb_spec n 10).
  - rewrite N.mod_small by assumption. reflexivity.
  - rewrite IH, <- app_assoc. reflexivity.
Qed.
Lemma code_for_gen d : genAuthCode d = code_for (d_id d) (d_plate d) (d_phone d).
Proof. unfold genAuthCode, code_for, itoa. rewrite FNV32_fnv1a, dec_string_itoa, app_nil_r. reflexivity. Qed.
Lemma code_for_code id plate ph : is_code id plate ph (code_for id plate ph).
Proof.
  set (d := mkDevice id plate ph [] 0%nat 0 0 0 V2013 0 [] [] []).
  apply (code_iff d). symmetry. exact (code_for_gen d).
Qed.

(** * Parameter tables *)
Definition psorted : list param -> Prop := StronglySorted (fun a b => p_id a < p_id b).
Lemma find_below (l : list param) i : Forall (fun q => i < p_id q) l -> find (fun q => p_id q =? i) l = None.
Proof.
  induction 1 as [|q l Hq _ IH]; [reflexivity|]. cbn. destruct (N.eqb_spec (p_id q) i); [lia|exact IH].
Qed.
Lemma find_some_in (l : list param) i q : find (fun q => p_id q =? i) l = Some q -> In q l /\ p_id q = i.
Proof. intros H. apply find_some in H as (H1 & H2). apply N.eqb_eq in H2. auto. Qed.
Lemma psorted_eq l : forall l', psorted l -> psorted l' ->
  (forall i, find (fun q => p_id q =? i) l = find (fun q => p_id q =? i) l') -> l = l'.
Proof.
  induction l as [|a l IH]; intros [|b l'] Hl Hl' H.
  - reflexivity.
  - specialize (H (p_id b)). cbn in H. rewrite N.eqb_refl in H. discriminate.
  - specialize (H (p_id a)). cbn in H. rewrite N.eqb_refl in H. discriminate.
  - apply StronglySorted_inv in Hl as (Hl & Ha). apply StronglySorted_inv in Hl' as (Hl' & Hb).
    rewrite List.Forall_forall in Ha, Hb.
    assert (Hab : a = b).
    { pose proof (H (p_id a)) as E1. pose proof (H (p_id b)) as E2. cbn [find] in E1, E2. rewrite N.eqb_refl in E1, E2.
      destruct (N.eqb_spec (p_id b) (p_id a)) as [E|Hn].
      - injection E1 as ->. reflexivity.
      - symmetry in E1. apply find_some_in in E1 as (I1 & _). apply Hb in I1.
        destruct (N.eqb_spec (p_id a) (p_id b)); [congruence|].
        apply find_some_in in E2 as (I2 & _). apply Ha in I2. lia. }
    subst b. f_equal. apply IH; [exact Hl|exact Hl'|]. intros i. specialize (H i). cbn [find] in H.
    destruct (N.eqb_spec (p_id a) i) as [Ei|]; [|exact H].
    rewrite !find_below; [reflexivity|rewrite List.Forall_forall, <- Ei; assumption..].
Qed.
Lemma insert_id_in i l j : In j (insert_id i l) <-> j = i \/ In j l.
Proof.
  induction l as [|k l IH]; cbn; [intuition|]. destruct (N.ltb_spec i k); [cbn; intuition|].
  destruct (N.eqb_spec i k) as [->|]; cbn; [intuition|]. rewrite IH. intuition.
Qed.
Lemma insert_id_sorted i l : StronglySorted N.lt l -> StronglySorted N.lt (insert_id i l).
Proof.
  induction 1 as [|k l Hl IH Hk]; cbn; [repeat constructor|].
  destruct (N.ltb_spec i k); [|destruct (N.eqb_spec i k) as [->|]].
  - constructor; [constructor; assumption|]. constructor; [assumption|].
    rewrite List.Forall_forall in *. intros x Hx. specialize (Hk x Hx). lia.
  - constructor; assumption.
  - constructor; [exact IH|]. rewrite List.Forall_forall in *. intros x Hx. apply insert_id_in in Hx as [->|Hx]; [lia|auto].
Qed.
Lemma ids_spec l : StronglySorted N.lt (fold_right insert_id [] l) /\ forall j, In j (fold_right insert_id [] l) <-> In j l.
Proof.
  induction l as [|i l (IH1 & IH2)]; cbn; [split; [constructor|tauto]|].
  split; [apply insert_id_sorted; exact IH1|]. intros j. rewrite insert_id_in, IH2. intuition.
Qed.
Lemma last_with_id i l q : last_with i l = Some q -> p_id q = i.
Proof. unfold last_with. intros H. apply find_some_in in H as (_ & H). exact H. Qed.
Lemma last_with_in i l : In i (List.map p_id l) <-> last_with i l <> None.
Proof.
  unfold last_with. rewrite in_map_iff. split.
  - intros (q & Hq & Hin) Hn. apply in_rev in Hin. pose proof (find_none _ _ Hn q Hin) as Hf. cbv beta in Hf.
    apply N.eqb_neq in Hf. congruence.
  - intros Hn. destruct (find _ _) as [q|] eqn:E; [|congruence]. apply find_some_in in E as (Hin & Hq).
    exists q. split; [exact Hq|]. apply in_rev. exact Hin.
Qed.
Lemma omap_ids (f : N -> option param) ids : StronglySorted N.lt ids -> (forall i q, f i = Some q -> p_id q = i) ->
  psorted (omap f ids) /\ forall i, find (fun q => p_id q =? i) (omap f ids) = if existsb (N.eqb i) ids then f i else None.
Proof.
  intros Hs Hf. induction Hs as [|j l Hl IH Hj]; [split; [constructor|reflexivity]|].
  destruct IH as (IH1 & IH2). cbn [existsb]. cbn [omap list_omap].
  assert (Habove : forall q, f j = Some q -> Forall (fun x => p_id q < p_id x) (omap f l)).
  { intros q Hq. apply Hf in Hq. rewrite List.Forall_forall. intros x Hx.
    assert (Hin : In (p_id x) l).
    { clear -Hx Hf. induction l as [|k l IHl]; [destruct Hx|]. cbn in Hx. destruct (f k) as [y|] eqn:E.
      - destruct Hx as [<-|Hx]; [left; symmetry; apply Hf; exact E|right; auto].
      - right. auto. }
    rewrite List.Forall_forall in Hj. apply Hj in Hin. lia. }
  destruct (f j) as [q|] eqn:E.
  - split; [constructor; [exact IH1|apply Habove; reflexivity]|]. intros i. cbn [find]. pose proof (Hf _ _ E) as Hq.
    rewrite Hq. rewrite (N.eqb_sym i j). destruct (N.eqb_spec j i) as [->|]; cbn [orb]; [congruence|]. apply IH2.
  - split; [exact IH1|]. intros i. fold (omap f l). rewrite IH2. rewrite (N.eqb_sym i j).
    destruct (N.eqb_spec j i) as [->|]; cbn [orb]; [|reflexivity]. rewrite E. destruct (existsb _ l); reflexivity.
Qed.
Lemma merged_update old new : paramsUpdate old new = merged old new.
Proof.
  destruct (paramsUpdate_spec old new) as (H1 & H2 & H3 & H4). unfold merged.
  set (f := fun i => match last_with i (dp_list new) with Some q => Some q | None => last_with i (dp_list old) end).
  set (ids := fold_right insert_id [] (List.map p_id (dp_list old))).
  destruct (ids_spec (List.map p_id (dp_list old))) as (S1 & S2). fold ids in S1, S2.
  destruct (omap_ids f ids S1) as (O1 & O2).
  { intros i q. unfold f. destruct (last_with i (dp_list new)) eqn:E; [intros [= <-]; eapply last_with_id; exact E|apply last_with_id]. }
  assert (El : dp_list (paramsUpdate old new) = omap f ids).
  { apply psorted_eq; [exact H3|exact O1|]. intros i. rewrite H4, O2. 
    destruct (existsb (N.eqb i) ids) eqn:E.
    - apply existsb_exists in E as (j & Hj & E). apply N.eqb_eq in E. subst j. apply S2, last_with_in in Hj.
      unfold f. destruct (last_with i (dp_list old)); [|congruence]. destruct (last_with i (dp_list new)); reflexivity.
    - destruct (last_with i (dp_list old)) eqn:E'; [|reflexivity].
      assert (In i ids). { apply S2, last_with_in. congruence. }
      rewrite <- not_true_iff_false in E. destruct E. apply existsb_exists. exists i. split; [assumption|apply N.eqb_refl]. }
  destruct (paramsUpdate old new) as [ph cnt l]. cbn in *. subst. reflexivity.
Qed.

(** * The data a state shows *)
Lemma track_ring s s' ph ws : ringOf s' ph = ringOf s ph -> track s ph ws -> track s' ph ws.
Proof. unfold track. intros ->. auto. Qed.
Lemma shows_same s s' pl : (forall q, devAt s' q = devAt s q /\ ringOf s' q = ringOf s q /\ st_params s' !! q = st_params s !! q) ->
  shows s pl -> shows s' pl.
Proof.
  intros H Hs q. destruct (H q) as (H1 & H2 & H3), (Hs q) as (S1 & S2 & S3). rewrite H1, H3.
  split; [exact S1|]. split; [|exact S3]. exact (track_ring s s' q _ H2 S2).
Qed.
Lemma rest_ring s s' q : rest_kept s s' -> ringOf s' q = ringOf s q.
Proof. intros (H1 & H2 & _). unfold ringOf. rewrite H1, H2. reflexivity. Qed.
Lemma shows_enter s s' pl d plate : shows s pl -> others_kept (d_phone d) plate s s' -> rest_kept s s' ->
  devAt s' (d_phone d) = Some d -> shows s' (enter d pl).
Proof.
  intros Hs (Ho & _) Hr Hd q. destruct (Hs q) as (S1 & S2 & S3). cbn. split; [|split].
  - destruct (decide (q = d_phone d)) as [->|Hn].
    + rewrite lookup_insert. exact Hd.
    + rewrite lookup_insert_ne by congruence. rewrite Ho by exact Hn. exact S1.
  - exact (track_ring s s' q _ (rest_ring s s' q Hr) S2).
  - destruct Hr as (_ & _ & -> & _). exact S3.
Qed.
Lemma shows_strike s s' pl ph plate : shows s pl -> others_kept ph plate s s' -> rest_kept s s' ->
  devAt s' ph = None -> shows s' (strike ph pl).
Proof.
  intros Hs (Ho & _) Hr Hd q. destruct (Hs q) as (S1 & S2 & S3). cbn. split; [|split].
  - destruct (decide (q = ph)) as [->|Hn].
    + rewrite lookup_delete. exact Hd.
    + rewrite lookup_delete_ne by congruence. rewrite Ho by exact Hn. exact S1.
  - exact (track_ring s s' q _ (rest_ring s s' q Hr) S2).
  - destruct Hr as (_ & _ & -> & _). exact S3.
Qed.
Lemma shows_store s pl ph ps : shows s pl -> shows (set_params (<[ph := ps]>) s) (store ph ps pl).
Proof.
  intros Hs q. destruct (Hs q) as (S1 & S2 & S3). cbn. split; [exact S1|]. split; [exact S2|].
  destruct (decide (q = ph)) as [->|Hn]; [rewrite !lookup_insert; reflexivity|].
  rewrite !lookup_insert_ne by congruence. exact S3.
Qed.
Lemma taken_iff s pl plate : consistent s -> shows s pl ->
  plate_taken pl plate <-> is_Some (st_byPlate s !! plate).
Proof.
  intros C Hs. unfold plate_taken. split.
  - intros (ph & d & Hd & Hp). rewrite <- (proj1 (Hs ph)) in Hd.
    destruct (devAt_Some s C ph d Hd) as (l & _ & _ & _ & Hq). rewrite <- Hp, Hq. eauto.
  - intros (l & Hl). destruct (cs_plate s C _ _ Hl) as (d & Hd & Hp & Hph).
    exists (d_phone d), d. split; [|exact Hp]. rewrite <- (proj1 (Hs _)). unfold devAt. rewrite Hph. exact Hd.
Qed.

(** * One message *)
Definition out_kind (k : mkind) : option mkind :=
  match k with
  | K0002 | K0003 | K0102 | K0200 => Some K8001 | K0100 => Some K8100 | K8100 => Some K0102
  | K8103 => Some K0001 | K8104 => Some K0104 | K9205 => Some K1205 | _ => None
  end.
Lemma known_table id : lookupN optionTable id = match known id with Some k => Some (k, out_kind k) | None => None end.
Proof.
  unfold optionTable. cbn [lookupN].
  repeat match goal with |- context [?a =? id] => destruct (N.eqb_spec a id) as [<-|]; [reflexivity|] end.
  assert (known id = None) as ->; [|reflexivity].
  unfold known. repeat match goal with |- (match ?p with _ => _ end) = None => destruct p; try reflexivity; try congruence end.
Qed.
(** the result of processing that corresponds to an answer to a message with header [h] *)
Definition said (h : header) (a : answer) : res (option msg) :=
  match a with
  | Ok (Some (id, b)) => Ok (Some (mkMsg (with_id h id) b))
  | Ok None => Ok None
  | Err er => Err er
  | Panic => Panic
  end.
Lemma process_known e sl s p k b : consistent s -> known (h_id (pk_hdr p)) = Some k -> kind_of b = k ->
  isFragmented (pk_hdr p) = false \/ pk_segdone p = true ->
  msgDecode (e_o e) (e_civil e (st_clock s)) k p = Ok (mkMsg (pk_hdr p) b) ->
  run (process e sl p) s =
  match out_kind k with
  | None => match b with
            | B8001 _ _ r => match run (process8001 (mkMsg (pk_hdr p) b) r) s with
                             | (Ok _, s') => (Ok None, s') | (Err er, s') => (Err er, s') | (Panic, s') => (Panic, s') end
            | _ => (Ok None, s)
            end
  | Some k' => match genOutgoing (e_civil e (st_clock s)) k' (mkMsg (pk_hdr p) b) with
               | Err er => (Err er, s) | Panic => (Panic, s) | Ok None => (Ok None, s)
               | Ok (Some out) => okSome (run (handler e sl (mkMsg (pk_hdr p) b) out) s)
               end
  end.
Proof.
  intros C Hk Hb Hf Hm. rewrite run_process, known_table, Hk.
  replace (isFragmented (pk_hdr p) && negb (pk_segdone p)) with false.
  - rewrite Hm. reflexivity.
  - destruct Hf as [-> | ->]; [reflexivity|]. rewrite andb_false_r. reflexivity.
Qed.
Lemma touched s f ph l d pl : consistent s -> shows s pl -> st_byPhone s !! ph = Some l -> st_devs s !! l = Some d ->
  d_phone (f d) = ph -> shows (set_devs (alter f l) s) (enter (f d) pl).
Proof.
  intros C Hs Hl Hd Hp. destruct (touch_spec s C f ph l d Hl Hd) as (T1 & _ & T3).
  eapply shows_enter; [exact Hs|rewrite Hp; exact T3|apply rest_kept_devs|rewrite Hp; exact T1].
Qed.
Lemma handle_ok e sl s p b x pl : consistent s -> shows s pl -> st_sess s !! sl = Some x ->
  known (h_id (pk_hdr p)) = Some (kind_of b) -> isFragmented (pk_hdr p) = false \/ pk_segdone p = true ->
  msgDecode (e_o e) (e_civil e (st_clock s)) (kind_of b) p = Ok (mkMsg (pk_hdr p) b) ->
  let r := handle (builtin e) (ss_id x) (ss_conn x) (st_clock s) (e_civil e (st_clock s)) (pk_hdr p) b pl in
  exists s', run (process e sl p) s = (said (pk_hdr p) (snd r), s') /\ shows s' (fst r).
Proof.
  intros C Hs Hx Hk Hf Hm r. rewrite (process_known e sl s p _ b C Hk eq_refl Hf Hm).
  set (h := pk_hdr p) in *. pose proof (Hs (h_phone h)) as (S1 & S2 & S3).
  assert (Hdev : match st_byPhone s !! h_phone h with
                 | None => pf_dev pl !! h_phone h = None
                 | Some l => exists d, st_devs s !! l = Some d /\ pf_dev pl !! h_phone h = Some d /\ d_phone d = h_phone h
                 end).
  { destruct (st_byPhone s !! h_phone h) as [l|] eqn:E.
    - destruct (cs_phone s C _ _ E) as (d & H1 & H2 & _). exists d. split; [exact H1|]. split; [|exact H2].
      rewrite <- S1. unfold devAt. rewrite E. exact H1.
    - rewrite <- S1. apply devAt_None; assumption. }
  subst r. destruct b; cbn [kind_of out_kind] in *; cbn [genOutgoing m_body m_hdr]; unfold handle, handler; cbn [m_body];
    try (exists s; split; [reflexivity|exact Hs]); try discriminate Hk.
  - (* heartbeat *)
    destruct (st_byPhone s !! h_phone h) as [l|] eqn:E.
    + destruct Hdev as (d & Hd & -> & Hp). rewrite (run_0002 s C (mkMsg h B0002) _ l E). eexists. split; [reflexivity|].
      cbn [fst]. exact (touched s (fun d => dset_last d (st_clock s)) _ l d pl C Hs E Hd Hp).
    + rewrite Hdev. rewrite run_0002_none by exact E. exists s. split; [reflexivity|exact Hs].
  - (* logout *)
    destruct (st_byPhone s !! h_phone h) as [l|] eqn:E.
    + destruct Hdev as (d & Hd & -> & Hp). rewrite (run_0003 s C (mkMsg h B0003) _ l d E Hd). eexists. split; [reflexivity|].
      cbn [fst]. rewrite <- Hp in *. destruct (dropped_spec s d l E Hd) as (D1 & _ & D3 & _ & D5).
      eapply shows_strike; eassumption.
    + rewrite Hdev. rewrite run_0003_none by exact E. exists s. split; [reflexivity|exact Hs].
  - (* registration *)
    rewrite (run_0100 s sl x _ r _ _ _ _ Hx). cbn [m_hdr].
    pose proof (taken_iff s pl (r_plate r) C Hs) as Ht.
    destruct (st_byPlate s !! r_plate r) as [lp|] eqn:Ep.
    { rewrite bool_decide_true by (apply Ht; eauto). exists s. split; [reflexivity|exact Hs]. }
    rewrite bool_decide_false by (rewrite Ht; intros (? & ?); discriminate).
    destruct (st_byPhone s !! h_phone h) as [l|] eqn:E.
    { destruct Hdev as (d & Hd & -> & Hp). rewrite bool_decide_true by eauto. exists s. split; [reflexivity|exact Hs]. }
    rewrite Hdev. rewrite bool_decide_false by (intros (? & ?); discriminate).
    eexists. split; [rewrite code_for_gen; reflexivity|]. cbn [fst].
    set (d := newDevice h r x (st_clock s)). destruct (added_spec s C d E Ep) as (A1 & _ & A3 & _ & A5).
    exact (shows_enter s (added s d) pl d _ Hs A3 A5 A1).
  - (* authentication *)
    destruct (st_byPhone s !! h_phone h) as [l|] eqn:E.
    + destruct Hdev as (d & Hd & -> & Hp). rewrite (run_0102 s C (mkMsg h (B0102 alen code imei sw)) _ _ _ _ l d E Hd), code_for_gen, Hp.
      case_bool_decide as Hc.
      * eexists. split; [reflexivity|]. cbn [fst].
        pose proof (touched s (fun d => dset_auth (dset_last (dset_status d Online) (st_clock s)) code imei sw) _ l d pl C Hs E Hd Hp) as T.
        unfold dset_auth, dset_last, dset_status in T. cbn in T. rewrite Hp in T. exact T.
      * eexists. split; [reflexivity|]. cbn [fst].
        rewrite <- Hp in *. destruct (dropped_spec s d l E Hd) as (D1 & _ & D3 & _ & D5).
        eapply shows_strike; eassumption.
    + rewrite Hdev. rewrite run_0102_none by exact E. exists s. split; [reflexivity|exact Hs].
  - (* location *)
    destruct (st_byPhone s !! h_phone h) as [lo|] eqn:E.
    + destruct Hdev as (d & Hd & -> & Hp).
      destruct (run_0200 e s (mkMsg h (B0200 l)) l (mkMsg (hdr_set_id h 0x8001) (B8001 (h_sn h) (h_id h) 0)) lo d C E Hd)
        as (s' & E' & C1 & Htr & Ho & Hon & C'). cbn [m_hdr] in *. rewrite E'. eexists. split; [reflexivity|]. cbn [fst].
      assert (T : shows (set_devs (alter (dozed (st_clock s) l) lo) s)
                    (if N.testbit (l_status l) 0 then pl else enter (heard (st_clock s) Sleeping d) pl)).
      { unfold dozed. destruct (N.testbit (l_status l) 0) eqn:Eb.
        - rewrite (set_devs_id s lo _ d Hd eq_refl). exact Hs.
        - exact (touched s (fun d => dset_last (dset_status d Sleeping) (st_clock s)) _ lo d pl C Hs E Hd Hp). }
      set (pl1 := if N.testbit _ _ then _ else _) in *.
      assert (Hl : pf_loc pl1 = pf_loc pl) by (unfold pl1; destruct (N.testbit _ _); reflexivity).
      destruct Hon as (O1 & O2 & O3 & O4 & _). intros q. destruct (T q) as (T1 & T2 & T3).
      assert (Hd' : devAt s' q = pf_dev pl1 !! q). { rewrite <- T1. unfold devAt. rewrite O1, O3. reflexivity. }
      split; [exact Hd'|]. split; [|cbn; rewrite O4; exact T3].
      destruct (decide (q = h_phone h)) as [->|Hn]; unfold reported; cbn [append pf_loc].
      * rewrite lookup_insert. cbn. unfold reported. rewrite Hl. apply (Htr (reported pl (h_phone h))). exact S2.
      * rewrite lookup_insert_ne by congruence. rewrite Hl. apply (track_ring s); [apply Ho; exact Hn|].
        exact (proj1 (proj2 (Hs q))).
    + rewrite Hdev. rewrite run_0200_none by exact E. exists s. split; [reflexivity|exact Hs].
  - (* general reply *)
    rewrite run_8001 by exact C. cbn [m_hdr]. destruct (res =? 0); [|exists s; split; [reflexivity|exact Hs]].
    destruct (st_byPhone s !! h_phone h) as [l|] eqn:E.
    + destruct Hdev as (d & Hd & -> & Hp). rewrite Hd. destruct (d_status d =? Offline).
      * eexists. split; [reflexivity|]. cbn [fst].
        exact (touched s (fun d => dset_last (dset_status d Online) (st_clock s)) _ l d pl C Hs E Hd Hp).
      * exists s. split; [reflexivity|exact Hs].
    + rewrite Hdev. exists s. split; [reflexivity|exact Hs].
  - (* registration reply *)
    unfold process8100. rewrite run_bind. cbn [getDeviceByPhone rd1 run ret m_hdr]. unfold ret. cbn [run].
    destruct (st_byPhone s !! h_phone h) as [l|] eqn:E.
    + destruct Hdev as (d & Hd & -> & Hp). rewrite run_bind. cbn [readDev run]. rewrite Hd. exists s. split; [reflexivity|exact Hs].
    + rewrite Hdev. exists s. split; [reflexivity|exact Hs].
  - (* set parameters *)
    destruct (msgDecode_8103 _ _ _ _ cnt ps Hm eq_refl) as (d & -> & Hd). fold h in Hd.
    rewrite run_8103. cbn [m_hdr]. rewrite S3. eexists. split; [reflexivity|]. cbn [fst].
    destruct (pf_par pl !! h_phone h) as [old|] eqn:E.
    + rewrite merged_update. rewrite <- S3 in E.
      replace (dp_phone (merged old d)) with (h_phone h); [apply shows_store; exact Hs|].
      cbn. symmetry. exact (cs_params s C _ _ S3).
    + rewrite Hd. apply shows_store. exact Hs.
  - (* query parameters *)
    unfold process8104. rewrite run_bind. unfold getDeviceParamsByPhone, rd1. cbn [run ret m_hdr]. unfold ret. cbn [run].
    change (h_phone (hdr_set_id h 0x0104)) with (h_phone h). rewrite S3. destruct (pf_par pl !! h_phone h) as [ps|].
    + exists s. split; [reflexivity|exact Hs].
    + rewrite run_bind. cbn [lift run]. unfold builtin. 
      destruct (paramsDecode (e_o e) (h_phone h) 39 (Str2Byte_slice paramByteStr)) as [ps|er|] eqn:Ed;
        [|exists s; split; [reflexivity|exact Hs]..].
      cbn. eexists. split; [reflexivity|]. replace (dp_phone ps) with (h_phone h); [apply shows_store; exact Hs|].
      revert Ed. unfold paramsDecode, rmap. destruct (paramsDecodeLoop _ _ _ _); [|discriminate..]. intros [= <-]. reflexivity.
Qed.

(** * One frame *)
Lemma shows_segs f s pl : shows s pl -> shows (set_segs f s) pl.
Proof. intros H. exact H. Qed.
Lemma msgDecode_hdr o now k p m : msgDecode o now k p = Ok m -> m = mkMsg (pk_hdr p) (m_body m) /\ kind_of (m_body m) = k.
Proof.
  intros H. destruct (msgDecode_ok _ _ _ _ _ H) as (H1 & H2). split; [|exact H2]. destruct m. cbn in *. subst. reflexivity.
Qed.
Lemma frame_data e sl s frm x pl : consistent s -> shows s pl -> st_sess s !! sl = Some x ->
  match received e s frm with
  | Some (h, b) =>
      let r := handle (builtin e) (ss_id x) (ss_conn x) (st_clock s) (e_civil e (st_clock s)) h b pl in
      fst (frameOut e sl (Ok frm) s) = said h (snd r) /\ shows (snd (frameOut e sl (Ok frm) s)) (fst r)
  | None => shows (snd (frameOut e sl (Ok frm) s)) pl
  end.
Proof.
  intros C Hs Hx. unfold received, frameOut. rewrite run_bind. cbn [lift run]. rewrite run_bind.
  destruct (decodePacket (e_o e) frm) as [p|er|] eqn:Ed.
  2,3: unfold decodeP; rewrite run_bind; cbn [lift run]; rewrite Ed; exact Hs.
  assert (Hseg : forall q f, pk_hdr q = pk_hdr p -> isFragmented (pk_hdr q) && negb (pk_segdone q) = true ->
    shows (snd (run (process e sl q) (set_segs f s))) pl).
  { intros q f Hh Hq. rewrite run_process. destruct (lookupN _ _) as [[ik ok]|]; [|exact Hs]. rewrite Hq.
    assert (C' : consistent (set_segs f s)) by (apply consistent_segs; exact C).
    rewrite run_segment by exact C'. destruct (devAt _ _) as [d|]; [|exact Hs].
    destruct (st_byID _ !! _) as [sl'|]; [|exact Hs]. destruct (st_sess (set_segs f s) !! sl'); exact Hs. }
  assert (Hmsg : forall q f, pk_hdr q = pk_hdr p -> isFragmented (pk_hdr q) && negb (pk_segdone q) = false ->
    (forall k now, msgDecode (e_o e) now k q = msgDecode (e_o e) now k p) ->
    match known (h_id (pk_hdr p)) with
    | Some k => match msgDecode (e_o e) (e_civil e (st_clock s)) k p with
                | Ok m => let r := handle (builtin e) (ss_id x) (ss_conn x) (st_clock s) (e_civil e (st_clock s)) (m_hdr m) (m_body m) pl in
                          fst (run (process e sl q) (set_segs f s)) = said (m_hdr m) (snd r)
                          /\ shows (snd (run (process e sl q) (set_segs f s))) (fst r)
                | _ => shows (snd (run (process e sl q) (set_segs f s))) pl
                end
    | None => shows (snd (run (process e sl q) (set_segs f s))) pl
    end).
  { intros q f Hh Hq Hdec. assert (C' : consistent (set_segs f s)) by (apply consistent_segs; exact C).
    destruct (known (h_id (pk_hdr p))) as [k|] eqn:Ek.
    - destruct (msgDecode (e_o e) (e_civil e (st_clock s)) k p) as [m|er|] eqn:Em.
      + destruct (msgDecode_hdr _ _ _ _ _ Em) as (Hm1 & Hm2). set (b := m_body m) in *. rewrite Hm1. cbn [m_hdr m_body].
        rewrite <- Hm2 in Em, Ek. rewrite Hm1 in Em. rewrite <- Hh in *.
        destruct (handle_ok e sl (set_segs f s) q b x pl C' Hs Hx Ek) as (s' & E & Hs').
        * apply andb_false_iff in Hq as [Hq|Hq]; [left; exact Hq|right; apply negb_false_iff; exact Hq].
        * cbn [set_segs st_clock]. rewrite Hdec. exact Em.
        * rewrite E. split; [reflexivity|exact Hs'].
      + rewrite run_process, known_table, Hh, Ek. rewrite Hh in Hq. rewrite Hq. cbn [set_segs st_clock]. rewrite Hdec, Em. exact Hs.
      + rewrite run_process, known_table, Hh, Ek. rewrite Hh in Hq. rewrite Hq. cbn [set_segs st_clock]. rewrite Hdec, Em. exact Hs.
    - rewrite run_process, known_table, Hh, Ek. exact Hs. }
  unfold whole. change (a_frag (h_attr (pk_hdr p)) =? 1) with (isFragmented (pk_hdr p)).
  destruct (isFragmented (pk_hdr p)) eqn:Ef.
  - destruct (h_frag (pk_hdr p)) as [f|] eqn:Eg.
    + rewrite (run_decodeP_frag e frm s p f Ed Ef Eg). destruct (st_segs s !! segKey _ _) as [y|] eqn:Ey.
      * match goal with |- context [set_segs ?u s] => set (g := u) end.
        match goal with |- context [process e sl ?u] => set (q := u) end.
        assert (Hdone : pk_segdone q = (f_index f =? sg_total y)) by reflexivity.
        destruct (f_index f =? sg_total y) eqn:Ei.
        -- assert (Hq : isFragmented (pk_hdr q) && negb (pk_segdone q) = false) by (rewrite Hdone; cbn; rewrite andb_false_r; reflexivity).
           pose proof (Hmsg q g eq_refl Hq (fun k now => eq_refl)) as H.
           destruct (known _) as [k|]; [|exact H]. destruct (msgDecode _ _ _ _) as [m|er|]; exact H.
        -- assert (Hq : isFragmented (pk_hdr q) && negb (pk_segdone q) = true) by (rewrite Hdone; cbn; rewrite Ef; reflexivity).
           pose proof (Hseg q g eq_refl Hq) as H. destruct (known _); exact H.
      * destruct (known _); exact Hs.
    + unfold decodeP. rewrite run_bind. cbn [lift run]. rewrite Ed, Ef, Eg. destruct (known _); exact Hs.
  - assert (E : run (decodeP e frm) s = (Ok p, s)).
    { unfold decodeP. rewrite run_bind. cbn [lift run]. rewrite Ed, Ef. reflexivity. }
    rewrite E. assert (Hid : s = set_segs (fun m => m) s) by (destruct s; reflexivity).
    assert (Hq : isFragmented (pk_hdr p) && negb (pk_segdone p) = false) by (rewrite Ef; reflexivity).
    pose proof (Hmsg p (fun m => m) eq_refl Hq (fun k now => eq_refl)) as H. rewrite <- Hid in H.
    destruct (known _) as [k|]; [|exact H]. destruct (msgDecode _ _ _ _) as [m|er|]; exact H.
Qed.

(** * Histories *)
Definition same_data (s s' : st) : Prop :=
  forall q, devAt s' q = devAt s q /\ ringOf s' q = ringOf s q /\ st_params s' !! q = st_params s !! q.
Lemma same_conns f s : same_data s (set_conns f s).
Proof. intros q. repeat split. Qed.
Lemma serve_same e sl r w s x k : consistent s -> st_sess s !! sl = Some x -> st_conns s !! ss_conn x = Some k ->
  same_data (snd (frameOut e sl r s)) (snd (run (serveLoop e sl [(r, w)]) s)).
Proof.
  intros C Hx Hk. destruct (frameOut_kept e sl r s (ss_conn x) C (ex_intro _ x Hx)) as (K & Hc).
  assert (exists f, snd (run (processConnRead e sl (ss_conn x) r w) s) = set_conns f (snd (frameOut e sl r s))) as (f & Ef).
  { rewrite run_read. destruct (frameOut e sl r s) as [[o|er|] s1]; cbn [fst snd] in *.
    - assert (Hk' : st_conns s1 !! ss_conn x = Some k) by (rewrite Hc; exact Hk).
      rewrite (run_write_exact e (ss_conn x) o w s1 k Hk'). eexists. reflexivity.
    - exists (fun m => m). destruct s1; reflexivity.
    - exists (fun m => m). destruct s1; reflexivity. }
  cbn [serveLoop]. rewrite run_bindR. unfold serveOne. rewrite run_bind. unfold readSess. cbn [run].
  rewrite Hx. cbn [run ret]. rewrite run_bindR.
  destruct (same_sess _ _ (fk_sess _ _ _ _ K) sl x Hx) as (x1 & Hx1 & _).
  destruct (run (processConnRead e sl (ss_conn x) r w) s) as [q s1]. cbn [fst snd] in *. subst s1.
  assert (Hx2 : st_sess (set_conns f (snd (frameOut e sl r s))) !! sl = Some x1) by exact Hx1.
  destruct q as [u|er|]; cbn [run ret panic fst snd].
  - intros q. repeat split.
  - destruct (serveStops er); cbn [negb run ret fst snd].
    + rewrite run_bind, (run_remove sl x1 _ Hx2). intros q. repeat split.
    + intros q. repeat split.
  - rewrite run_bind, (run_remove sl x1 _ Hx2). intros q. repeat split.
Qed.
Lemma check_shows ph s pl : consistent s -> ph ∈ st_jobs s -> shows s pl ->
  shows (snd (run (checkKeepalive ph) s)) (check (st_clock s) ph pl).
Proof.
  intros C Hj Hs. apply (cs_jobs2 s C) in Hj as (l & Hl). destruct (cs_phone s C _ _ Hl) as (d & Hd & Hp & _).
  rewrite (run_keepalive ph s l d C Hl Hd). cbn [snd]. unfold check, expired.
  rewrite <- (proj1 (Hs ph)). unfold devAt. rewrite Hl, Hd.
  destruct (Z.ltb_spec (d_keep d + d_last d) (st_clock s)), (Z.leb_spec (st_clock s) (d_last d + d_keep d)); try lia; [|exact Hs].
  destruct (d_status d =? Offline).
  - set (s1 := set_conns (alter (fun y => mkConn false (cn_out y)) (d_conn d)) s).
    destruct (dropped_spec s1 d l ltac:(rewrite Hp; exact Hl) Hd) as (D1 & _ & D3 & _ & D5). rewrite Hp in D1, D3.
    pose proof (shows_strike s1 (dropped s1 d) pl ph _ Hs D3 D5 D1) as S. intros q. destruct (S q) as (S1 & S2 & S3).
    split; [exact S1|]. split; [|exact S3]. unfold forget, reported, track, ringOf, cleared in *. cbn [pf_loc st_geo set_geo] in *.
    rewrite Hp. destruct (decide (q = ph)) as [->|Hn].
    + rewrite !lookup_delete. reflexivity.
    + rewrite !lookup_delete_ne by congruence. exact S2.
  - exact (touched s (fun d => dset_status d Offline) ph l d pl C Hs Hl Hd Hp).
Qed.
Lemma step_shows e w ev pl : world_ok w -> shows (w_st w) pl -> shows (w_st (step e w ev)) (advance e w ev pl).
Proof.
  intros [C D L R] Hs. unfold step. rewrite D. destruct ev as [c addr|sl r x|ph| |ph|ph x|ph bad ps x|t]; cbn [advance].
  - destruct (st_conns (w_st w) !! c) as [k|] eqn:Ec; [exact Hs|].
    destruct (accept_ok (w_st w) c addr C Ec) as (E & _). rewrite E. exact Hs.
  - case_bool_decide as Hl; [|destruct r; exact Hs].
    destruct (L sl Hl) as (y & Hy). destruct (cs_conn _ C _ _ Hy) as ((k & Hk) & _). rewrite Hy.
    pose proof (serve_same e sl r x (w_st w) y k C Hy Hk) as Hd.
    assert (Hf : shows (snd (frameOut e sl r (w_st w)))
       match r with
       | Ok frm => match received e (w_st w) frm with
          | Some (h, b) => fst (handle (builtin e) (ss_id y) (ss_conn y) (st_clock (w_st w)) (e_civil e (st_clock (w_st w))) h b pl)
          | None => pl end
       | _ => pl end).
    { destruct r as [frm|er|]; [|exact Hs..]. pose proof (frame_data e sl (w_st w) frm y pl C Hs Hy) as H.
      destruct (received e (w_st w) frm) as [[h b]|]; [apply H|exact H]. }
    assert (Hf' : shows (snd (run (serveLoop e sl [(r, x)]) (w_st w)))
       match r with
       | Ok frm => match received e (w_st w) frm with
          | Some (h, b) => fst (handle (builtin e) (ss_id y) (ss_conn y) (st_clock (w_st w)) (e_civil e (st_clock (w_st w))) h b pl)
          | None => pl end
       | _ => pl end) by exact (shows_same _ _ _ Hd Hf).
    destruct (run (serveLoop e sl [(r, x)]) (w_st w)) as [[[]|er|] s']; cbn [w_st snd] in *; destruct r as [frm|er'|]; exact Hf'.
  - case_bool_decide as Hj.
    + destruct (keepalive_ok ph (w_st w) C Hj) as (E & _). pose proof (check_shows ph (w_st w) pl C Hj Hs) as H.
      destruct (run (checkKeepalive ph) (w_st w)) as [q s']. cbn [fst snd] in *. subst q. exact H.
    + assert (Hn : devAt (w_st w) ph = None).
      { apply devAt_None; [exact C|]. destruct (st_byPhone (w_st w) !! ph) eqn:E; [|reflexivity].
        destruct Hj. apply (cs_jobs2 _ C). eauto. }
      unfold check. rewrite <- (proj1 (Hs ph)), Hn. exact Hs.
  - exact Hs.
  - pose proof (run_apiGeo ph (w_st w) C) as H. cbn [w_st]. destruct (st_byPhone (w_st w) !! ph) as [l|]; [|rewrite H; exact Hs].
    destruct H as (s' & (H1 & H2 & H3 & H4 & _) & _ & Ho & Ht).
    destruct (Ht (reported pl ph) (proj1 (proj2 (Hs ph)))) as (T & E). rewrite E. cbn [snd].
    intros q. destruct (Hs q) as (S1 & S2 & S3).
    split; [unfold devAt; rewrite H1, H3; exact S1|]. split; [|rewrite H4; exact S3].
    destruct (decide (q = ph)) as [->|Hn]; [exact T|]. exact (track_ring _ _ q _ (Ho q Hn) S2).
  - destruct (proj1 (api_kept e ph (w_st w) C) x) as (c & K). exact (shows_same _ _ _ (ck_dev _ _ _ K) Hs).
  - destruct (proj2 (api_kept e ph (w_st w) C) bad ps x) as (c & K). exact (shows_same _ _ _ (ck_dev _ _ _ K) Hs).
  - exact Hs.
Qed.
Lemma follow_shows e evs : forall w pl, world_ok w -> shows (w_st w) pl ->
  shows (w_st (fold_left (step e) evs w)) (follow e w evs pl).
Proof.
  induction evs as [|ev evs IH]; intros w pl Hw Hs; [exact Hs|]. cbn [fold_left follow].
  apply IH; [apply step_ok; exact Hw|apply step_shows; assumption].
Qed.
Lemma init_shows now : shows (init now) no_data.
Proof. intros q. unfold devAt, track, ringOf, reported. cbn. rewrite !lookup_empty. repeat split. Qed.
Lemma refinement e now evs : shows (w_st (history e now evs)) (follow e (world0 now) evs no_data).
Proof. apply follow_shows; [exact (history_ok e now [])|apply init_shows]. Qed.

(** ** What is answered *)
Lemma fails_goesOn er : match er with ErrEOF | ErrClosedPipe | ErrNetClosed | ErrDeviceNotFound => false | _ => true end
  = negb (serveStops er).
Proof. destruct er; reflexivity. Qed.
Lemma outcome_sent e k h a : outcome e k h a = (sent e k (said h a) None, goesOn (ends e k (said h a) None)).
Proof.
  destruct a as [[[id b]|]|er|]; cbn [outcome said sent ends goesOn]; try reflexivity.
  - destruct (encodePacket (e_o e) (mkMsg (with_id h id) b)) as [f|er|]; [|cbn [goesOn]; rewrite fails_goesOn; reflexivity|reflexivity].
    destruct (cn_open k); reflexivity.
  - rewrite fails_goesOn. reflexivity.
Qed.
Lemma answered e now evs sl frm x k h b :
  let w := history e now evs in
  let pl := follow e (world0 now) evs no_data in
  let s := w_st w in
  let w' := step e w (EFrame sl (Ok frm) None) in
  sl ∈ w_live w -> st_sess s !! sl = Some x -> st_conns s !! ss_conn x = Some k -> received e s frm = Some (h, b) ->
  let o := outcome e k h (snd (handle (builtin e) (ss_id x) (ss_conn x) (st_clock s) (e_civil e (st_clock s)) h b pl)) in
  st_conns (w_st w') !! ss_conn x = Some (mkConn (snd o && cn_open k) (cn_out k ++ fst o))
  /\ (forall c, c <> ss_conn x -> st_conns (w_st w') !! c = st_conns s !! c)
  /\ w_live w' = (if snd o then w_live w else w_live w ∖ {[sl]}).
Proof.
  intros w pl s w' Hl Hx Hk Hr o. pose proof (history_ok e now evs) as H. fold w in H. destruct H as [C D L R].
  fold s in C. pose proof (frame_data e sl s frm x pl C (refinement e now evs) Hx) as F. rewrite Hr in F. cbv zeta in F. destruct F as (F & _).
  destruct (serve_frame e sl (Ok frm) None s x k C Hx Hk) as (s' & E & _ & _ & Hc & Hc' & _). rewrite F in *.
  unfold o. rewrite outcome_sent. cbn [fst snd]. set (g := goesOn _) in *.
  assert (Ew : w' = mkWorld s' (if g then w_live w else w_live w ∖ {[sl]}) false).
  { unfold w', step. rewrite D, bool_decide_true by exact Hl. fold s. rewrite E. destruct g; reflexivity. }
  rewrite Ew. cbn [w_st w_live]. auto.
Qed.

(** * What can happen to a device *)
Definition keyed (pl : platform) : Prop := forall ph d, pf_dev pl !! ph = Some d -> d_phone d = ph.
Lemma shows_keyed s pl : consistent s -> shows s pl -> keyed pl.
Proof. intros C H ph d Hd. rewrite <- (proj1 (H ph)) in Hd. destruct (devAt_Some s C ph d Hd) as (l & _ & _ & Hp & _). exact Hp. Qed.
Definition hears (b : body) (d : device) (st : N) : Prop :=
  (b = B0002 /\ st = d_status d)
  \/ (exists m, b = B0200 m /\ N.testbit (l_status m) 0 = false /\ st = Sleeping)
  \/ (exists sn id, b = B8001 sn id 0 /\ d_status d = Offline /\ st = Online).
Definition may_become (addr : str) (c : nat) (t : Z) (h : header) (b : body) (ph : str) (old new : option device) : Prop :=
  new = old
  \/ (h_phone h = ph /\
      (new = None
       \/ (exists d st, old = Some d /\ new = Some (heard t st d) /\ hears b d st)
       \/ (exists d al code imei sw, old = Some d /\ b = B0102 al code imei sw /\ code = code_for (d_id d) (d_plate d) ph
             /\ new = Some (mkDevice (d_id d) (d_plate d) ph (d_sid d) (d_conn d) (d_keep d) t Online (d_ver d) (d_proto d) code imei sw))
       \/ (exists r, old = None /\ b = B0100 r
             /\ new = Some (mkDevice (r_devid r) (r_plate r) ph addr c 60000 t Offline (a_ver (h_attr h)) (h_proto h) [] [] [])))).
Lemma handle_dev dflt addr c t now h b pl ph : keyed pl ->
  may_become addr c t h b ph (pf_dev pl !! ph) (pf_dev (fst (handle dflt addr c t now h b pl)) !! ph).
Proof.
  intros K.
  assert (He : forall d p, pf_dev (enter d p) !! ph = if decide (d_phone d = ph) then Some d else pf_dev p !! ph).
  { intros d p. cbn [enter pf_dev]. case_decide as Hd; [rewrite <- Hd; apply lookup_insert|apply lookup_insert_ne; exact Hd]. }
  assert (Hs : pf_dev (strike (h_phone h) pl) !! ph = if decide (h_phone h = ph) then None else pf_dev pl !! ph).
  { cbn [strike pf_dev]. case_decide as Hd; [rewrite <- Hd; apply lookup_delete|apply lookup_delete_ne; exact Hd]. }
  assert (Hh : forall d st, pf_dev pl !! h_phone h = Some d -> hears b d st ->
     may_become addr c t h b ph (pf_dev pl !! ph) (pf_dev (enter (heard t st d) pl) !! ph)).
  { intros d st Hd Hb. rewrite He. cbn [heard d_phone]. rewrite (K _ _ Hd). case_decide as E; [|left; reflexivity].
    right. split; [exact E|]. right. left. exists d, st. rewrite <- E. auto. }
  assert (Hk : may_become addr c t h b ph (pf_dev pl !! ph) (pf_dev (strike (h_phone h) pl) !! ph)).
  { rewrite Hs. case_decide as E; [right; auto|left; reflexivity]. }
  destruct b as [sn id r| | | |r|al code imei sw|? ? ?|m| | |sn num ? ?|sn id r|?|sn r code|? [ps|]| | |?];
    cbn [handle fst]; try (left; reflexivity).
  all: try (destruct (pf_dev pl !! h_phone h) as [d|] eqn:Ed; [|left; reflexivity]; cbn [fst]).
  - apply Hh; [reflexivity|]. left. auto.
  - exact Hk.
  - case_bool_decide as H1; [left; reflexivity|]. case_bool_decide as H2; [left; reflexivity|]. cbn [fst]. rewrite He. cbn [d_phone].
    case_decide as E; [|left; reflexivity]. right. split; [exact E|]. do 3 right. exists r. rewrite <- E.
    apply eq_None_not_Some in H2. auto.
  - case_bool_decide as Hc; cbn [fst]; [|exact Hk]. rewrite He. cbn [d_phone].
    case_decide as E; [|left; reflexivity]. right. split; [exact E|]. do 2 right. left. exists d, al, code, imei, sw. rewrite <- E. auto.
  - cbn [append pf_dev]. destruct (N.testbit (l_status m) 0) eqn:Em; [left; reflexivity|].
    apply Hh; [reflexivity|]. right. left. eauto.
  - destruct (N.eqb_spec r 0) as [->|]; [|left; reflexivity].
    destruct (pf_dev pl !! h_phone h) as [d|] eqn:Ed; [|left; reflexivity]. cbn [fst].
    destruct (N.eqb_spec (d_status d) Offline); [|left; reflexivity].
    apply Hh; [reflexivity|]. right. right. eauto.
  - left. reflexivity.
  - destruct (pf_par pl !! h_phone h); [left; reflexivity|]. destruct (dflt (h_phone h)); left; reflexivity.
Qed.

(** what an event does to the device of a phone *)
Lemma event_dev e now evs ev ph :
  let w := history e now evs in let s := w_st w in let s' := w_st (step e w ev) in
  devAt s' ph = devAt s ph
  \/ (ev = ETick ph /\ exists d, devAt s ph = Some d /\ (d_last d + d_keep d < st_clock s)%Z
        /\ devAt s' ph = if d_status d =? Offline then None else Some (with_status d Offline))
  \/ (exists sl frm wr x h b, ev = EFrame sl (Ok frm) wr /\ sl ∈ w_live w /\ st_sess s !! sl = Some x
        /\ received e s frm = Some (h, b) /\ may_become (ss_id x) (ss_conn x) (st_clock s) h b ph (devAt s ph) (devAt s' ph)).
Proof.
  intros w s s'. pose proof (history_ok e now evs) as W. fold w in W. pose proof (refinement e now evs) as R. fold w in R. fold s in R.
  pose proof (step_shows e w ev _ W R) as R'. fold s' in R'. set (pl := follow e (world0 now) evs no_data) in *.
  pose proof (shows_keyed s pl (wo_ok _ W) R) as K. rewrite (proj1 (R ph)), (proj1 (R' ph)).
  destruct ev as [c addr|sl [frm|er|] x|p| |p|p x|p bad ps x|t]; cbn [advance]; try (left; reflexivity).
  - case_bool_decide as Hl; [|left; reflexivity]. fold s. destruct (st_sess s !! sl) as [y|] eqn:Hy; [|left; reflexivity].
    destruct (received e s frm) as [[h b]|] eqn:Hr; [|left; reflexivity]. right. right.
    exists sl, frm, x, y, h, b. do 4 (split; [first [reflexivity|assumption]|]). apply handle_dev. exact K.
  - fold s. unfold check. destruct (pf_dev pl !! p) as [d|] eqn:Hd; [|left; reflexivity].
    destruct (Z.leb_spec (st_clock s) (d_last d + d_keep d)); [left; reflexivity|].
    pose proof (K _ _ Hd) as Hp. destruct (decide (p = ph)) as [->|Hn].
    + right. left. split; [reflexivity|]. exists d. split; [exact Hd|]. split; [exact H|].
      destruct (d_status d =? Offline); cbn [forget strike enter pf_dev with_status d_phone].
      * apply lookup_delete.
      * rewrite Hp. apply lookup_insert.
    + left. destruct (d_status d =? Offline); cbn [forget strike enter pf_dev with_status d_phone].
      * apply lookup_delete_ne. exact Hn.
      * rewrite Hp. apply lookup_insert_ne. exact Hn.
Qed.
