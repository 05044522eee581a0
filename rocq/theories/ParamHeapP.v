(** Proofs about the parameter objects (C112) *)
From Coq Require Import ZifyBool ZifyNat ZifyN Sorted.
From stdpp Require Import gmap.
From Verif Require Import Base HexM ParamsM MsgM HeaderM ProgM ProgP StateM ProcM ParamHeapM SpecCodec SpecState SpecParamHeap ParamsP CmdP.
Local Open Scope N_scope.

(** ** One message at a time *)
Lemma update_of old d : paramsUpdate old d =
  mkParams (dp_phone old) (dp_cnt (paramsUpdate (mkParams [] 0 (dp_list old)) d)) (dp_list (paramsUpdate (mkParams [] 0 (dp_list old)) d)).
Proof. reflexivity. Qed.
Lemma linked_inj h ph ph' l : linked h -> ph_map h !! ph = Some l -> ph_map h !! ph' = Some l -> ph = ph'.
Proof. intros H E E'. destruct (H _ _ E) as (d & E1 & <-). destruct (H _ _ E') as (d' & E2 & <-). congruence. Qed.
Lemma linked_fresh h l ph : linked h -> ph_obj h !! l = None -> ph_map h !! ph <> Some l.
Proof. intros H E E'. destruct (H _ _ E') as (d & E1 & _). congruence. Qed.
Lemma fresh_obj h : ph_obj h !! fresh (dom (ph_obj h)) = None.
Proof. apply not_elem_of_dom. apply is_fresh. Qed.
Definition store (h : pheap) (ph : str) (d : devparams) (h' : pheap) : Prop :=
  linked h' /\ forall q, cached h' q = if decide (q = ph) then Some d else cached h q.
Lemma store_new h d : linked h -> let l := fresh (dom (ph_obj h)) in
  store h (dp_phone d) d (set_map (<[dp_phone d := l]>) (set_obj (<[l := d]>) h)).
Proof.
  intros H l. pose proof (fresh_obj h) as F. fold l in F. split.
  - intros q l'. cbn. destruct (decide (q = dp_phone d)) as [->|Hn].
    + rewrite lookup_insert. intros [= <-]. rewrite lookup_insert. eauto.
    + rewrite lookup_insert_ne by congruence. intros E. destruct (H _ _ E) as (d' & E1 & E2). exists d'. split; [|exact E2].
      rewrite lookup_insert_ne; [exact E1|]. intros <-. congruence.
  - intros q. unfold cached. cbn. destruct (decide (q = dp_phone d)) as [->|Hn].
    + rewrite !lookup_insert. reflexivity.
    + rewrite lookup_insert_ne by congruence. destruct (ph_map h !! q) as [l'|] eqn:E; [|reflexivity].
      apply lookup_insert_ne. intros <-. exact (linked_fresh h l q H F E).
Qed.
Lemma store_alter h ph l d d' : linked h -> ph_map h !! ph = Some l -> ph_obj h !! l = Some d -> dp_phone d' = dp_phone d ->
  store h ph d' (set_map (<[dp_phone d' := l]>) (set_obj (<[l := d']>) h)).
Proof.
  intros H E Ed Ep. destruct (H _ _ E) as (d0 & E0 & Hph). rewrite Ed in E0. injection E0 as <-. rewrite Ep, Hph. split.
  - intros q l'. cbn. destruct (decide (q = ph)) as [->|Hn].
    + rewrite lookup_insert. intros [= <-]. rewrite lookup_insert. exists d'. split; [reflexivity|congruence].
    + rewrite lookup_insert_ne by congruence. intros E'. destruct (H _ _ E') as (d1 & E1 & E2). exists d1. split; [|exact E2].
      rewrite lookup_insert_ne; [exact E1|]. intros <-. apply Hn. symmetry. exact (linked_inj h _ _ _ H E E').
  - intros q. unfold cached. cbn. destruct (decide (q = ph)) as [->|Hn].
    + rewrite !lookup_insert. reflexivity.
    + rewrite lookup_insert_ne by congruence. destruct (ph_map h !! q) as [l'|] eqn:E'; [|reflexivity].
      apply lookup_insert_ne. intros <-. apply Hn. symmetry. exact (linked_inj h _ _ _ H E E').
Qed.
Lemma run_set h ph d : linked h -> dp_phone d = ph ->
  exists h', run (hSet ph d) h = (Ok tt, h')
    /\ store h ph (match cached h ph with None => d | Some old => paramsUpdate old d end) h'.
Proof.
  intros H Hd. unfold hSet. rewrite run_bind. cbn [hGet rd1 run ret]. unfold cached at 1. destruct (ph_map h !! ph) as [l|] eqn:El.
  - destruct (H _ _ El) as (old & Eo & Hph). rewrite Eo. unfold hUpdate.
    repeat (rewrite run_bind || (cbn [hList hSetList hSetCnt hCache wr1 run ret fst snd]; rewrite ?Eo)).
    cbn [ret run]. unfold set_obj. cbn [ph_map ph_obj].
    rewrite !lookup_alter, Eo. cbn [fmap option_fmap option_map ret run dp_phone].
    eexists. split; [reflexivity|].
    pose proof (store_alter h ph l old (paramsUpdate old d) H El Eo eq_refl) as S.
    match goal with |- store _ _ _ ?u => replace u with (set_map (<[dp_phone (paramsUpdate old d):=l]>) (set_obj (<[l:=paramsUpdate old d]>) h)); [exact S|] end.
    unfold set_map, set_obj. cbn [ph_map ph_obj]. f_equal. apply map_eq. intros i. destruct (decide (i = l)) as [->|Hn].
    + rewrite lookup_insert, !lookup_alter, Eo. reflexivity.
    + rewrite lookup_insert_ne, !lookup_alter_ne by congruence. reflexivity.
  - rewrite run_bind. cbn [hNew run ret hCache]. cbn [ph_obj set_obj]. rewrite lookup_insert. cbn [run ret]. eexists. split; [reflexivity|].
    subst ph. exact (store_new h d H).
Qed.
Lemma run_query h ph def : linked h -> dp_phone def = ph ->
  exists h', let d := default def (cached h ph) in
    run (hQuery ph def) h = (Ok (dp_cnt d, dp_list d), h')
    /\ match cached h ph with None => store h ph def h' | Some _ => h' = h end.
Proof.
  intros H Hd. unfold hQuery. rewrite run_bind. cbn [hGet rd1 run ret]. unfold cached. destruct (ph_map h !! ph) as [l|] eqn:El.
  - destruct (H _ _ El) as (old & Eo & Hph). rewrite Eo. cbn [default from_option]. rewrite run_bind. cbn [ret run].
    repeat (rewrite run_bind || (cbn [hList hCnt run ret fst snd]; rewrite ?Eo)). cbn [ret run]. eexists. split; reflexivity.
  - rewrite run_bind. rewrite run_bind. cbn [hNew run ret]. rewrite run_bind. cbn [hCache run ret ph_obj set_obj]. rewrite lookup_insert. cbn [run ret].
    repeat (rewrite run_bind || (cbn [hList hCnt run ret fst snd ph_obj set_map set_obj]; rewrite ?lookup_insert)). cbn [run ret].
    eexists. split; [reflexivity|]. subst ph. exact (store_new h def H).
Qed.
Lemma store_same h ph d h' s : store h ph d h' -> same_params h s -> same_params h' (set_params (<[ph := d]>) s).
Proof.
  intros (_ & S) H q. rewrite S. cbn. destruct (decide (q = ph)) as [->|Hn]; [apply lookup_insert|].
  rewrite lookup_insert_ne by congruence. apply H.
Qed.
Lemma set_refines h s inc d out : linked h -> same_params h s -> dp_phone d = h_phone (m_hdr inc) ->
  exists h' s', run (hSet (h_phone (m_hdr inc)) d) h = (Ok tt, h') /\ run (process8103 inc (Some d) out) s = (Ok out, s')
    /\ linked h' /\ same_params h' s'.
Proof.
  intros H Hs Hd. destruct (run_set h _ d H Hd) as (h' & E & S). exists h'. eexists. split; [exact E|].
  split. { unfold process8103. rewrite run_bind. cbn [getDeviceParamsByPhone rd1 run ret]. rewrite run_bind. cbn [cacheDeviceParams wr1 run ret]. reflexivity. }
  split; [apply S|]. rewrite (Hs (h_phone (m_hdr inc))).
  replace (dp_phone (match cached h (h_phone (m_hdr inc)) with Some old => paramsUpdate old d | None => d end)) with (h_phone (m_hdr inc)).
  - eapply store_same; eassumption.
  - destruct (cached h (h_phone (m_hdr inc))) as [old|] eqn:Ec; [|congruence]. unfold cached in Ec.
    destruct (ph_map h !! h_phone (m_hdr inc)) as [l|] eqn:El; [|discriminate]. destruct (H _ _ El) as (o & Eo & Hp). cbn. congruence.
Qed.
Lemma query_refines h s e out sn cnt x def : linked h -> same_params h s -> m_body out = B0104 sn cnt x ->
  paramsDecode (e_o e) (h_phone (m_hdr out)) 39 (Str2Byte_slice paramByteStr) = Ok def -> dp_phone def = h_phone (m_hdr out) ->
  exists h' s' d, run (hQuery (h_phone (m_hdr out)) def) h = (Ok (dp_cnt d, dp_list d), h')
    /\ run (process8104 e out) s = (Ok (mkMsg (m_hdr out) (B0104 sn cnt (Some d))), s')
    /\ linked h' /\ same_params h' s'.
Proof.
  intros H Hs Hb Hd Hp. destruct (run_query h _ def H Hp) as (h' & E & S). exists h'.
  unfold process8104. rewrite run_bind. cbn [getDeviceParamsByPhone rd1 run ret]. rewrite (Hs (h_phone (m_hdr out))), Hb.
  destruct (cached h (h_phone (m_hdr out))) as [d|].
  - exists s, d. split; [exact E|]. split; [reflexivity|]. subst h'. auto.
  - rewrite run_bind. unfold lift. cbn [run]. rewrite Hd. cbn [run]. rewrite run_bind. cbn [cacheDeviceParams wr1 run ret].
    eexists _, def. split; [exact E|]. split; [reflexivity|]. split; [apply S|]. rewrite Hp. eapply store_same; eassumption.
Qed.

(** ** Two at the same time *)
Lemma lost h ph l old d1 d2 : linked h -> ph_map h !! ph = Some l -> ph_obj h !! l = Some old ->
  exists sch h', prunning [PSet ph d1; PSet ph d2] h sch = ([Ret (Ok None); Ret (Ok None)], h')
    /\ cached h' ph = Some (paramsUpdate old d1).
Proof.
  intros H El Eo. destruct (H _ _ El) as (o & Eo' & Hph). rewrite Eo in Eo'. injection Eo' as <-.
  exists [0; 0; 1; 1; 1; 1; 1; 0; 0; 0]%nat. unfold prunning. cbn [List.map pcode psteps].
  unfold hSet, hUpdate, pbind, pstep, hGet, hList, hSetList, hSetCnt, hCache, rd1, wr1, ret, pbindR.
  cbn [nth_error pbindR firstn skipn app Nat.add]. rewrite El. cbn [nth_error pbindR firstn skipn app Nat.add]. rewrite Eo.
  cbn [nth_error pbindR firstn skipn app Nat.add]. rewrite El. cbn [nth_error pbindR firstn skipn app Nat.add]. rewrite Eo.
  cbn [nth_error pbindR firstn skipn app Nat.add set_obj ph_obj ph_map]. rewrite !lookup_alter, Eo.
  cbn [nth_error pbindR firstn skipn app Nat.add set_obj set_map ph_obj ph_map fmap option_fmap option_map]. rewrite !lookup_alter, Eo.
  cbn [nth_error pbindR firstn skipn app Nat.add set_obj set_map ph_obj ph_map fmap option_fmap option_map dp_phone].
  eexists. split; [reflexivity|].
  unfold cached, set_obj, set_map. repeat (progress cbn [ph_map ph_obj fmap option_fmap option_map dp_phone] || rewrite !lookup_alter || rewrite Eo).
  rewrite Hph, !lookup_insert, !lookup_alter, Eo. reflexivity.
Qed.
Lemma lost_value h ph l old d1 d2 id q q' : linked h -> ph_map h !! ph = Some l -> ph_obj h !! l = Some old ->
  value_of old id = Some q -> value_of d1 id = None -> value_of d2 id = Some q' ->
  exists sch h' d, prunning [PSet ph d1; PSet ph d2] h sch = ([Ret (Ok None); Ret (Ok None)], h')
    /\ cached h' ph = Some d /\ value_of d id = Some q.
Proof.
  intros H El Eo V V1 V2. destruct (lost h ph l old d1 d2 H El Eo) as (sch & h' & E1 & E2). exists sch, h', (paramsUpdate old d1).
  split; [exact E1|]. split; [exact E2|]. rewrite update_value, V, V1. reflexivity.
Qed.
(** two first settings: one of them is gone *)
Lemma lost_first h ph d1 d2 : ph_map h !! ph = None -> dp_phone d1 = ph -> dp_phone d2 = ph ->
  exists sch h', prunning [PSet ph d1; PSet ph d2] h sch = ([Ret (Ok None); Ret (Ok None)], h') /\ cached h' ph = Some d1.
Proof.
  intros El H1 H2. exists [0; 1; 1; 1; 0; 0]%nat. unfold prunning. cbn [List.map pcode psteps].
  unfold hSet, hUpdate, pbind, pstep, hGet, hNew, hCache, rd1, wr1, ret, pbindR.
  repeat (progress cbn [nth_error pbindR firstn skipn app Nat.add set_obj set_map ph_obj ph_map] || rewrite El || rewrite lookup_insert).
  eexists. split; [reflexivity|].
  unfold cached, set_map, set_obj. cbn [ph_map ph_obj]. rewrite H1, !lookup_insert. reflexivity.
Qed.

(** ** Duplicates: the count and the list do not belong together *)
Lemma update_ids old d : base.NoDup (List.map p_id (dp_list (paramsUpdate old d)))
  /\ (forall id, In id (List.map p_id (dp_list (paramsUpdate old d))) <-> In id (List.map p_id (dp_list old))).
Proof.
  destruct (paramsUpdate_spec old d) as (_ & _ & Hs & Hf). set (u := paramsUpdate old d) in *. split.
  - apply NoDup_ListNoDup. clear Hf. induction Hs as [|a l Hs IH Hl]; cbn; [constructor|]. constructor; [|exact IH].
    intros Hin. apply in_map_iff in Hin as (b & E & Hb). rewrite List.Forall_forall in Hl. specialize (Hl b Hb). cbn in Hl. lia.
  - intros id. specialize (Hf id).
    assert (F : forall l : list param, In id (List.map p_id l) <-> find (fun q => p_id q =? id) l <> None).
    { intros l. split.
      - intros Hin E. apply in_map_iff in Hin as (b & Eb & Hb). pose proof (find_none _ _ E b Hb) as X. cbn in X. lia.
      - intros Hn. destruct (find _ l) as [b|] eqn:E; [|congruence]. apply find_some in E as (Hb & Eb). apply in_map_iff. exists b. split; [cbn in Eb; lia|exact Hb]. }
    rewrite (F (dp_list u)), Hf. unfold last_with.
    rewrite <- (rev_involutive (dp_list old)) at 2. rewrite map_rev, <- in_rev, F.
    destruct (find (fun q => p_id q =? id) (rev (dp_list old))) as [q|]; [|tauto].
    destruct (find (fun q => p_id q =? id) (rev (dp_list d))); split; congruence.
Qed.
Lemma update_length old d : (length (dp_list (paramsUpdate old d)) <= length (dp_list old))%nat
  /\ (length (dp_list (paramsUpdate old d)) = length (dp_list old) <-> distinct (dp_list old)).
Proof.
  destruct (update_ids old d) as (Hn & Hi). apply NoDup_ListNoDup in Hn. set (u := paramsUpdate old d) in *.
  rewrite <- (map_length p_id (dp_list u)), <- (map_length p_id (dp_list old)). split.
  - apply NoDup_incl_length; [exact Hn|]. intros id. apply Hi.
  - unfold distinct. rewrite NoDup_ListNoDup. split.
    + intros E. eapply NoDup_incl_NoDup; [exact Hn|lia|]. intros id. apply Hi.
    + intros Ho. apply Nat.le_antisymm; apply NoDup_incl_length; try assumption; intros id; apply Hi.
Qed.
Lemma torn h ph l old d def : ph_map h !! ph = Some l -> ph_obj h !! l = Some old ->
  exists sch h' p, prunning [PQuery ph def; PSet ph d] h sch =
    ([Ret (Ok (Some (dp_cnt old, dp_list (paramsUpdate old d)))); p], h').
Proof.
  intros El Eo. exists [0; 0; 1; 1; 1; 0]%nat. unfold prunning. cbn [List.map pcode psteps].
  unfold hQuery, hSet, hUpdate, pbind, pstep, hGet, hList, hCnt, hSetList, hSetCnt, hCache, rd1, wr1, ret, pbindR.
  repeat (progress cbn [nth_error pbindR firstn skipn app Nat.add set_obj set_map ph_obj ph_map fmap option_fmap option_map dp_list]
          || rewrite El || rewrite Eo || rewrite lookup_alter).
  do 2 eexists. reflexivity.
Qed.
Lemma torn_count h ph l old d def : ph_map h !! ph = Some l -> ph_obj h !! l = Some old ->
  (length (dp_list old) < 256)%nat -> counted (dp_cnt old) (dp_list old) -> ~ distinct (dp_list old) ->
  exists sch h' p n ps, prunning [PQuery ph def; PSet ph d] h sch = ([Ret (Ok (Some (n, ps))); p], h')
    /\ N.of_nat (length ps) < n.
Proof.
  intros El Eo Hl Hc Hd. destruct (torn h ph l old d def El Eo) as (sch & h' & p & E). exists sch, h', p. do 2 eexists. split; [exact E|].
  destruct (update_length old d) as (L1 & L2). rewrite Hc. rewrite N.mod_small by lia.
  assert (length (dp_list (paramsUpdate old d)) <> length (dp_list old)) by tauto. lia.
Qed.
Lemma param_races h ph l old d def : ph_map h !! ph = Some l -> ph_obj h !! l = Some old ->
  (exists sch, races_on (fun c => c = CParamList l) (fst (prunning [PSet ph d; PSet ph d] h sch)))
  /\ exists sch, races_on (fun c => c = CParamCnt l) (fst (prunning [PQuery ph def; PSet ph d] h sch)).
Proof.
  intros El Eo. split.
  - exists [0; 0; 1]%nat. unfold prunning. cbn [List.map pcode psteps].
    unfold hSet, hUpdate, pbind, pstep, hGet, hList, hCnt, hSetList, hSetCnt, hCache, rd1, wr1, ret, pbindR.
    repeat (progress cbn [nth_error pbindR firstn skipn app Nat.add set_obj set_map ph_obj ph_map fmap option_fmap option_map dp_list fst]
          || rewrite El || rewrite Eo || rewrite lookup_alter).
    exists 0%nat, 1%nat. do 2 eexists. do 2 eexists. split; [discriminate|]. split; [reflexivity|]. split; [reflexivity|].
    split; [left; reflexivity|]. split; [left; reflexivity|]. split; [reflexivity|]. unfold conflict. cbn. rewrite Nat.eqb_refl. reflexivity.
  - exists [0; 1; 1; 1]%nat. unfold prunning. cbn [List.map pcode psteps].
    unfold hQuery, hSet, hUpdate, pbind, pstep, hGet, hList, hCnt, hSetList, hSetCnt, hCache, rd1, wr1, ret, pbindR.
    repeat (progress cbn [nth_error pbindR firstn skipn app Nat.add set_obj set_map ph_obj ph_map fmap option_fmap option_map dp_list fst]
          || rewrite El || rewrite Eo || rewrite lookup_alter).
    exists 0%nat, 1%nat. do 2 eexists. do 2 eexists. split; [discriminate|]. split; [reflexivity|]. split; [reflexivity|].
    split; [left; reflexivity|]. split; [left; reflexivity|]. split; [reflexivity|]. unfold conflict. cbn. rewrite Nat.eqb_refl. reflexivity.
Qed.

(** ** Under every schedule *)
Section SafeAt.
Context {S : Type} (I : S -> Prop) (G : S -> S -> Prop).
Hypothesis Grefl : forall s, G s s.
Hypothesis Gtrans : forall a b c, G a b -> G b c -> G a c.
Lemma psteps_safe_at {A} (Q : nat -> S -> res A -> Prop) sch : forall ps s,
  I s -> (forall j p, nth_error ps j = Some p -> safe I G (Q j) s p) ->
  I (snd (psteps ps s sch)) /\ G s (snd (psteps ps s sch))
  /\ forall j p, nth_error (fst (psteps ps s sch)) j = Some p -> safe I G (Q j) (snd (psteps ps s sch)) p.
Proof.
  induction sch as [|i sch IH]; intros ps s Hi Hs; cbn; [auto|].
  assert (Hp : I (snd (pstep ps s i)) /\ G s (snd (pstep ps s i))
    /\ forall j p, nth_error (fst (pstep ps s i)) j = Some p -> safe I G (Q j) (snd (pstep ps s i)) p).
  { unfold pstep. destruct (nth_error ps i) as [[r|a f k]|] eqn:E; cbn; auto.
    pose proof (Hs i _ E) as H. inversion H as [|? ? ? ? Hk Hk']; subst.
    destruct (Hk s Hi (Grefl s)) as (H1 & H2). pose proof (Hk' s Hi (Grefl s)) as H3. repeat split; [assumption..|].
    intros j p Hj. rewrite (nth_error_upd ps i j (k s) _ E) in Hj.
    destruct (Nat.eqb_spec i j) as [<-|]; [congruence|]. eapply safe_mono; [exact Gtrans|eapply Hs; eassumption|exact H2]. }
  destruct Hp as (H1 & H2 & H3). destruct (pstep ps s i) as [ps' s'] eqn:E. cbn in *.
  destruct (IH ps' s' H1 H3) as (G1 & G2 & G3). repeat split; [exact G1| |exact G3]. eapply Gtrans; eassumption.
Qed.
End SafeAt.
Section Sched.
Context (h0 : pheap) (ms : list pmsg) (nt : bool).
Definition from (ph : str) (p : param) : Prop := comes_from h0 ms ph p.
Record hinv (h : pheap) : Prop := {
  hi_link : linked h;
  hi_from : forall l d, ph_obj h !! l = Some d -> forall p, In p (dp_list d) -> from (dp_phone d) p;
  hi_neat : nt = true -> forall l d, ph_obj h !! l = Some d -> neat d
}.
Definition hrel (h h' : pheap) : Prop :=
  (forall l d, ph_obj h !! l = Some d -> exists d', ph_obj h' !! l = Some d' /\ dp_phone d' = dp_phone d
    /\ (nt = true -> length (dp_list d') = length (dp_list d))).
Lemma hrel_refl h : hrel h h.
Proof. intros l d E. eauto. Qed.
Lemma hrel_trans a b c : hrel a b -> hrel b c -> hrel a c.
Proof.
  intros H H' l d E. destruct (H l d E) as (d1 & E1 & P1 & L1). destruct (H' l d1 E1) as (d2 & E2 & P2 & L2).
  exists d2. split; [exact E2|]. split; [congruence|]. intros Hn. rewrite L2, L1 by exact Hn. reflexivity.
Qed.
Definition hpost {A} (P : pheap -> A -> Prop) : pheap -> res A -> Prop := fun h r => match r with Ok a => P h a | _ => False end.
Notation HS P h p := (safe hinv hrel (hpost P) h p).
Lemma hs_bind {A B} (P : pheap -> A -> Prop) (P' : pheap -> B -> Prop) h (p : hp A) g :
  hinv h -> HS P h p -> (forall t a, hrel h t -> hinv t -> P t a -> HS P' t (g a)) -> HS P' h (pbind p g).
Proof.
  intros Hi Hp Hg. unfold pbind. eapply safe_bindR; [exact hrel_refl|exact hrel_trans|exact Hp| |exact Hi].
  intros t [a|er|] Ht Hit HQ; [apply Hg; assumption|destruct HQ..].
Qed.
(** the object at [l], with this phone and so many parameters *)
Definition at_obj (ph : str) (n : nat) (h : pheap) (l : nat) : Prop :=
  exists d, ph_obj h !! l = Some d /\ dp_phone d = ph /\ (nt = true -> length (dp_list d) = n).
Lemma at_obj_mono ph n h h' l : at_obj ph n h l -> hrel h h' -> at_obj ph n h' l.
Proof.
  intros (d & E & P & L) H. destruct (H l d E) as (d' & E' & P' & L'). exists d'. split; [exact E'|]. split; [congruence|].
  intros Hn. rewrite L', L by exact Hn. reflexivity.
Qed.
Definition at_any (ph : str) (h : pheap) (l : nat) : Prop := exists n, at_obj ph n h l.
Lemma at_any_mono ph h h' l : at_any ph h l -> hrel h h' -> at_any ph h' l.
Proof. intros (n & H) Hr. exists n. eapply at_obj_mono; eassumption. Qed.

Lemma hs_get ph h : HS (fun t c => match c with Some l => at_any ph t l | None => True end) h (hGet ph).
Proof.
  constructor; [intros t Ht _; split; [exact Ht|apply hrel_refl]|]. intros t Ht _. constructor. intros t' _ Hr. cbn.
  destruct (ph_map t !! ph) as [l|] eqn:E; [|exact Logic.I]. destruct (hi_link t Ht ph l E) as (d & E1 & E2).
  eapply at_any_mono; [|exact Hr]. exists (length (dp_list d)), d. auto.
Qed.
Lemma hs_cache ph h l : at_any ph h l -> HS (fun _ _ => True) h (hCache l).
Proof.
  intros Ha. constructor.
  - intros t Ht Hr. destruct (at_any_mono _ _ _ _ Ha Hr) as (n & d & E & P & _). rewrite E. split; [|intros l' d' E'; exists d'; auto].
    constructor; cbn; [|exact (hi_from t Ht)|exact (hi_neat t Ht)]. intros q l'. cbn. destruct (decide (q = dp_phone d)) as [->|Hn].
    + rewrite lookup_insert. intros [= <-]. eauto.
    + rewrite lookup_insert_ne by congruence. apply (hi_link t Ht).
  - intros t Ht Hr. destruct (at_any_mono _ _ _ _ Ha Hr) as (n & d & E & P & _). rewrite E. constructor. intros. exact Logic.I.
Qed.
Lemma hs_new h d ph : dp_phone d = ph -> (forall p, In p (dp_list d) -> from ph p) -> (nt = true -> neat d) -> HS (at_any ph) h (hNew d).
Proof.
  intros Hp Hf Hn. constructor.
  - intros t Ht _. pose proof (fresh_obj t) as F. set (l := fresh (dom (ph_obj t))) in *. split.
    + constructor; cbn.
      * intros q l' E. destruct (hi_link t Ht q l' E) as (d' & E1 & E2). exists d'. split; [|exact E2]. cbn. rewrite lookup_insert_ne; [exact E1|].
        intros <-. congruence.
      * intros l' d'. destruct (decide (l' = l)) as [->|Hne].
        -- rewrite lookup_insert. intros [= <-]. subst ph. exact Hf.
        -- rewrite lookup_insert_ne by congruence. apply (hi_from t Ht).
      * intros Hnt l' d'. destruct (decide (l' = l)) as [->|Hne].
        -- rewrite lookup_insert. intros [= <-]. exact (Hn Hnt).
        -- rewrite lookup_insert_ne by congruence. apply (hi_neat t Ht Hnt).
    + intros l' d' E. exists d'. cbn. rewrite lookup_insert_ne; [auto|]. intros <-. congruence.
  - intros t Ht _. constructor. intros t' _ Hr. eapply at_any_mono; [|exact Hr]. exists (length (dp_list d)), d. cbn. rewrite lookup_insert. auto.
Qed.
Definition lists_ok (ph : str) (n : nat) (ps : list param) : Prop :=
  (forall p, In p ps -> from ph p) /\ (nt = true -> length ps = n /\ distinct ps).
Lemma hs_list ph n h l : at_obj ph n h l -> HS (fun t ps => at_obj ph n t l /\ lists_ok ph n ps) h (hList l).
Proof.
  intros Ha. constructor; [intros t Ht _; split; [exact Ht|apply hrel_refl]|]. intros t Ht Hr.
  destruct (at_obj_mono _ _ _ _ _ Ha Hr) as (d & E & P & L). rewrite E. constructor. intros t' _ Hr'. cbn. split.
  - eapply at_obj_mono; [|exact Hr']. exists d. auto.
  - split; [subst ph; exact (hi_from t Ht l d E)|]. intros Hn. split; [exact (L Hn)|]. apply (hi_neat t Ht Hn l d E).
Qed.
Lemma hs_cnt ph n h l : at_obj ph n h l -> HS (fun t c => at_obj ph n t l /\ (nt = true -> c = N.of_nat n mod 256)) h (hCnt l).
Proof.
  intros Ha. constructor; [intros t Ht _; split; [exact Ht|apply hrel_refl]|]. intros t Ht Hr.
  destruct (at_obj_mono _ _ _ _ _ Ha Hr) as (d & E & P & L). rewrite E. constructor. intros t' _ Hr'. cbn. split.
  - eapply at_obj_mono; [|exact Hr']. exists d. auto.
  - intros Hn. destruct (hi_neat t Ht Hn l d E) as (_ & Hc). rewrite Hc, (L Hn). reflexivity.
Qed.
Lemma alter_obj t l (f : devparams -> devparams) : (forall d, dp_phone (f d) = dp_phone d) ->
  hinv t -> (forall d, ph_obj t !! l = Some d -> (forall p, In p (dp_list (f d)) -> from (dp_phone d) p)
              /\ (nt = true -> neat (f d) /\ length (dp_list (f d)) = length (dp_list d))) ->
  hinv (set_obj (alter f l) t) /\ hrel t (set_obj (alter f l) t).
Proof.
  intros Hp Ht Hf. split.
  - constructor; cbn.
    + intros q l' E. destruct (hi_link t Ht q l' E) as (d & E1 & E2). cbn. destruct (decide (l' = l)) as [->|Hn].
      * rewrite lookup_alter, E1. cbn. eexists. split; [reflexivity|]. rewrite Hp. exact E2.
      * rewrite lookup_alter_ne by congruence. eauto.
    + intros l' d. destruct (decide (l' = l)) as [->|Hn].
      * rewrite lookup_alter. destruct (ph_obj t !! l) as [d0|] eqn:E; [|discriminate]. intros [= <-]. rewrite Hp. apply (Hf d0 eq_refl).
      * rewrite lookup_alter_ne by congruence. apply (hi_from t Ht).
    + intros Hnt l' d. destruct (decide (l' = l)) as [->|Hn].
      * rewrite lookup_alter. destruct (ph_obj t !! l) as [d0|] eqn:E; [|discriminate]. intros [= <-]. apply (Hf d0 eq_refl); exact Hnt.
      * rewrite lookup_alter_ne by congruence. apply (hi_neat t Ht Hnt).
  - intros l' d E. cbn. destruct (decide (l' = l)) as [->|Hn].
    + rewrite lookup_alter, E. cbn. eexists. split; [reflexivity|]. split; [apply Hp|]. intros Hnt. apply (Hf d E); exact Hnt.
    + rewrite lookup_alter_ne by congruence. eauto.
Qed.
Lemma hs_setlist ph n h l ps : at_obj ph n h l -> lists_ok ph n ps -> HS (fun t _ => at_obj ph n t l) h (hSetList l ps).
Proof.
  intros Ha (Hf & Hn).
  assert (G : forall t, hinv t -> hrel h t -> hinv (set_obj (alter (fun d => mkParams (dp_phone d) (dp_cnt d) ps) l) t)
    /\ hrel t (set_obj (alter (fun d => mkParams (dp_phone d) (dp_cnt d) ps) l) t)).
  { intros t Ht Hr. destruct (at_obj_mono _ _ _ _ _ Ha Hr) as (d0 & E0 & P0 & L0). apply alter_obj; [reflexivity|exact Ht|].
    intros d E. rewrite E0 in E. injection E as <-. cbn [dp_list]. split; [rewrite P0; exact Hf|]. intros Hnt.
    destruct (Hn Hnt) as (Hl & Hd). specialize (L0 Hnt). split; [|congruence]. split; [exact Hd|].
    destruct (hi_neat t Ht Hnt l d0 E0) as (_ & Hc). unfold counted in *. cbn [dp_cnt dp_list]. rewrite Hc, L0, Hl. reflexivity. }
  constructor; [exact G|]. intros t Ht Hr. constructor. intros t' _ Hr'. cbn. eapply at_obj_mono; [exact Ha|].
  eapply hrel_trans; [exact Hr|]. eapply hrel_trans; [|exact Hr']. apply G; assumption.
Qed.
Lemma hs_setcnt ph n h l c : at_obj ph n h l -> (nt = true -> c = N.of_nat n mod 256) -> HS (fun t _ => at_obj ph n t l) h (hSetCnt l c).
Proof.
  intros Ha Hc.
  assert (G : forall t, hinv t -> hrel h t -> hinv (set_obj (alter (fun d => mkParams (dp_phone d) c (dp_list d)) l) t)
    /\ hrel t (set_obj (alter (fun d => mkParams (dp_phone d) c (dp_list d)) l) t)).
  { intros t Ht Hr. destruct (at_obj_mono _ _ _ _ _ Ha Hr) as (d0 & E0 & P0 & L0). apply alter_obj; [reflexivity|exact Ht|].
    intros d E. rewrite E0 in E. injection E as <-. cbn [dp_list]. split; [exact (hi_from t Ht l d0 E0)|]. intros Hnt. split; [|reflexivity].
    split; [apply (hi_neat t Ht Hnt l d0 E0)|]. unfold counted. cbn [dp_cnt dp_list]. rewrite (L0 Hnt). exact (Hc Hnt). }
  constructor; [exact G|]. intros t Ht Hr. constructor. intros t' _ Hr'. cbn. eapply at_obj_mono; [exact Ha|].
  eapply hrel_trans; [exact Hr|]. eapply hrel_trans; [|exact Hr']. apply G; assumption.
Qed.
Lemma hs_ret {A} (P : pheap -> A -> Prop) h a : (forall t, hrel h t -> P t a) -> HS P h (ret a).
Proof. intros H. constructor. intros t _ Hr. exact (H t Hr). Qed.
Lemma update_from ph n ps d : lists_ok ph n ps -> (forall p, In p (dp_list d) -> from ph p) ->
  lists_ok ph n (dp_list (paramsUpdate (mkParams [] 0 ps) d)).
Proof.
  intros (Hf & Hn) Hd. set (o := mkParams [] 0 ps). split.
  - intros p Hp. destruct (paramsUpdate_spec o d) as (_ & _ & Hs & Hv).
    assert (Hfi : find (fun q => p_id q =? p_id p) (dp_list (paramsUpdate o d)) = Some p).
    { clear Hv. induction Hs as [|a l Hs IH Hl]; [destruct Hp|]. cbn. destruct Hp as [->|Hp]; [rewrite N.eqb_refl; reflexivity|].
      rewrite List.Forall_forall in Hl. specialize (Hl p Hp). cbn in Hl. destruct (N.eqb_spec (p_id a) (p_id p)); [lia|]. exact (IH Hp). }
    rewrite Hv in Hfi. unfold last_with in Hfi. destruct (find _ (rev (dp_list o))) as [q|] eqn:E1; [|discriminate].
    destruct (find _ (rev (dp_list d))) as [q'|] eqn:E2; injection Hfi as ->.
    + apply find_some in E2 as (E2 & _). apply in_rev in E2. exact (Hd p E2).
    + apply find_some in E1 as (E1 & _). apply in_rev in E1. exact (Hf p E1).
  - intros Hnt. destruct (Hn Hnt) as (Hl & Hdi). split; [|apply update_ids].
    rewrite (proj2 (proj2 (update_length o d)) Hdi). exact Hl.
Qed.
Definition meant (m : pmsg) : Prop :=
  addressed m /\ (forall p, In p (brings m) -> from (for_phone m) p) /\ (nt = true -> neat_msg m).
Definition answered (ph : str) (x : option (N * list param)) : Prop :=
  forall n ps, x = Some (n, ps) -> (forall p, In p ps -> from ph p) /\ (nt = true -> counted n ps /\ distinct ps).
Lemma hs_code m h : hinv h -> meant m -> HS (fun _ x => answered (for_phone m) x) h (pcode m).
Proof.
  intros Hi (Ha & Hb & Hn). destruct m as [ph d|ph d]; cbn [pcode for_phone brings addressed neat_msg] in *.
  - unfold hSet. eapply (hs_bind (fun _ _ => True)); [exact Hi| |].
    2:{ intros t [] _ _ _. apply hs_ret. intros t' _ n ps E. discriminate E. }
    eapply hs_bind; [exact Hi|apply hs_get|]. cbn beta. intros t [l|] Hr Ht Hl.
    + eapply (hs_bind (at_any ph)); [exact Ht| |].
      2:{ intros t2 l2 _ _ Hl2. cbn beta in Hl2. exact (hs_cache ph t2 l2 Hl2). }
      destruct Hl as (n & Hl). eapply (hs_bind (fun u _ => at_obj ph n u l)); [exact Ht| |].
      2:{ intros t2 [] _ _ Hl2. apply hs_ret. intros t3 Hr3. cbn beta in Hl2. exists n. eapply at_obj_mono; eassumption. }
      unfold hUpdate. eapply hs_bind; [exact Ht|apply hs_list; exact Hl|]. cbn beta. intros t2 ps _ Ht2 (Hl2 & Hps).
      pose proof (update_from ph n ps d Hps Hb) as Hu. eapply hs_bind; [exact Ht2|apply hs_setlist; [exact Hl2|exact Hu]|].
      cbn beta. intros t3 [] _ Ht3 Hl3. apply hs_setcnt; [exact Hl3|]. intros Hnt.
      destruct (paramsUpdate_spec (mkParams [] 0 ps) d) as (_ & Hc & _). rewrite Hc. destruct Hu as (_ & Hu). rewrite (proj1 (Hu Hnt)). reflexivity.
    + eapply hs_bind; [exact Ht|apply (hs_new t d ph Ha Hb Hn)|]. cbn beta. intros t2 l2 _ _ Hl2. exact (hs_cache ph t2 l2 Hl2).
  - unfold hQuery. eapply (hs_bind (fun _ x => answered ph (Some x))); [exact Hi| |].
    2:{ intros t x _ _ Hx. apply hs_ret. intros. exact Hx. }
    eapply hs_bind; [exact Hi|apply hs_get|]. cbn beta. intros t c Hr Ht Hl.
    eapply (hs_bind (at_any ph)); [exact Ht| |].
    { destruct c as [l|].
      - apply hs_ret. intros t' Hr'. eapply at_any_mono; eassumption.
      - eapply hs_bind; [exact Ht|apply (hs_new t d ph Ha Hb Hn)|]. cbn beta. intros t2 l2 _ Ht2 Hl2.
        eapply (hs_bind (fun u _ => at_any ph u l2)); [exact Ht2| |].
        + eapply safe_post; [exact hrel_trans|exact (hs_cache ph t2 l2 Hl2)|]. intros u [[]| |] Hu Hru HQ; try destruct HQ.
          eapply at_any_mono; eassumption.
        + cbn beta. intros t3 [] _ _ Hl3. apply hs_ret. intros t4 Hr4. eapply at_any_mono; eassumption. }
    cbn beta. intros t2 l _ Ht2 (n & Hl2). eapply hs_bind; [exact Ht2|apply (hs_cnt ph n); exact Hl2|]. cbn beta.
    intros t3 cn _ Ht3 (Hl3 & Hcn). eapply hs_bind; [exact Ht3|apply (hs_list ph n); exact Hl3|]. cbn beta.
    intros t4 ps _ Ht4 (_ & Hf & Hps). apply hs_ret. intros t5 _ n' ps' [= <- <-]. split; [exact Hf|]. intros Hnt.
    destruct (Hps Hnt) as (Hlen & Hdi). split; [|exact Hdi]. unfold counted. rewrite Hlen. exact (Hcn Hnt).
Qed.
Lemma hs_running sch i r : hinv h0 -> Forall meant ms -> nth_error (fst (prunning ms h0 sch)) i = Some (Ret r) ->
  exists m x, nth_error ms i = Some m /\ r = Ok x /\ answered (for_phone m) x.
Proof.
  intros Hi Hm Hr. destruct (psteps_safe_at hinv hrel hrel_refl hrel_trans
    (fun j t r => match nth_error ms j with Some m => hpost (fun _ x => answered (for_phone m) x) t r | None => True end)
    sch (List.map pcode ms) h0 Hi) as (H1 & _ & H3).
  { intros j p Hj. rewrite nth_error_map in Hj. destruct (nth_error ms j) as [m|] eqn:E; [|discriminate]. injection Hj as <-.
    apply (hs_code m h0 Hi). rewrite List.Forall_forall in Hm. apply Hm. eapply nth_error_In. exact E. }
  specialize (H3 i _ Hr). inversion H3 as [? ? Hq|]; subst. specialize (Hq _ H1 (hrel_refl _)).
  assert (Hl : (i < length ms)%nat).
  { pose proof (proj1 (nth_error_Some (fst (prunning ms h0 sch)) i) ltac:(rewrite Hr; discriminate)) as Hne.
    pose proof (psteps_length sch (List.map pcode ms) h0) as Hle. rewrite map_length in Hle. unfold prunning in Hne.
    eapply Nat.lt_le_trans; [exact Hne|]. apply Nat.eq_le_incl. exact Hle. }
  destruct (nth_error ms i) as [m|] eqn:E; [|apply nth_error_None in E; lia].
  destruct r as [x| |]; cbn in Hq; try contradiction. exists m, x. auto.
Qed.
End Sched.

Lemma from_start h ms nt : linked h -> (nt = true -> forall l d, ph_obj h !! l = Some d -> neat d) -> hinv h ms nt h.
Proof.
  intros Hl Hn. constructor; [exact Hl| |exact Hn]. intros l d E p Hp. left. exists l, d. auto.
Qed.
Lemma meant_in h ms nt : Forall addressed ms -> (nt = true -> Forall neat_msg ms) -> Forall (meant h ms nt) ms.
Proof.
  intros Ha Hn. apply List.Forall_forall. intros m Hm. rewrite List.Forall_forall in Ha. split; [exact (Ha m Hm)|]. split.
  - intros p Hp. right. exists m. auto.
  - intros Hnt. specialize (Hn Hnt). rewrite List.Forall_forall in Hn. exact (Hn m Hm).
Qed.
(** whatever the schedule, no goroutine fails, and every parameter answered is one that belongs to that phone *)
Lemma provenance h ms sch i r : linked h -> Forall addressed ms ->
  nth_error (fst (prunning ms h sch)) i = Some (Ret r) ->
  exists m x, nth_error ms i = Some m /\ r = Ok x
    /\ forall n ps, x = Some (n, ps) -> forall p, In p ps -> comes_from h ms (for_phone m) p.
Proof.
  intros Hl Ha Hr. destruct (hs_running h ms false sch i r) as (m & x & E & Ex & Hx); [|apply meant_in; [exact Ha|discriminate]|exact Hr|].
  - apply from_start; [exact Hl|discriminate].
  - exists m, x. split; [exact E|]. split; [exact Ex|]. intros n ps En. exact (proj1 (Hx n ps En)).
Qed.
(** and when no parameter is listed twice, every answer announces as many as it lists *)
Lemma counts h ms sch i r n ps : linked h -> Forall addressed ms ->
  (forall l d, ph_obj h !! l = Some d -> neat d) -> Forall neat_msg ms ->
  nth_error (fst (prunning ms h sch)) i = Some (Ret r) -> r = Ok (Some (n, ps)) -> counted n ps /\ distinct ps.
Proof.
  intros Hl Ha Hn Hm Hr ->. destruct (hs_running h ms true sch i (Ok (Some (n, ps)))) as (m & x & E & Ex & Hx);
    [apply from_start; auto|apply meant_in; auto|exact Hr|].
  injection Ex as <-. exact (proj2 (Hx n ps eq_refl) eq_refl).
Qed.
