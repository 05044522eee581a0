(** The pauses of the server (C130, C131) *)
From stdpp Require Import gmap.
From Verif Require Import Base HexM HeaderM ParamsM MsgM PacketM FrameM ProgM StateM ProcM ServerM PaceM SpecCodec SpecState SpecReg SpecRelease SpecTimed SpecPace
  ProgP StateP ProcP ServerP ReplyP RegP LifeP ReleaseP TimedP.
Local Open Scope Z_scope.

(** * The untimed model *)
Lemma paced_serve e sl r x s : run (serveOne e sl r x) s =
  (match fst (run (pacedOne e sl r x) s) with Ok o => Ok (bool_decide (is_Some o)) | Err er => Err er | Panic => Panic end,
   snd (run (pacedOne e sl r x) s)).
Proof.
  unfold serveOne, pacedOne. rewrite !run_bind. cbn [readSess run].
  destruct (st_sess s !! sl) as [y|]; cbn [run ret]; [|reflexivity].
  rewrite !run_bindR. destruct (run (processConnRead e sl (ss_conn y) r x) s) as [[|er|] s']; cbn [fst snd run ret panic]; try reflexivity.
  destruct (serveStops er); reflexivity.
Qed.
Lemma untimed_step e p pe : p_w (pace e p pe) = fold_left (step e) (untimed1 p pe) (p_w p).
Proof.
  destruct pe as [sl r x|sl|d|ev]; cbn [pace untimed1].
  - case_bool_decide; reflexivity.
  - destruct (next_in p sl) as [(t & r & x)|]; reflexivity.
  - reflexivity.
  - destruct ev; reflexivity.
Qed.
Lemma untimed_run e pes : forall p, p_w (paces e p pes) = fold_left (step e) (untimed e p pes) (p_w p).
Proof.
  induction pes as [|pe pes IH]; intros p; [reflexivity|]. cbn [untimed]. rewrite fold_left_app, <- untimed_step. apply IH.
Qed.
Theorem timed_history e now pes : p_w (timed e now pes) = history e now (untimed e (pworld0 now) pes).
Proof. apply untimed_run. Qed.
Lemma paces_app e p l l' : paces e p (l ++ l') = paces e (paces e p l) l'.
Proof. apply fold_left_app. Qed.
Lemma paces_cons e p x l : paces e p (x :: l) = paces e (pace e p x) l.
Proof. reflexivity. Qed.
Lemma served_app e sl l l' : forall p, served e sl p (l ++ l') = served e sl p l ++ served e sl (paces e p l) l'.
Proof. induction l as [|x l IH]; intros p; [reflexivity|]. cbn [app served]. rewrite IH, <- app_assoc. reflexivity. Qed.
Lemma untimed_app e l l' : forall p, untimed e p (l ++ l') = untimed e p l ++ untimed e (paces e p l) l'.
Proof. induction l as [|x l IH]; intros p; [reflexivity|]. cbn [app untimed]. rewrite IH, <- app_assoc. reflexivity. Qed.
Lemma prompt_app e l l' : forall p, prompt e p (l ++ l') <-> prompt e p l /\ prompt e (paces e p l) l'.
Proof. induction l as [|x l IH]; intros p; [cbn [app prompt]; tauto|]. cbn [app prompt]. rewrite IH, paces_cons. tauto. Qed.

Lemma at_key_same {A} k (v : A) f : at_key k v f k = v.
Proof. unfold at_key. rewrite Nat.eqb_refl. reflexivity. Qed.
Lemma at_key_other {A} k (v : A) f i : i <> k -> at_key k v f i = f i.
Proof. intros H. unfold at_key. apply Nat.eqb_neq in H. rewrite H. reflexivity. Qed.

(** * The clock *)
Definition pok (p : pworld) : Prop := world_ok (p_w p).
Lemma pok_timed e now pes : pok (timed e now pes).
Proof. unfold pok. rewrite timed_history. apply history_ok. Qed.
Lemma pok_step e p pe : pok p -> pok (pace e p pe).
Proof.
  unfold pok. rewrite untimed_step. generalize (p_w p). induction (untimed1 p pe) as [|ev l IH]; intros w H; [exact H|]. cbn. apply IH, step_ok, H.
Qed.
Lemma pok_run e pes : forall p, pok p -> pok (paces e p pes).
Proof. induction pes as [|x l IH]; intros p H; [exact H|]. rewrite paces_cons. apply IH, pok_step, H. Qed.
Lemma pclock_step e p pe : pok p -> p_clock (pace e p pe) = match pe with PPass d => p_clock p + Z.of_N d | _ => p_clock p end.
Proof.
  intros H. unfold p_clock. destruct pe as [sl r x|sl|d|ev]; cbn [pace].
  - case_bool_decide; reflexivity.
  - destruct (next_in p sl) as [(t & r & x)|]; [|reflexivity]. cbn [p_w]. rewrite step_clock by exact H. reflexivity.
  - cbn [p_w]. rewrite step_clock by exact H. reflexivity.
  - destruct ev; cbn [p_w]; try reflexivity; rewrite step_clock by exact H; reflexivity.
Qed.
Lemma pclock_mono e p pe : pok p -> p_clock p <= p_clock (pace e p pe).
Proof. intros H. rewrite pclock_step by exact H. destruct pe; lia. Qed.
Lemma pclock_run e pes : forall p, pok p -> p_clock p <= p_clock (paces e p pes).
Proof.
  induction pes as [|x l IH]; intros p H; [apply Z.le_refl|]. rewrite paces_cons. pose proof (pclock_mono e p x H). pose proof (IH _ (pok_step e p x H)). lia.
Qed.

(** * Pauses *)
Lemma nap_nonneg e s sl r x : 0 <= nap e s sl r x.
Proof.
  unfold nap, pacedOne. rewrite run_bind. cbn [readSess run]. destruct (st_sess s !! sl) as [y|]; cbn [run ret panic fst]; [|lia].
  rewrite run_bindR. destruct (run (processConnRead e sl (ss_conn y) r x) s) as [[|er|] s']; cbn [fst snd run ret panic]; try lia.
  destruct (serveStops er); lia.
Qed.
Lemma stops_iff er : serveStops er = true <-> In er [ErrEOF; ErrClosedPipe; ErrNetClosed; ErrDeviceNotFound].
Proof. split; [destruct er; intros H; try discriminate H; cbn; tauto|]. intros [<-|[<-|[<-|[<-|[]]]]]; reflexivity. Qed.
Theorem nap_iff e s sl r x : (mistaken e s sl r x -> nap e s sl r x = 1000) /\ (~ mistaken e s sl r x -> nap e s sl r x = 0).
Proof.
  unfold nap, pacedOne. rewrite run_bind. cbn [readSess run]. destruct (st_sess s !! sl) as [y|] eqn:Ey; cbn [run ret panic fst].
  2:{ split; [intros (y & _ & H & _); congruence|reflexivity]. }
  rewrite run_bindR. destruct (run (processConnRead e sl (ss_conn y) r x) s) as [[u|er|] s'] eqn:E; cbn [fst snd run ret panic].
  1,3: split; [intros (y' & er & H & H' & _); rewrite Ey in H; injection H as <-; rewrite E in H'; discriminate|reflexivity].
  pose proof (stops_iff er) as I. destruct (serveStops er); split; try reflexivity.
  - intros (y' & er' & H & H' & H2). rewrite Ey in H; injection H as <-. rewrite E in H'. injection H' as <-. exfalso. apply H2, I. reflexivity.
  - intros H. exfalso. apply H. exists y, er. split; [exact Ey|]. split; [rewrite E; reflexivity|]. rewrite <- I. discriminate.
Qed.
Lemma mistaken_dec e s sl r x : {mistaken e s sl r x} + {~ mistaken e s sl r x}.
Proof.
  destruct (st_sess s !! sl) as [y|] eqn:Ey; [|right; intros (y & _ & H & _); congruence].
  destruct (fst (run (processConnRead e sl (ss_conn y) r x) s)) as [u|er|] eqn:E.
  1,3: right; intros (y' & er & H & H' & _); rewrite Ey in H; injection H as <-; congruence.
  destruct (serveStops er) eqn:Es.
  - right. intros (y' & er' & H & H' & H2). rewrite Ey in H; injection H as <-. rewrite E in H'. injection H' as <-. apply H2, stops_iff, Es.
  - left. exists y, er. split; [exact Ey|]. split; [exact E|]. rewrite <- stops_iff, Es. discriminate.
Qed.
Lemma nap_two e s sl r x : nap e s sl r x = 0 \/ nap e s sl r x = 1000.
Proof.
  unfold nap, pacedOne. rewrite run_bind. cbn [readSess run]. destruct (st_sess s !! sl) as [y|]; cbn [run ret panic fst]; [|lia].
  rewrite run_bindR. destruct (run (processConnRead e sl (ss_conn y) r x) s) as [[|er|] s']; cbn [fst snd run ret panic]; try lia.
  destruct (serveStops er); lia.
Qed.

Lemma next_inv p sl i : next_in p sl = Some i -> (exists l, p_in p sl = i :: l) /\ sl ∈ w_live (p_w p) /\ p_wake p sl <= p_clock p.
Proof.
  unfold next_in. destruct (p_in p sl) as [|j l]; [discriminate|]. case_bool_decide as H; [|discriminate].
  destruct (Z.leb_spec (p_wake p sl) (p_clock p)) as [L|L]; [|discriminate]. intros [= ->]. eauto.
Qed.
(** what a step does to the inputs and the pause of one goroutine *)
Lemma pace_local e p pe sl : 
  (served1 e sl p pe = [] /\ p_wake (pace e p pe) sl = p_wake p sl
     /\ (p_in (pace e p pe) sl = p_in p sl \/ exists r x, pe = PArrive sl r x /\ sl ∈ w_live (p_w p) /\ p_in (pace e p pe) sl = p_in p sl ++ [(p_clock p, (r, x))]))
  \/ (exists t r x l, pe = PServe sl /\ next_in p sl = Some (t, (r, x)) /\ p_in p sl = (t, (r, x)) :: l
        /\ served1 e sl p pe = [mkHandling t (p_clock p) (nap e (w_st (p_w p)) sl r x)]
        /\ p_wake (pace e p pe) sl = p_clock p + nap e (w_st (p_w p)) sl r x
        /\ p_in (pace e p pe) sl = (if bool_decide (sl ∈ w_live (p_w (pace e p pe))) then l else [])).
Proof.
  destruct pe as [sl' r x|sl'|d|ev].
  - left. split; [reflexivity|]. cbn [pace]. case_bool_decide as Hl; [|auto]. cbn [p_wake p_in]. split; [reflexivity|].
    destruct (decide (sl = sl')) as [->|Hn]; [right; rewrite at_key_same; eauto 6|left; apply at_key_other, Hn].
  - cbn [served1]. destruct (decide (sl' = sl)) as [->|Hn].
    + destruct (next_in p sl) as [(t & r & x)|] eqn:En.
      * right. destruct (next_inv _ _ _ En) as ((l & El) & Hl & Hw). exists t, r, x, l. cbn [pace]. rewrite En. cbn [p_wake p_in p_w].
        rewrite !at_key_same, El. cbn [tail]. auto 10.
      * left. cbn [pace]. rewrite En. auto.
    + left. split; [reflexivity|]. cbn [pace]. destruct (next_in p sl') as [(t & r & x)|]; [|auto]. cbn [p_wake p_in].
      rewrite !at_key_other by congruence. auto.
  - left. auto.
  - left. split; [reflexivity|]. destruct ev; cbn [pace]; auto.
Qed.

(** * When messages are handled *)
Definition past (p : pworld) (sl : nat) : Prop := forall i, In i (p_in p sl) -> fst i <= p_clock p.
Lemma past_step e p pe sl : pok p -> past p sl -> past (pace e p pe) sl.
Proof.
  intros K H i Hi. pose proof (pclock_mono e p pe K) as M.
  destruct (pace_local e p pe sl) as [(_ & _ & [E|(r & x & _ & _ & E)])|(t & r & x & l & _ & _ & El & _ & _ & E)]; rewrite E in Hi.
  - specialize (H _ Hi). lia.
  - apply in_app_iff in Hi. destruct Hi as [Hi|[<-|[]]]; [specialize (H _ Hi); lia|exact M].
  - case_bool_decide; [|destruct Hi]. specialize (H i). rewrite El in H. specialize (H (or_intror Hi)). lia.
Qed.
Lemma served_order e sl pes : forall p, pok p -> past p sl -> not_before (p_wake p sl) (served e sl p pes).
Proof.
  induction pes as [|pe pes IH]; intros p K H; [exact Logic.I|]. cbn [served]. pose proof (IH _ (pok_step e p pe K) (past_step e p pe sl K H)) as IH'.
  destruct (pace_local e p pe sl) as [(E1 & E2 & _)|(t & r & x & l & _ & En & El & E1 & E2 & _)]; rewrite E1; rewrite E2 in IH'; [exact IH'|].
  cbn [app not_before hg_at hg_arrived hg_pause]. destruct (next_inv _ _ _ En) as (_ & _ & Hw). split; [exact Hw|]. split; [|exact IH'].
  specialize (H (t, (r, x))). rewrite El in H. exact (H (or_introl eq_refl)).
Qed.
Lemma served_pause e sl pes : forall p x, In x (served e sl p pes) -> hg_pause x = 0 \/ hg_pause x = 1000.
Proof.
  induction pes as [|pe pes IH]; intros p y; [intros []|]. cbn [served]. rewrite in_app_iff. intros [H|H]; [|exact (IH _ _ H)].
  destruct (pace_local e p pe sl) as [(E1 & _)|(t & r & x & l & _ & _ & _ & E1 & _)]; rewrite E1 in H; [destruct H|]. destruct H as [<-|[]]. apply nap_two.
Qed.
(** a failing message at least every second *)
Lemma not_before_le : forall l z, not_before z l -> Forall (fun x => 0 <= hg_pause x) l -> Forall (fun x => z <= hg_at x) l.
Proof.
  induction l as [|x l IH]; intros z H F; [constructor|]. destruct H as (H1 & _ & H3). apply Forall_cons_iff in F as (F1 & F2).
  constructor; [exact H1|]. specialize (IH _ H3 F2). refine (List.Forall_impl _ _ IH). cbn. intros y Hy. lia.
Qed.
Lemma failing_mono a b b' l : b <= b' -> (failing a b l <= failing a b' l)%nat.
Proof.
  intros Hb. unfold failing. induction l as [|y l IHl]; [apply Nat.le_refl|]. cbn [List.filter].
  destruct (Z.ltb_spec (hg_at y) b), (Z.ltb_spec (hg_at y) b'); try lia; rewrite ?andb_true_r, ?andb_false_r;
    destruct ((0 <? hg_pause y) && (a <=? hg_at y)); cbn [length]; lia.
Qed.
Lemma failing_rate a : forall l m z, not_before z l -> Forall (fun x => hg_pause x = 0 \/ hg_pause x = 1000) l ->
  (failing a (Z.max a z + 1000 * Z.of_nat m) l <= m)%nat.
Proof.
  induction l as [|x l IH]; intros m z H F; [cbn; lia|].
  destruct H as (H1 & _ & H3). apply Forall_cons_iff in F as (F1 & F2).
  set (b := Z.max a z + 1000 * Z.of_nat m).
  unfold failing. cbn [List.filter]. destruct ((0 <? hg_pause x) && (a <=? hg_at x) && (hg_at x <? b)) eqn:E; cbn [length]; change (length (List.filter _ l)) with (failing a b l).
  - apply andb_true_iff in E as (E & E3). apply andb_true_iff in E as (E1 & E2). apply Z.ltb_lt in E1, E3. apply Z.leb_le in E2.
    destruct m as [|m]; [unfold b in E3; lia|]. pose proof (IH m _ H3 F2) as G.
    pose proof (failing_mono a b (Z.max a (hg_at x + hg_pause x) + 1000 * Z.of_nat m) l). unfold b in *. lia.
  - pose proof (IH m _ H3 F2) as G. pose proof (failing_mono a b (Z.max a (hg_at x + hg_pause x) + 1000 * Z.of_nat m) l). unfold b in *. lia.
Qed.
Theorem rate e sl now pes a m : now <= a -> (failing a (a + 1000 * Z.of_nat m) (served e sl (pworld0 now) pes) <= m)%nat.
Proof.
  intros Ha. pose proof (failing_rate a (served e sl (pworld0 now) pes) m now) as H. rewrite Z.max_l in H by exact Ha. apply H.
  - apply (served_order e sl pes (pworld0 now)); [exact (pok_timed e now [])|intros i []].
  - apply List.Forall_forall. intros x. apply served_pause.
Qed.

(** * The prompt server *)
Definition keeps_up (p : pworld) (sl : nat) : Prop :=
  sl ∈ w_live (p_w p) -> forall i l, p_in p sl = i :: l -> p_clock p <= Z.max (fst i) (p_wake p sl).
Definition empty_off (p : pworld) (sl : nat) : Prop := sl ∉ w_live (p_w p) -> p_in p sl = [].
Lemma live_step e w ev sl : sl ∉ w_live w -> sl ∈ w_live (step e w ev) -> exists c addr, ev = EAccept c addr.
Proof.
  unfold step. destruct (w_dead w); [contradiction|]. intros H H'. destruct ev as [c addr|sl' r x|ph| |ph|ph x|ph bad ps x|t]; [eauto|exfalso..].
  - case_bool_decide; [|contradiction]. destruct (run (serveLoop e sl' [(r, x)]) (w_st w)) as [[[]|er|] s']; cbn [w_live] in H'; set_solver.
  - case_bool_decide; [|contradiction]. destruct (run (checkKeepalive ph) (w_st w)) as [[|er|] s']; cbn [w_live] in H'; contradiction.
  - contradiction.
  - contradiction.
  - contradiction.
  - contradiction.
  - contradiction.
Qed.
Lemma live_gone e w ev sl : sl ∈ w_live w -> sl ∉ w_live (step e w ev) -> exists r x, ev = EFrame sl r x.
Proof.
  unfold step. destruct (w_dead w); [contradiction|]. intros H H'. destruct ev as [c addr|sl' r x|ph| |ph|ph x|ph bad ps x|t]; try (exfalso; contradiction).
  - exfalso. destruct (st_conns (w_st w) !! c); [contradiction|]. destruct (run (accept c addr) _) as [[sl'|er|] s']; cbn [w_live] in H'; set_solver.
  - case_bool_decide; [|contradiction]. destruct (decide (sl' = sl)) as [->|Hn]; [eauto|]. exfalso.
    destruct (run (serveLoop e sl' [(r, x)]) (w_st w)) as [[[]|er|] s']; cbn [w_live] in H'; set_solver.
  - exfalso. case_bool_decide; [|contradiction]. destruct (run (checkKeepalive ph) (w_st w)) as [[|er|] s']; cbn [w_live] in H'; contradiction.
Qed.
Lemma live_pace e p pe sl : sl ∈ w_live (p_w p) -> sl ∉ w_live (p_w (pace e p pe)) -> served1 e sl p pe <> [].
Proof.
  rewrite untimed_step. intros H H' E.
  assert (U : untimed1 p pe = [] \/ exists ev, untimed1 p pe = [ev] /\ forall r x, ev <> EFrame sl r x).
  { destruct pe as [sl' r x|sl'|d|ev]; cbn [untimed1 served1] in *; [auto| | |].
    - destruct (decide (sl' = sl)) as [->|Hn].
      + destruct (next_in p sl) as [(t & r & x)|]; [discriminate|auto].
      + destruct (next_in p sl') as [(t & r & x)|]; [|auto]. right. eexists. split; [reflexivity|]. congruence.
    - right. eexists. split; [reflexivity|]. discriminate.
    - destruct ev; auto; right; (eexists; split; [reflexivity|]; discriminate). }
  destruct U as [U|(ev & U & Hev)]; rewrite U in H'; [contradiction|]. cbn [fold_left] in H'.
  destruct (live_gone e _ _ _ H H') as (r & x & ->). exact (Hev r x eq_refl).
Qed.
Lemma empty_off_step e p pe sl : empty_off p sl -> empty_off (pace e p pe) sl.
Proof.
  intros O H. destruct (pace_local e p pe sl) as [(E & _ & [E1|(r & x & -> & Hl & E1)])|(t & r & x & l & _ & _ & _ & _ & _ & E1)].
  - rewrite E1. apply O. intros Hl. exact (live_pace e p pe sl Hl H E).
  - exfalso. cbn [pace] in H. rewrite bool_decide_true in H by exact Hl. exact (H Hl).
  - rewrite E1, bool_decide_false by exact H. reflexivity.
Qed.
Lemma keeps_up_step e p pe sl : pok p -> empty_off p sl -> keeps_up p sl -> prompt e p [pe] -> keeps_up (pace e p pe) sl.
Proof.
  intros K O H (P & _) Hl i l E. pose proof (pclock_step e p pe K) as C.
  destruct (pace_local e p pe sl) as [(_ & E2 & [E1|(r & x & -> & Hl' & E1)])|(t & r & x & l' & -> & _ & _ & _ & E2 & _)].
  - rewrite E1 in E. destruct (decide (sl ∈ w_live (p_w p))) as [Hl'|Hl']; [|rewrite (O Hl') in E; discriminate].
    pose proof (H Hl' i l E) as B. rewrite E2, C. destruct pe as [sl' r x|sl'|d|ev]; try exact B.
    assert (P' : p_clock p + Z.of_N d <= Z.max (p_clock p) (p_wake p sl)) by (apply P; [exact Hl'|rewrite E; discriminate]). lia.
  - rewrite E1 in E. rewrite E2, C. destruct (p_in p sl) as [|j l2] eqn:Ei; cbn [app] in E; injection E as <- _; [cbn [fst]; lia|exact (H Hl' j l2 Ei)].
  - rewrite E2, C. pose proof (nap_nonneg e (w_st (p_w p)) sl r x). lia.
Qed.
Lemma served_prompt e sl pes : forall p, pok p -> past p sl -> empty_off p sl -> keeps_up p sl -> prompt e p pes ->
  successive (p_wake p sl) (served e sl p pes) /\ keeps_up (paces e p pes) sl.
Proof.
  induction pes as [|pe pes IH]; intros p K A O U P; [split; [exact Logic.I|exact U]|]. cbn [served]. rewrite paces_cons.
  assert (P1 : prompt e p [pe]) by (destruct P as (P1 & _); split; [exact P1|exact Logic.I]). destruct P as (_ & P2).
  destruct (IH _ (pok_step e p pe K) (past_step e p pe sl K A) (empty_off_step e p pe sl O) (keeps_up_step e p pe sl K O U P1) P2) as (S1 & S2).
  split; [|exact S2].
  destruct (pace_local e p pe sl) as [(E1 & E2 & _)|(t & r & x & l & _ & En & El & E1 & E2 & _)]; rewrite E1; rewrite E2 in S1; [exact S1|].
  cbn [app successive hg_at hg_arrived hg_pause]. split; [|exact S1]. destruct (next_inv _ _ _ En) as (_ & Hl & Hw). pose proof (U Hl _ _ El) as B.
  specialize (A (t, (r, x))). rewrite El in A. specialize (A (or_introl eq_refl)). cbn [fst] in *. lia.
Qed.
Lemma start_ok (e : env) now : pok (pworld0 now).
Proof. exact (pok_timed e now []). Qed.
Theorem prompt_successive e sl now pes : prompt e (pworld0 now) pes -> successive now (served e sl (pworld0 now) pes).
Proof.
  intros P. refine (proj1 (served_prompt e sl pes (pworld0 now) (start_ok e now) _ _ _ P)).
  - intros i [].
  - intros _. reflexivity.
  - intros _ i l. discriminate.
Qed.

(** * Messages behind failing ones *)
Lemma unknown_received e s frm : unknown_frame e frm -> received e s frm = None.
Proof.
  intros (p & Hd & Hf & Hi). unfold received. rewrite Hd. change (~ In (h_id (pk_hdr p)) handled) in Hi. apply handled_iff in Hi. rewrite known_table in Hi.
  destruct (known (h_id (pk_hdr p))) as [k|]; [discriminate|reflexivity].
Qed.
Lemma unknown_mistaken e s sl frm x y : st_sess s !! sl = Some y -> unknown_frame e frm -> mistaken e s sl (Ok frm) x.
Proof.
  intros Hy (p & Hd & Hf & Hi). exists y, ErrMsgIDNotSupportted. split; [exact Hy|]. split; [|intros [|[|[|[|[]]]]]; discriminate].
  rewrite run_read. unfold frameOut. rewrite run_bind. cbn [lift run]. rewrite run_bind. unfold decodeP. rewrite run_bind. cbn [lift run].
  rewrite Hd. change (isFragmented (pk_hdr p) = false) in Hf. rewrite Hf. cbn [run ret]. rewrite (unsupported e sl s p Hf Hi). reflexivity.
Qed.
Lemma unknown_step e w sl frm x : world_ok w -> sl ∈ w_live w -> unknown_frame e frm -> step e w (EFrame sl (Ok frm) x) = w.
Proof.
  intros [C D L R] Hl (p & Hd & Hf & Hi). unfold step. rewrite D, bool_decide_true by exact Hl. destruct (L sl Hl) as (y & Hy).
  rewrite (unsupported_frame e sl _ y frm p x Hy Hd Hf Hi). destruct w as [s l d]. cbn in *. rewrite D. reflexivity.
Qed.
Definition unknown_in (e : env) (i : Z * (res bytes * wres)) : Prop := exists frm, fst (snd i) = Ok frm /\ unknown_frame e frm.
Lemma only_by_tail e ph sl p pe pes : only_by e ph sl p (pe :: pes) -> only_by e ph sl (pace e p pe) pes.
Proof. intros H pes1 sl' pes2 -> Hn. exact (H (pe :: pes1) sl' pes2 eq_refl Hn). Qed.
Lemma starve e ph sl pes : forall p bads rest t, pok p -> sl ∈ w_live (p_w p) -> p_in p sl = bads ++ rest -> Forall (unknown_in e) bads ->
  t <= Z.max (p_clock p) (p_wake p sl) -> p_clock (paces e p pes) < t + 1000 * Z.of_nat (length bads) -> only_by e ph sl p pes ->
  wordless e ph (p_w p) (untimed e p pes).
Proof.
  induction pes as [|pe pes IH]; intros p bads rest t K Hl Ei F Ht Hc O; [constructor|]. cbn [untimed]. rewrite paces_cons in Hc.
  pose proof (pclock_mono e p pe K) as M. pose proof (pok_step e p pe K) as K'. pose proof (pclock_run e pes _ K') as M'.
  destruct (pace_local e p pe sl) as [(E & E2 & E1)|(t0 & r & x & l & -> & En & El & _ & E2 & E1)].
  - assert (Hl' : sl ∈ w_live (p_w (pace e p pe))).
    { destruct (decide (sl ∈ w_live (p_w (pace e p pe)))) as [Y|Y]; [exact Y|]. destruct (live_pace e p pe sl Hl Y E). }
    assert (G : wordless e ph (p_w (pace e p pe)) (untimed e (pace e p pe) pes)).
    { destruct E1 as [E1|(r & x & _ & _ & E1)].
      - apply (IH _ bads rest t); [exact K'|exact Hl'|congruence|exact F|lia|exact Hc|exact (only_by_tail _ _ _ _ _ _ O)].
      - apply (IH _ bads (rest ++ [(p_clock p, (r, x))]) t); [exact K'|exact Hl'|rewrite E1, Ei, <- app_assoc; reflexivity|exact F|lia|exact Hc|exact (only_by_tail _ _ _ _ _ _ O)]. }
    rewrite untimed_step in G.
    assert (U : untimed1 p pe = [] \/ exists ev, untimed1 p pe = [ev] /\ ~ speaks e ph (p_w p) ev).
    { destruct pe as [sl' r x|sl'|d|ev]; cbn [untimed1 served1] in *; [auto| | |].
      - destruct (decide (sl' = sl)) as [->|Hn].
        + destruct (next_in p sl) as [(t' & r & x)|]; [discriminate|auto].
        + destruct (next_in p sl') as [(t' & r & x)|] eqn:En; [|auto]. right. eexists. split; [reflexivity|].
          apply (O [] sl' pes eq_refl Hn). cbn [paces fold_left untimed1]. rewrite En. left. reflexivity.
      - right. eexists. split; [reflexivity|]. intros (? & ? & ? & ? & ? & ? & _). discriminate.
      - destruct ev; auto; right; (eexists; split; [reflexivity|]; intros (? & ? & ? & ? & ? & ? & _); discriminate). }
    destruct U as [U|(ev & U & Hev)]; rewrite U in *; cbn [app fold_left] in *; [exact G|]. constructor; [exact Hev|exact G].
  - destruct (next_inv _ _ _ En) as (_ & _ & Hw). rewrite El in Ei. destruct bads as [|i bads]; cbn [app length] in *; [lia|].
    injection Ei as <- ->. apply Forall_cons_iff in F as (F1 & F2). destruct F1 as (frm & Ef & Hu). cbn [fst snd] in Ef. subst r.
    destruct (wo_live _ K sl Hl) as (y & Hy). rewrite (proj1 (nap_iff _ _ _ _ _) (unknown_mistaken e _ sl frm x y Hy Hu)) in E2.
    assert (Ew : p_w (pace e p (PServe sl)) = p_w p).
    { cbn [pace]. rewrite En. cbn [p_w]. apply unknown_step; [exact K|exact Hl|exact Hu]. }
    cbn [untimed1]. rewrite En. cbn [app]. constructor.
    + intros (sl' & frm' & wr & h & b & Ev & _ & Hr & _). injection Ev as <- <- <-. rewrite (unknown_received _ _ _ Hu) in Hr. discriminate.
    + rewrite unknown_step by (try exact K; assumption). rewrite <- Ew. apply (IH _ bads rest (t + 1000)); [exact K'|rewrite Ew; exact Hl| |exact F2|lia|lia|exact (only_by_tail _ _ _ _ _ _ O)].
      rewrite E1, Ew, bool_decide_true by exact Hl. reflexivity.
Qed.
Theorem starved e now pes pes' sl ph d c bads rest : let p := timed e now pes in let q := timed e now (pes ++ pes') in
  devAt (w_st (p_w p)) ph = Some d -> sl ∈ w_live (p_w p) ->
  p_in p sl = bads ++ rest -> (forall i, In i bads -> exists frm, fst (snd i) = Ok frm /\ unknown_frame e frm) -> only_by e ph sl p pes' ->
  c <= d_last d + 60000 -> spaced 60000 60000 c (check_times e ph (p_w p) (untimed e p pes')) (p_clock q) ->
  d_last d + 180000 < p_clock q -> p_clock q < p_clock p + 1000 * Z.of_nat (length bads) ->
  devAt (w_st (p_w q)) ph = None.
Proof.
  intros p q Hd Hl Ei F O Hc Hs Hq Hq'. apply List.Forall_forall in F.
  assert (Eq : q = paces e p pes') by (apply paces_app).
  assert (W : wordless e ph (p_w p) (untimed e p pes')).
  { apply (starve e ph sl pes' p bads rest (p_clock p)); [apply pok_timed|exact Hl|exact Ei|exact F|lia|rewrite <- Eq; exact Hq'|exact O]. }
  assert (Ew : p_w q = history e now (untimed e (pworld0 now) pes ++ untimed e p pes')).
  { unfold q. rewrite timed_history, untimed_app. reflexivity. }
  unfold p, p_clock in *. rewrite Ew in *. rewrite timed_history in *.
  pose proof (silent_minute e ph c now _ _ d Hd W Hc Hs) as (_ & A & B).
  destruct (decide (d_status d = Offline)) as [Ho|Ho]; [apply B; [exact Ho|lia]|apply (proj2 (proj2 (A Ho))); lia].
Qed.

(** * Devices whose heartbeats arrive early enough *)
Lemma beats_dec e ph w ev : {beats e ph w ev} + {~ beats e ph w ev}.
Proof.
  unfold beats. destruct ev as [c addr|sl r x|q| |q|q x|q bad ps x|t]; try (right; intros (? & ? & ? & ? & ? & _); discriminate).
  destruct r as [frm|er|]; try (right; intros (? & ? & ? & ? & ? & _); discriminate).
  destruct (decide (sl ∈ w_live w)) as [Hl|Hl]; [|right; intros (? & ? & ? & ? & [= <- <- <-] & H & _); exact (Hl H)].
  destruct (received e (w_st w) frm) as [(h & b)|] eqn:Er; [|right; intros (? & ? & ? & ? & [= <- <- <-] & _ & H & _); congruence].
  destruct (decide (h_phone h = ph)) as [Hp|Hp]; [|right; intros (? & ? & ? & ? & [= <- <- <-] & _ & H & Hq); congruence].
  destruct b; try (right; intros (? & ? & ? & ? & [= <- <- <-] & _ & H & _); congruence).
  left. exists sl, frm, x, h. auto.
Qed.
Lemma attended_intro e ph : forall evs w t, world_ok w -> t <= st_clock (w_st w) ->
  (forall evs1 ev evs2, evs = evs1 ++ ev :: evs2 -> let v := fold_left (step e) evs1 w in
     ~ leaves e ph v ev /\ (forall t', ev = EClock t' -> st_clock (w_st v) <= t')) ->
  (forall evs1 evs2, evs = evs1 ++ ETick ph :: evs2 -> let c := st_clock (w_st (fold_left (step e) evs1 w)) in
     c <= t + 60000 \/ exists b1 ev b2, evs1 = b1 ++ ev :: b2 /\ let v := fold_left (step e) b1 w in beats e ph v ev /\ c <= st_clock (w_st v) + 60000) ->
  attended e ph w t evs.
Proof.
  induction evs as [|ev evs IH]; intros w t K Ht L T; [constructor|].
  destruct (L [] ev evs eq_refl) as (L1 & L2). cbn [fold_left] in L1, L2. pose proof (step_ok e w ev K) as K'.
  assert (L' : forall evs1 ev0 evs2, evs = evs1 ++ ev0 :: evs2 -> let v := fold_left (step e) evs1 (step e w ev) in
     ~ leaves e ph v ev0 /\ (forall t', ev0 = EClock t' -> st_clock (w_st v) <= t')) by (intros evs1 ev0 evs2 ->; exact (L (ev :: evs1) ev0 evs2 eq_refl)).
  pose proof (step_clock e w ev K) as C.
  assert (C' : st_clock (w_st w) <= st_clock (w_st (step e w ev))) by (rewrite C; destruct ev; try apply Z.le_refl; apply L2; reflexivity).
  destruct (beats_dec e ph w ev) as [B|B].
  - apply at_beat; [exact B|]. apply (IH _ _ K' C' L'). intros evs1 evs2 ->. destruct (T (ev :: evs1) evs2 eq_refl) as [H|(b1 & ev1 & b2 & E & H)]; cbn [fold_left] in H.
    + left. lia.
    + destruct b1 as [|x b1]; cbn [app] in E; injection E as E1 E2; [subst; left; exact (proj2 H)|]. subst x evs1. right. exists b1, ev1, b2. split; [reflexivity|exact H].
  - apply at_other; [exact L1| |exact L2|].
    + intros ->. destruct (T [] evs eq_refl) as [H|(b1 & ev1 & b2 & E & _)]; [exact H|destruct b1; discriminate].
    + apply (IH _ _ K'); [lia|exact L'|]. intros evs1 evs2 ->. destruct (T (ev :: evs1) evs2 eq_refl) as [H|(b1 & ev1 & b2 & E & H)]; [left; exact H|].
      destruct b1 as [|x b1]; cbn [app] in E; injection E as E1 E2; [subst; destruct (B (proj1 H))|]. subst x evs1. right. exists b1, ev1, b2. split; [reflexivity|exact H].
Qed.
Lemma untimed1_short p pe : untimed1 p pe = [] \/ exists ev, untimed1 p pe = [ev].
Proof.
  destruct pe as [sl r x|sl|d|ev]; cbn [untimed1]; eauto.
  - destruct (next_in p sl) as [(t & r & x)|]; eauto.
  - destruct ev; eauto.
Qed.
Lemma untimed_split e : forall pes p evs1 ev evs2, untimed e p pes = evs1 ++ ev :: evs2 ->
  exists pes1 pe pes2, pes = pes1 ++ pe :: pes2 /\ untimed1 (paces e p pes1) pe = [ev] /\ untimed e p pes1 = evs1.
Proof.
  induction pes as [|pe pes IH]; intros p evs1 ev evs2 H; [destruct evs1; discriminate|]. cbn [untimed] in H.
  destruct (untimed1_short p pe) as [E|(ev' & E)]; rewrite E in H; cbn [app] in H.
  - destruct (IH _ _ _ _ H) as (pes1 & pe' & pes2 & -> & H1 & H2). exists (pe :: pes1), pe', pes2. split; [reflexivity|]. split; [exact H1|].
    cbn [untimed]. rewrite E. exact H2.
  - destruct evs1 as [|ev1 evs1]; cbn [app] in H; injection H as -> H.
    + exists [], pe, pes. auto.
    + destruct (IH _ _ _ _ H) as (pes1 & pe' & pes2 & -> & H1 & H2). exists (pe :: pes1), pe', pes2. split; [reflexivity|]. split; [exact H1|].
      cbn [untimed]. rewrite E, H2. reflexivity.
Qed.
Lemma goes_on_tail e sl p l l' : goes_on e sl p (l ++ l') -> goes_on e sl (paces e p l) l'.
Proof. intros H l1 l2 ->. rewrite <- paces_app. apply (H (l ++ l1) l2). rewrite app_assoc. reflexivity. Qed.
Lemma goes_on_head e sl p l l' : goes_on e sl p (l ++ l') -> goes_on e sl p l.
Proof. intros H l1 l2 ->. apply (H l1 (l2 ++ l')). rewrite app_assoc. reflexivity. Qed.
Lemma waiting_or_handled e sl i : forall l p, goes_on e sl p l -> In i (p_in p sl) ->
  In i (p_in (paces e p l) sl) \/ exists m1 m2, l = m1 ++ PServe sl :: m2 /\ next_in (paces e p m1) sl = Some i.
Proof.
  induction l as [|pe l IH]; intros p G Hi; [left; exact Hi|]. rewrite paces_cons.
  pose proof (goes_on_tail e sl p [pe] l G) as G'. pose proof (G [pe] l eq_refl) as Hl. cbn [paces fold_left] in G', Hl.
  assert (D : In i (p_in (pace e p pe) sl) \/ (pe = PServe sl /\ next_in p sl = Some i)).
  { destruct (pace_local e p pe sl) as [(_ & _ & [E|(r & x & _ & _ & E)])|(t & r & x & l' & -> & En & El & _ & _ & E)].
    - rewrite E. auto.
    - rewrite E, in_app_iff. auto.
    - rewrite El in Hi. rewrite E, bool_decide_true by exact Hl. destruct Hi as [<-|Hi]; auto. }
  destruct D as [D|(-> & En)]; [|right; exists [], l; auto].
  destruct (IH _ G' D) as [H|(m1 & m2 & -> & H)]; [left; exact H|]. right. exists (pe :: m1), m2. auto.
Qed.
Lemma beat_received e ph frm s : beat_frame e ph frm -> exists h, received e s frm = Some (h, B0002) /\ h_phone h = ph.
Proof.
  intros (p & Hd & Hf & Hi & Hp). unfold received. rewrite Hd, Hi. cbn [known]. unfold whole. unfold fragment in Hf. rewrite Hf. cbn [msgDecode].
  exists (pk_hdr p). auto.
Qed.

(** what is waiting *)
Fixpoint ordered (l : list Z) : Prop := match l with [] => True | a :: l' => (forall b, In b l' -> a <= b) /\ ordered l' end.
Lemma ordered_snoc l c : ordered l -> (forall a, In a l -> a <= c) -> ordered (l ++ [c]).
Proof.
  induction l as [|a l IH]; intros H B; [split; [intros b []|exact Logic.I]|]. destruct H as (H1 & H2). cbn [app ordered]. split.
  - intros b Hb. apply in_app_iff in Hb. destruct Hb as [Hb|[<-|[]]]; [exact (H1 _ Hb)|apply B; left; reflexivity].
  - apply IH; [exact H2|]. intros b Hb. apply B. right. exact Hb.
Qed.
Lemma ordered_step e p pe sl : past p sl -> ordered (List.map fst (p_in p sl)) -> ordered (List.map fst (p_in (pace e p pe) sl)).
Proof.
  intros P H. destruct (pace_local e p pe sl) as [(_ & _ & [E|(r & x & _ & _ & E)])|(t & r & x & l & _ & _ & El & _ & _ & E)]; rewrite E.
  - exact H.
  - rewrite List.map_app. apply ordered_snoc; [exact H|]. intros a Ha. apply in_map_iff in Ha as (i & <- & Hi). exact (P i Hi).
  - rewrite El in H. case_bool_decide; [exact (proj2 H)|exact Logic.I].
Qed.
Definition ends_at (z : Z) (l : list handling) : Z := fold_left (fun _ x => hg_at x + hg_pause x) l z.
Lemma wake_served e sl l : forall p, p_wake (paces e p l) sl = ends_at (p_wake p sl) (served e sl p l).
Proof.
  induction l as [|pe l IH]; intros p; [reflexivity|]. rewrite paces_cons, IH. cbn [served]. unfold ends_at. rewrite fold_left_app. f_equal.
  destruct (pace_local e p pe sl) as [(E1 & E2 & _)|(t & r & x & l' & _ & _ & _ & E1 & E2 & _)]; rewrite E1, E2; reflexivity.
Qed.
Definition total (l : list handling) : Z := fold_right Z.add 0 (List.map hg_pause l).
Lemma ends_le M : forall l z, successive z l -> z + total l <= M ->
  (forall l1 x l2, l = l1 ++ x :: l2 -> hg_arrived x + (hg_pause x + total l2) <= M) -> ends_at z l <= M.
Proof.
  unfold ends_at, total. induction l as [|x l IH]; intros z S Hz H; cbn [fold_left List.map fold_right] in *; [lia|]. destruct S as (S1 & S2).
  apply IH; [exact S2| |intros l1 y l2 ->; exact (H (x :: l1) y l2 eq_refl)].
  pose proof (H [] x l eq_refl). lia.
Qed.
Lemma arrived_order e sl : forall l p, goes_on e sl p l ->
  exists more, List.map fst (p_in p sl) ++ more = List.map hg_arrived (served e sl p l) ++ List.map fst (p_in (paces e p l) sl).
Proof.
  induction l as [|pe l IH]; intros p G; [exists []; rewrite app_nil_r; reflexivity|]. rewrite paces_cons. cbn [served].
  destruct (IH _ (goes_on_tail e sl p [pe] l G)) as (more & E). pose proof (G [pe] l eq_refl) as Hl. cbn [paces fold_left] in E, Hl.
  rewrite List.map_app, <- app_assoc, <- E.
  destruct (pace_local e p pe sl) as [(E1 & _ & [E2|(r & x & _ & _ & E2)])|(t & r & x & l' & _ & _ & El & E1 & _ & E2)]; rewrite E1, E2.
  - exists more. reflexivity.
  - exists (p_clock p :: more). rewrite List.map_app, <- app_assoc. reflexivity.
  - exists more. rewrite El, bool_decide_true by exact Hl. reflexivity.
Qed.
Lemma arrived_from e sl z : forall l p, pok p -> z <= p_clock p -> (forall i, In i (p_in p sl) -> z <= fst i) ->
  (forall x, In x (served e sl p l) -> z <= hg_arrived x) /\ (forall i, In i (p_in (paces e p l) sl) -> z <= fst i).
Proof.
  induction l as [|pe l IH]; intros p K Hz H; [split; [intros x []|exact H]|]. rewrite paces_cons. cbn [served].
  assert (H' : forall i, In i (p_in (pace e p pe) sl) -> z <= fst i).
  { intros i Hi. destruct (pace_local e p pe sl) as [(_ & _ & [E|(r & x & _ & _ & E)])|(t & r & x & l' & _ & _ & El & _ & _ & E)]; rewrite E in Hi.
    - exact (H i Hi).
    - apply in_app_iff in Hi. destruct Hi as [Hi|[<-|[]]]; [exact (H i Hi)|exact Hz].
    - case_bool_decide; [|destruct Hi]. apply H. rewrite El. right. exact Hi. }
  pose proof (pclock_mono e p pe K) as M. destruct (IH _ (pok_step e p pe K) ltac:(lia) H') as (I1 & I2). split; [|exact I2].
  intros x Hx. apply in_app_iff in Hx. destruct Hx as [Hx|Hx]; [|exact (I1 x Hx)].
  destruct (pace_local e p pe sl) as [(E & _)|(t & r & y & l' & _ & _ & El & E & _)]; rewrite E in Hx; [destruct Hx|]. destruct Hx as [<-|[]].
  cbn [hg_arrived]. apply (H (t, (r, y))). rewrite El. left. reflexivity.
Qed.
Lemma past_run e sl : forall l p, pok p -> past p sl -> past (paces e p l) sl.
Proof. induction l as [|pe l IH]; intros p K H; [exact H|]. rewrite paces_cons. apply IH; [apply pok_step, K|apply past_step; assumption]. Qed.
Lemma ordered_run e sl : forall l p, pok p -> past p sl -> ordered (List.map fst (p_in p sl)) -> ordered (List.map fst (p_in (paces e p l) sl)).
Proof.
  induction l as [|pe l IH]; intros p K H O; [exact O|]. rewrite paces_cons. apply IH; [apply pok_step, K|apply past_step; assumption|apply ordered_step; assumption].
Qed.
Lemma caught_up e sl now K l l' i : let p := timed e now l in 0 <= K -> prompt e (pworld0 now) l -> goes_on e sl p l' ->
  lag K (arrivals e sl (pworld0 now) (l ++ l')) -> In i (p_in p sl) -> p_clock p <= fst i + K.
Proof.
  intros p HK P G L Hi. pose proof (start_ok e now) as K0.
  assert (A0 : past (pworld0 now) sl) by (intros j []).
  destruct (served_prompt e sl l (pworld0 now) K0 A0) as (S1 & S2); [intros _; reflexivity|intros _ j m; discriminate|exact P|].
  change (p_wake (pworld0 now) sl) with now in S1.
  change (paces e (pworld0 now) l) with p in S2. pose proof (G [] l' eq_refl) as Hl. cbn [paces fold_left] in Hl.
  destruct (arrived_from e sl now l (pworld0 now) K0 (Z.le_refl _)) as (F1 & F2); [intros j []|]. change (paces e (pworld0 now) l) with p in F2.
  pose proof (ordered_run e sl l (pworld0 now) K0 A0 Logic.I) as O. change (paces e (pworld0 now) l) with p in O.
  pose proof (wake_served e sl l (pworld0 now)) as W. change (p_wake (pworld0 now) sl) with now in W. change (paces e (pworld0 now) l) with p in W.
  destruct (p_in p sl) as [|j rest] eqn:Ej; [destruct Hi|]. pose proof (S2 Hl j rest Ej) as B.
  assert (Hij : fst j <= fst i). { destruct Hi as [<-|Hi]; [lia|]. apply (proj1 O). apply in_map. exact Hi. }
  enough (p_wake p sl <= fst j + K) by lia. rewrite W.
  destruct (arrived_order e sl l' p G) as (more & E). rewrite Ej in E. cbn [List.map app] in E.
  unfold arrivals in L. rewrite served_app, List.map_app, <- app_assoc, paces_app in L. change (paces e (pworld0 now) l) with p in L.
  set (S := served e sl (pworld0 now) l) in *.
  destruct (List.map (fun x => (hg_arrived x, hg_pause x)) (served e sl p l') ++ List.map (fun i => (fst i, 0)) (p_in (paces e p l') sl)) as [|(a' & n') l3] eqn:ET.
  { apply (f_equal (List.map fst)) in ET. rewrite List.map_app, !List.map_map in ET. cbn [fst] in ET.
    change (List.map (fun x => hg_arrived x) (served e sl p l')) with (List.map hg_arrived (served e sl p l')) in ET.
    change (List.map (fun x : Z * (res bytes * wres) => fst x) (p_in (paces e p l') sl)) with (List.map fst (p_in (paces e p l') sl)) in ET.
    rewrite <- E in ET. discriminate. }
  assert (a' = fst j) as ->.
  { apply (f_equal (List.map fst)) in ET. rewrite List.map_app, !List.map_map in ET. cbn [fst] in ET.
    change (List.map (fun x => hg_arrived x) (served e sl p l')) with (List.map hg_arrived (served e sl p l')) in ET.
    change (List.map (fun x : Z * (res bytes * wres) => fst x) (p_in (paces e p l') sl)) with (List.map fst (p_in (paces e p l') sl)) in ET.
    rewrite <- E in ET. cbn [List.map fst] in ET. congruence. }
  assert (Q : forall l1 x l2, S = l1 ++ x :: l2 -> hg_arrived x + (hg_pause x + total l2) <= fst j + K).
  { intros l1 x l2 ES. rewrite ES, List.map_app in L. cbn [List.map] in L.
    pose proof (L (List.map (fun x => (hg_arrived x, hg_pause x)) l1) (hg_arrived x) (hg_pause x) (List.map (fun x => (hg_arrived x, hg_pause x)) l2) (fst j) n' l3) as H.
    rewrite List.map_map in H. cbn [snd] in H. unfold total. apply H. rewrite <- app_assoc. reflexivity. }
  apply ends_le; [exact S1| |exact Q].
  destruct S as [|x S'] eqn:ES; [unfold total; cbn; pose proof (F2 j (or_introl eq_refl)); lia|].
  pose proof (Q [] x S' eq_refl) as Q0. pose proof (F1 x (or_introl eq_refl)). unfold total in *. cbn [List.map fold_right] in *. lia.
Qed.
Theorem beats_keep e now pes pes' sl ph d K : let p := timed e now pes in
  devAt (w_st (p_w p)) ph = Some d -> d_status d <> Offline -> d_last d <= p_clock p ->
  prompt e (pworld0 now) (pes ++ pes') -> goes_on e sl p pes' -> 0 <= K -> lag K (arrivals e sl (pworld0 now) (pes ++ pes')) ->
  stays_in e ph p pes' -> beats_arrive e ph sl K (d_last d) p pes' ->
  exists d', devAt (w_st (p_w (timed e now (pes ++ pes')))) ph = Some d' /\ d_status d' <> Offline /\ same_identity d d'.
Proof.
  intros p Hd Hs Hc P G HK L S B. unfold p, p_clock in *. rewrite !timed_history, untimed_app in *.
  change (paces e (pworld0 now) pes) with (timed e now pes). fold p in G, S, B |- *.
  refine (stays e now _ (untimed e p pes') ph d Hd Hs Hc _).
  assert (Ep : history e now (untimed e (pworld0 now) pes) = p_w p) by (symmetry; apply timed_history). rewrite Ep in *.
  pose proof (pok_timed e now pes) as K0. fold p in K0.
  apply attended_intro; [exact K0|exact Hc| |].
  - intros evs1 ev evs2 E. destruct (untimed_split e _ _ _ _ _ E) as (pes1 & pe & pes2 & -> & E1 & <-). rewrite <- untimed_run. cbv zeta. split.
    + apply (S pes1 pe pes2 eq_refl). rewrite E1. left. reflexivity.
    + intros t' ->. destruct pe as [sl' r x|sl'|dd|ev]; cbn [untimed1] in E1; [discriminate| | |].
      * destruct (next_in _ sl') as [(? & ? & ?)|]; discriminate.
      * injection E1 as <-. unfold p_clock. lia.
      * destruct ev; discriminate.
  - intros evs1 evs2 E. destruct (untimed_split e _ _ _ _ _ E) as (pes1 & pe & pes2 & -> & E1 & <-). rewrite <- untimed_run. cbv zeta.
    assert (pe = POther (ETick ph)) as ->.
    { destruct pe as [sl' r x|sl'|dd|ev]; cbn [untimed1] in E1; [discriminate| |discriminate|].
      - destruct (next_in _ sl') as [(? & ? & ?)|]; discriminate.
      - destruct ev; congruence. }
    destruct (B pes1 pes2 eq_refl) as [H|(l1 & frm & x & l2 & -> & Hb & Ha & Hk)]; [left; exact H|]. right.
    rewrite <- app_assoc in G. cbn [app] in G. pose proof (G l1 _ eq_refl) as Hl.
    set (p1 := paces e p l1) in *. set (i := (p_clock p1, (Ok frm : res bytes, x))).
    assert (Hi : In i (p_in (pace e p1 (PArrive sl (Ok frm) x)) sl)).
    { cbn [pace]. rewrite bool_decide_true by exact Hl. cbn [p_in]. rewrite at_key_same. apply in_app_iff. right. left. reflexivity. }
    assert (G2 : goes_on e sl (pace e p1 (PArrive sl (Ok frm) x)) (l2 ++ POther (ETick ph) :: pes2)).
    { pose proof (goes_on_tail e sl p (l1 ++ [PArrive sl (Ok frm) x]) (l2 ++ POther (ETick ph) :: pes2)) as H. rewrite paces_app in H. apply H.
      rewrite <- app_assoc. exact G. }
    destruct (waiting_or_handled e sl i l2 _ (goes_on_head _ _ _ _ _ G2) Hi) as [H|(m1 & m2 & -> & Hn)].
    + exfalso. assert (Eq : paces e (pace e p1 (PArrive sl (Ok frm) x)) l2 = timed e now (pes ++ l1 ++ PArrive sl (Ok frm) x :: l2)).
      { unfold timed. rewrite !paces_app. reflexivity. }
      rewrite Eq in H.
      pose proof (caught_up e sl now K (pes ++ l1 ++ PArrive sl (Ok frm) x :: l2) (POther (ETick ph) :: pes2) i HK) as Cu. cbv zeta in Cu.
      assert (Ex : (pes ++ l1 ++ PArrive sl (Ok frm) x :: l2) ++ POther (ETick ph) :: pes2 = pes ++ (l1 ++ PArrive sl (Ok frm) x :: l2) ++ POther (ETick ph) :: pes2)
        by (rewrite <- !app_assoc; reflexivity).
      rewrite Ex in Cu. specialize (Cu (proj1 (proj1 (prompt_app e _ _ _) ltac:(rewrite Ex; exact P)))).
      rewrite <- Eq in Cu. specialize (Cu (goes_on_tail _ _ _ _ _ G2) L). rewrite Eq in Cu. specialize (Cu H).
      unfold timed in Cu. rewrite paces_app in Cu. change (paces e (pworld0 now) pes) with p in Cu. cbn [fst i] in Cu. lia.
    + set (q := paces e (pace e p1 (PArrive sl (Ok frm) x)) m1) in *.
      assert (Eq : q = paces e p (l1 ++ PArrive sl (Ok frm) x :: m1)) by (rewrite paces_app; reflexivity).
      exists (untimed e p (l1 ++ PArrive sl (Ok frm) x :: m1)), (EFrame sl (Ok frm) x), (untimed e (pace e q (PServe sl)) m2).
      split.
      { replace (l1 ++ PArrive sl (Ok frm) x :: m1 ++ PServe sl :: m2) with ((l1 ++ PArrive sl (Ok frm) x :: m1) ++ PServe sl :: m2) by (rewrite <- app_assoc; reflexivity).
        rewrite untimed_app. cbn [untimed untimed1]. rewrite <- Eq, Hn. reflexivity. }
      rewrite <- untimed_run, <- Eq. cbv zeta.
      destruct (beat_received e ph frm (w_st (p_w q)) Hb) as (h & Hr & Hh). destruct (next_inv _ _ _ Hn) as (_ & Hlq & _).
      split; [exists sl, frm, x, h; auto|].
      assert (Kp1 : pok p1) by (apply pok_run, K0).
      pose proof (pclock_step e p1 (PArrive sl (Ok frm) x) Kp1) as C1. cbn [pace] in C1.
      pose proof (pclock_run e m1 _ (pok_step e p1 (PArrive sl (Ok frm) x) Kp1)) as C2. fold q in C2. rewrite pclock_step in C2 by exact Kp1.
      unfold p_clock in *. lia.
Qed.
Theorem served_pauses e now pes sl : (forall x, In x (served e sl (pworld0 now) pes) -> hg_pause x = 0 \/ hg_pause x = 1000)
  /\ not_before now (served e sl (pworld0 now) pes).
Proof.
  split; [apply served_pause|]. apply (served_order e sl pes (pworld0 now)); [apply (start_ok e)|intros i []].
Qed.
(** the pause recorded is the one of what was handled *)
Theorem pause_iff e now pes sl t r x : let p := timed e now pes in let y := mkHandling t (p_clock p) (nap e (w_st (p_w p)) sl r x) in
  next_in p sl = Some (t, (r, x)) ->
  served e sl (pworld0 now) (pes ++ [PServe sl]) = served e sl (pworld0 now) pes ++ [y]
  /\ p_w (timed e now (pes ++ [PServe sl])) = step e (p_w p) (EFrame sl r x)
  /\ (hg_pause y = 1000 <-> mistaken e (w_st (p_w p)) sl r x) /\ (hg_pause y = 0 <-> ~ mistaken e (w_st (p_w p)) sl r x).
Proof.
  intros p y En. split.
  { rewrite served_app. f_equal. cbn [served served1]. change (paces e (pworld0 now) pes) with p. rewrite decide_True by reflexivity. rewrite En. reflexivity. }
  split. { unfold timed. rewrite paces_app. change (paces e (pworld0 now) pes) with p. cbn [paces fold_left pace]. rewrite En. reflexivity. }
  unfold y. cbn [hg_pause]. destruct (nap_iff e (w_st (p_w p)) sl r x) as (H1 & H2).
  destruct (mistaken_dec e (w_st (p_w p)) sl r x) as [M|M]; [rewrite (H1 M)|rewrite (H2 M)]; split; split; intros H; try tauto; try discriminate H; reflexivity.
Qed.
