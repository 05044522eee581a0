(** Messages that are received twice *)
From Coq Require Import Sorted.
From stdpp Require Import gmap.
From Verif Require Import Base HexM TimeM HashM HeaderM ParamsM GeoM MsgM PacketM FrameM ProgM RingM SpecRing
  StateM ProcM ServerM SpecState SpecCodec SpecReg SpecRetry StateP ProcP ServerP EffectP CmdP RegP LifeP.
Local Open Scope N_scope.

Lemma merged_merged old new : merged (merged old new) new = merged old new.
Proof.
  pose proof (ids_spec (List.map p_id (dp_list old))) as (Hs & Hin).
  set (f := fun i => match last_with i (dp_list new) with Some q => Some q | None => last_with i (dp_list old) end).
  set (ids := fold_right insert_id [] (List.map p_id (dp_list old))) in *.
  assert (Hid : forall i q, f i = Some q -> p_id q = i).
  { intros i q. unfold f. destruct (last_with i (dp_list new)) eqn:E; [intros [= <-]|intros E']; eapply last_with_id; eassumption. }
  assert (Hf : forall i, In i ids -> exists q, f i = Some q).
  { intros i Hi. apply Hin, last_with_in in Hi. unfold f. destruct (last_with i (dp_list new)); [eauto|].
    destruct (last_with i (dp_list old)); [eauto|contradiction]. }
  assert (Em : List.map p_id (omap f ids) = ids).
  { clear -Hid Hf. induction ids as [|i l IH]; [reflexivity|]. destruct (Hf i (or_introl eq_refl)) as (q & Hq).
    cbn [omap list_omap]. rewrite Hq. cbn [List.map]. rewrite (Hid _ _ Hq). f_equal. apply IH. intros j Hj. apply Hf. right. exact Hj. }
  assert (Ei : fold_right insert_id [] ids = ids).
  { clear -Hs. induction Hs as [|i l Hl IH Hi]; [reflexivity|]. cbn. rewrite IH. destruct l as [|j l]; [reflexivity|].
    cbn. inversion Hi; subst. destruct (N.ltb_spec i j); [reflexivity|lia]. }
  assert (El : forall i, In i ids -> last_with i (omap f ids) = f i).
  { intros i Hi. destruct (last_with i (omap f ids)) as [q|] eqn:E.
    - unfold last_with in E. apply find_some_in in E as (E1 & E2). apply in_rev in E1.
      apply elem_of_list_In, elem_of_list_omap in E1 as (j & _ & Ej). pose proof (Hid _ _ Ej) as Ek. congruence.
    - exfalso. apply (proj1 (last_with_in i (omap f ids))); [rewrite Em; exact Hi|exact E]. }
  unfold merged at 1. unfold merged at 3. unfold merged. fold ids. fold f. cbn [dp_list dp_phone]. rewrite Em, Ei.
  assert (Eo : omap (fun i => match last_with i (dp_list new) with Some q => Some q | None => last_with i (omap f ids) end) ids
               = omap f ids).
  { assert (G : forall l, (forall i, In i l -> In i ids) ->
      omap (fun i => match last_with i (dp_list new) with Some q => Some q | None => last_with i (omap f ids) end) l = omap f l).
    { induction l as [|i l IH]; intros Hl; [reflexivity|].
      cbn [omap list_omap]. change (list_omap ?A ?B ?g ?x) with (omap g x). rewrite IH by (intros j Hj; apply Hl; right; exact Hj).
      rewrite (El i) by (apply Hl; left; reflexivity).
      assert (match last_with i (dp_list new) with Some q => Some q | None => f i end = f i) as ->; [|reflexivity].
      unfold f. destruct (last_with i (dp_list new)); reflexivity. }
    apply G. auto. }
  rewrite Eo. reflexivity.
Qed.

Lemma enter_again d d' pl : d_phone d = d_phone d' -> enter d (enter d' pl) = enter d pl.
Proof. intros E. unfold enter. cbn. rewrite E, insert_insert. reflexivity. Qed.
Lemma enter_at d pl : pf_dev (enter d pl) !! d_phone d = Some d.
Proof. apply lookup_insert. Qed.

Lemma enter_key d pl ph : d_phone d = ph -> pf_dev (enter d pl) !! ph = Some d.
Proof. intros <-. apply lookup_insert. Qed.
Local Opaque code_for merged enter.

Lemma handle_again dflt a a' c c' t now h b pl : keyed pl -> (forall m, b <> B0200 m) ->
  (forall n ps, b = B8103 n (Some ps) -> pf_par pl !! h_phone h <> None) ->
  let pl' := fst (handle dflt a c t now h b pl) in fst (handle dflt a' c' t now h b pl') = pl'.
Proof.
  intros K Hl Hp. destruct b as [| | | |r|al code imei sw| |m| | | |sn id r| |sn r code|n [ps|]| | |]; try reflexivity.
  - cbn. destruct (pf_dev pl !! h_phone h) as [d|] eqn:E; cbn [fst]; [|rewrite E; reflexivity].
    pose proof (K _ _ E) as Ed. assert (Ee : d_phone (heard t (d_status d) d) = h_phone h) by exact Ed.
    rewrite <- Ee at 1. rewrite enter_at. cbn [fst]. rewrite enter_again; reflexivity.
  - cbn. destruct (pf_dev pl !! h_phone h) as [d|] eqn:E; cbn [fst]; [|rewrite E; reflexivity].
    cbn. rewrite lookup_delete. reflexivity.
  - cbn. destruct (bool_decide (plate_taken pl (r_plate r))) eqn:E1; cbn [fst]; [rewrite E1; reflexivity|].
    destruct (bool_decide (is_Some (pf_dev pl !! h_phone h))) eqn:E2; cbn [fst]; [rewrite E1, E2; reflexivity|].
    rewrite bool_decide_true; [reflexivity|]. eexists (h_phone h), _. split; [apply enter_key; reflexivity|reflexivity].
  - cbn. destruct (pf_dev pl !! h_phone h) as [d|] eqn:E; cbn [fst]; [|rewrite E; reflexivity].
    destruct (bool_decide (code = code_for (d_id d) (d_plate d) (h_phone h))) eqn:E1; cbn [fst].
    + rewrite enter_key by reflexivity. cbn. rewrite E1. cbn [fst]. rewrite enter_again; reflexivity.
    + cbn. rewrite lookup_delete. reflexivity.
  - exfalso. exact (Hl m eq_refl).
  - cbn. destruct (r =? 0) eqn:Er; [|cbn; rewrite ?Er; reflexivity].
    destruct (pf_dev pl !! h_phone h) as [d|] eqn:E; cbn [fst]; [|rewrite E; reflexivity].
    destruct (d_status d =? Offline) eqn:Eo; cbn [fst].
    + pose proof (K _ _ E) as Ed. assert (Ee : d_phone (heard t Online d) = h_phone h) by exact Ed.
      rewrite <- Ee at 1. rewrite enter_at. reflexivity.
    + rewrite E. cbn [fst]. rewrite Eo. reflexivity.
  - cbn. destruct (pf_dev pl !! h_phone h) as [d|] eqn:E; cbn [fst]; rewrite E; reflexivity.
  - specialize (Hp _ _ eq_refl). cbn. destruct (pf_par pl !! h_phone h) as [old|] eqn:E; [|contradiction].
    cbn. rewrite lookup_insert, merged_merged. unfold store. cbn. rewrite insert_insert. reflexivity.
  - cbn. destruct (pf_par pl !! h_phone h) as [ps|] eqn:E; cbn [fst]; [rewrite E; reflexivity|].
    destruct (dflt (h_phone h)) as [ps|er|] eqn:Ed; cbn [fst]; [|rewrite E, ?Ed; reflexivity..].
    cbn. rewrite lookup_insert. reflexivity.
Qed.

(** the answer is the same if the phone is registered after the message just if it was before *)
Lemma answer_again dflt a a' c c' t now h b pl : keyed pl ->
  let pl' := fst (handle dflt a c t now h b pl) in
  (is_Some (pf_dev pl !! h_phone h) <-> is_Some (pf_dev pl' !! h_phone h)) ->
  snd (handle dflt a' c' t now h b pl') = snd (handle dflt a c t now h b pl).
Proof.
  intros K. cbv zeta.
  destruct b as [| | | |r|al code imei sw| |m| | | |sn id r| |sn r code|n [ps|]| | |]; intros HP; try reflexivity; revert HP.
  - cbn. destruct (pf_dev pl !! h_phone h) as [d|] eqn:E; cbn [fst snd]; [|rewrite E; reflexivity]. intros _.
    pose proof (K _ _ E) as Ed. assert (Ee : d_phone (heard t (d_status d) d) = h_phone h) by exact Ed.
    rewrite <- Ee at 1. rewrite enter_at. reflexivity.
  - cbn. destruct (pf_dev pl !! h_phone h) as [d|] eqn:E; cbn [fst snd]; [|rewrite E; reflexivity].
    cbn. rewrite lookup_delete. intros H. destruct (proj1 H (ex_intro _ d eq_refl)) as (? & ?). discriminate.
  - cbn. destruct (bool_decide (plate_taken pl (r_plate r))) eqn:E1; cbn [fst snd]; [intros _; rewrite E1; reflexivity|].
    destruct (bool_decide (is_Some (pf_dev pl !! h_phone h))) eqn:E2; cbn [fst snd]; [intros _; rewrite E1, E2; reflexivity|].
    apply bool_decide_eq_false in E2. intros H. exfalso. apply E2, H. rewrite enter_key by reflexivity. eauto.
  - cbn. destruct (pf_dev pl !! h_phone h) as [d|] eqn:E; cbn [fst snd]; [|rewrite E; reflexivity].
    destruct (bool_decide (code = code_for (d_id d) (d_plate d) (h_phone h))) eqn:E1; cbn [fst snd].
    + intros _. rewrite enter_key by reflexivity. cbn. rewrite E1. reflexivity.
    + cbn. rewrite lookup_delete. intros H. destruct (proj1 H (ex_intro _ d eq_refl)) as (? & ?). discriminate.
  - cbn. destruct (pf_dev pl !! h_phone h) as [d|] eqn:E; cbn [fst snd]; [|rewrite E; reflexivity]. intros _.
    destruct (N.testbit (l_status m) 0).
    + cbn. rewrite E. reflexivity.
    + cbn. pose proof (K _ _ E) as Ed. rewrite enter_key by exact Ed. reflexivity.
  - cbn. destruct (r =? 0) eqn:Er; [|cbn; rewrite ?Er; reflexivity].
    destruct (pf_dev pl !! h_phone h) as [d|] eqn:E; cbn [fst snd]; [|rewrite E; reflexivity]. intros _.
    destruct (d_status d =? Offline) eqn:Eo; cbn [fst snd].
    + pose proof (K _ _ E) as Ed. assert (Ee : d_phone (heard t Online d) = h_phone h) by exact Ed.
      rewrite <- Ee at 1. rewrite enter_at. reflexivity.
    + rewrite E. reflexivity.
  - cbn. destruct (pf_dev pl !! h_phone h) as [d|] eqn:E; cbn [fst snd]; rewrite E; reflexivity.
  - cbn. destruct (pf_par pl !! h_phone h) as [ps|] eqn:E; cbn [fst snd]; [rewrite E; reflexivity|].
    destruct (dflt (h_phone h)) as [ps|er|] eqn:Ed; cbn [fst snd]; [|rewrite E, ?Ed; reflexivity..].
    cbn. rewrite lookup_insert. reflexivity.
Qed.

Lemma received_single e s s' frm h b : st_clock s' = st_clock s -> received e s frm = Some (h, b) -> single h ->
  received e s' frm = Some (h, b).
Proof.
  intros Ec. unfold received, single. destruct (decodePacket (e_o e) frm) as [p|er|]; try discriminate.
  destruct (known (h_id (pk_hdr p))) as [k|]; [|discriminate]. rewrite Ec. intros H Hh.
  destruct (whole s p); [|discriminate]. destruct (msgDecode (e_o e) (e_civil e (st_clock s)) k p) as [m|er|] eqn:Em; try discriminate.
  injection H as <- <-. destruct (msgDecode_hdr _ _ _ _ _ Em) as (E & _). rewrite E in Hh. cbn in Hh.
  unfold whole. rewrite (proj2 (N.eqb_neq _ _) Hh). reflexivity.
Qed.
Lemma follow_app e evs evs' : forall w pl, follow e w (evs ++ evs') pl = follow e (fold_left (step e) evs w) evs' (follow e w evs pl).
Proof. induction evs as [|ev evs IH]; intros w pl; [reflexivity|]. cbn. apply IH. Qed.
Lemma history_snoc e now evs ev : history e now (evs ++ [ev]) = step e (history e now evs) ev.
Proof. unfold history. rewrite fold_left_app. reflexivity. Qed.

Lemma advance_frame e w sl frm wr x h b pl : sl ∈ w_live w -> st_sess (w_st w) !! sl = Some x -> received e (w_st w) frm = Some (h, b) ->
  advance e w (EFrame sl (Ok frm) wr) pl
  = fst (handle (builtin e) (ss_id x) (ss_conn x) (st_clock (w_st w)) (e_civil e (st_clock (w_st w))) h b pl).
Proof. intros H1 H2 H3. cbn [advance]. rewrite bool_decide_true by exact H1. rewrite H2, H3. reflexivity. Qed.
Lemma advance_maybe e w sl frm wr h b pl : received e (w_st w) frm = Some (h, b) ->
  advance e w (EFrame sl (Ok frm) wr) pl = pl
  \/ exists a c, advance e w (EFrame sl (Ok frm) wr) pl = fst (handle (builtin e) a c (st_clock (w_st w)) (e_civil e (st_clock (w_st w))) h b pl).
Proof.
  intros H3. cbn [advance]. destruct (bool_decide (sl ∈ w_live w)); [|left; reflexivity].
  destruct (st_sess (w_st w) !! sl) as [x|]; [|left; reflexivity]. rewrite H3. right. eauto.
Qed.

Lemma repeat_data e now evs sl sl' frm wr wr' h b :
  let w := history e now evs in
  sl ∈ w_live w -> received e (w_st w) frm = Some (h, b) -> single h -> repeatable (w_st w) (h_phone h) b ->
  same_content (w_st (history e now (evs ++ [EFrame sl (Ok frm) wr])))
               (w_st (history e now (evs ++ [EFrame sl (Ok frm) wr; EFrame sl' (Ok frm) wr']))).
Proof.
  intros w Hl Hr Hs (Hb & Hp). set (pl := follow e (world0 now) evs no_data).
  exists (advance e w (EFrame sl (Ok frm) wr) pl). split.
  - pose proof (refinement e now (evs ++ [EFrame sl (Ok frm) wr])) as H. rewrite follow_app in H. exact H.
  - pose proof (refinement e now (evs ++ [EFrame sl (Ok frm) wr; EFrame sl' (Ok frm) wr'])) as H. rewrite follow_app in H.
    cbn [follow] in H. fold (history e now evs) in H. fold w in H. fold pl in H.
    pose proof (history_ok e now evs) as Hw. fold w in Hw.
    assert (Hk : keyed pl) by (apply (shows_keyed (w_st w)); [apply Hw|apply refinement]).
    assert (Hx : exists x, st_sess (w_st w) !! sl = Some x).
    { destruct Hw as [C D L R]. exact (L sl Hl). }
    destruct Hx as (x & Hx).
    assert (Hr' : received e (w_st (step e w (EFrame sl (Ok frm) wr))) frm = Some (h, b)).
    { apply (received_single e (w_st w)); [exact (step_clock e w (EFrame sl (Ok frm) wr) Hw)|exact Hr|exact Hs]. }
    rewrite (advance_frame e w sl frm wr x h b pl Hl Hx Hr) in H |- *.
    destruct (advance_maybe e _ sl' frm wr' h b
                (fst (handle (builtin e) (ss_id x) (ss_conn x) (st_clock (w_st w)) (e_civil e (st_clock (w_st w))) h b pl)) Hr')
      as [E|(a & c & E)]; rewrite E in H; [exact H|].
    rewrite (step_clock e w (EFrame sl (Ok frm) wr) Hw) in H. rewrite handle_again in H; [exact H|exact Hk|exact Hb|].
    intros n ps Eb. pose proof (proj2 (proj2 (refinement e now evs (h_phone h)))) as Ep. fold w in Ep. fold pl in Ep.
    rewrite <- Ep. exact (Hp n ps Eb).
Qed.

(** ** Answers *)
Lemma frame_sess e now evs sl frm wr x k : let w := history e now evs in
  sl ∈ w_live w -> st_sess (w_st w) !! sl = Some x -> st_conns (w_st w) !! ss_conn x = Some k ->
  exists x1, st_sess (w_st (step e w (EFrame sl (Ok frm) wr))) !! sl = Some x1 /\ ss_id x1 = ss_id x /\ ss_conn x1 = ss_conn x.
Proof.
  intros w Hl Hx Hk. destruct (history_ok e now evs) as [C D L R]. fold w in C, D, L, R.
  destruct (serve_frame e sl (Ok frm) wr (w_st w) x k C Hx Hk) as (s' & E & _ & _ & _ & _ & _ & Hs).
  assert (Ew : w_st (step e w (EFrame sl (Ok frm) wr)) = s').
  { unfold step. rewrite D, bool_decide_true by exact Hl. rewrite E. destruct (negb _); reflexivity. }
  rewrite Ew. exact (same_sess _ _ Hs sl x Hx).
Qed.
Lemma outcome_open e k k' h a : cn_open k' = cn_open k -> outcome e k' h a = outcome e k h a.
Proof. intros E. unfold outcome. rewrite E. reflexivity. Qed.

(** what the second of two equal frames does, from what it does to the data *)
Lemma answered_twice e now evs sl frm x k h b :
  let w := history e now evs in
  let pl := follow e (world0 now) evs no_data in
  let w1 := history e now (evs ++ [EFrame sl (Ok frm) None]) in
  let w2 := history e now (evs ++ [EFrame sl (Ok frm) None; EFrame sl (Ok frm) None]) in
  let r1 := handle (builtin e) (ss_id x) (ss_conn x) (st_clock (w_st w)) (e_civil e (st_clock (w_st w))) h b pl in
  let r2 := handle (builtin e) (ss_id x) (ss_conn x) (st_clock (w_st w)) (e_civil e (st_clock (w_st w))) h b (fst r1) in
  sl ∈ w_live w -> st_sess (w_st w) !! sl = Some x -> st_conns (w_st w) !! ss_conn x = Some k ->
  received e (w_st w) frm = Some (h, b) -> single h ->
  let o1 := outcome e k h (snd r1) in let o2 := outcome e k h (snd r2) in
  shows (w_st w1) (fst r1)
  /\ w_live w1 = (if snd o1 then w_live w else w_live w ∖ {[sl]})
  /\ st_conns (w_st w1) !! ss_conn x = Some (mkConn (snd o1 && cn_open k) (cn_out k ++ fst o1))
  /\ (snd o1 = true -> shows (w_st w2) (fst r2)
      /\ w_live w2 = (if snd o2 then w_live w else w_live w ∖ {[sl]})
      /\ st_conns (w_st w2) !! ss_conn x = Some (mkConn (snd o2 && cn_open k) (cn_out k ++ fst o1 ++ fst o2))).
Proof.
  intros w pl w1 w2 r1 r2 Hl Hx Hk Hr Hs o1 o2.
  assert (Ew : w1 = step e w (EFrame sl (Ok frm) None)) by apply history_snoc.
  assert (E2 : w2 = step e w1 (EFrame sl (Ok frm) None)).
  { unfold w2. change [EFrame sl (Ok frm) None; EFrame sl (Ok frm) None] with ([EFrame sl (Ok frm) None] ++ [EFrame sl (Ok frm) None]).
    rewrite app_assoc. apply history_snoc. }
  pose proof (history_ok e now evs) as Hw. fold w in Hw.
  pose proof (refinement e now (evs ++ [EFrame sl (Ok frm) None])) as S1. fold w1 in S1. rewrite follow_app in S1. cbn [follow] in S1.
  fold (history e now evs) in S1. fold w in S1. fold pl in S1. rewrite (advance_frame e w sl frm None x h b pl Hl Hx Hr) in S1. fold r1 in S1.
  destruct (answered e now evs sl frm x k h b Hl Hx Hk Hr) as (A1 & _ & A3). fold w in A1, A3. rewrite <- Ew in A1, A3.
  fold pl in A1, A3. fold r1 in A1, A3. fold o1 in A1, A3.
  split; [exact S1|]. split; [exact A3|]. split; [exact A1|]. intros G. rewrite G in A1, A3. cbn [andb] in A1.
  destruct (frame_sess e now evs sl frm None x k Hl Hx Hk) as (x1 & Hx1 & Ei & Ec). fold w in Hx1. rewrite <- Ew in Hx1.
  assert (Hc1 : st_clock (w_st w1) = st_clock (w_st w)).
  { rewrite Ew. exact (step_clock e w (EFrame sl (Ok frm) None) Hw). }
  assert (Hl1 : sl ∈ w_live w1) by (rewrite A3; exact Hl).
  assert (Hr1 : received e (w_st w1) frm = Some (h, b)) by (apply (received_single e (w_st w)); assumption).
  rewrite <- Ec in A1.
  destruct (answered e now (evs ++ [EFrame sl (Ok frm) None]) sl frm x1 _ h b Hl1 Hx1 A1 Hr1) as (B1 & _ & B3).
  fold w1 in B1, B3. rewrite <- E2 in B1, B3. rewrite follow_app in B1, B3. cbn [follow] in B1, B3.
  fold (history e now evs) in B1, B3. fold w in B1, B3. fold pl in B1, B3.
  rewrite (advance_frame e w sl frm None x h b pl Hl Hx Hr) in B1, B3. rewrite Hc1, Ei, Ec in B1, B3.
  fold r1 in B1, B3. fold r2 in B1, B3. rewrite (outcome_open e k) in B1, B3 by reflexivity. fold o2 in B1, B3. cbn [cn_open cn_out] in B1.
  pose proof (refinement e now (evs ++ [EFrame sl (Ok frm) None; EFrame sl (Ok frm) None])) as S2. fold w2 in S2.
  rewrite follow_app in S2. cbn [follow] in S2. fold (history e now evs) in S2. fold w in S2. fold pl in S2.
  rewrite (advance_frame e w sl frm None x h b pl Hl Hx Hr) in S2. rewrite <- Ew in S2.
  rewrite (advance_frame e w1 sl frm None x1 h b _ Hl1 Hx1 Hr1) in S2. rewrite Hc1, Ei, Ec in S2. fold r1 in S2. fold r2 in S2.
  split; [exact S2|]. split; [rewrite B3, A3; reflexivity|]. rewrite B1, app_assoc. reflexivity.
Qed.

Section Twice.
Context (e : env) (now : Z) (evs : list event) (sl : nat) (frm : bytes) (x : session) (k : conn) (h : header).
Let w := history e now evs.
Let f := EFrame sl (Ok frm) None.
Let w1 := history e now (evs ++ [f]).
Let w2 := history e now (evs ++ [f; f]).
Let pl := follow e (world0 now) evs no_data.
Context (Hl : sl ∈ w_live w) (Hx : st_sess (w_st w) !! sl = Some x) (Hk : st_conns (w_st w) !! ss_conn x = Some k) (Hs : single h).

Lemma keyed_now : keyed pl.
Proof. apply (shows_keyed (w_st w)); [apply (history_ok e now evs)|apply refinement]. Qed.
Lemma dev_now ph : devAt (w_st w) ph = pf_dev pl !! ph.
Proof. apply (refinement e now evs ph). Qed.

Lemma same_answer b : received e (w_st w) frm = Some (h, b) ->
  (is_Some (devAt (w_st w) (h_phone h)) <-> is_Some (devAt (w_st w1) (h_phone h))) -> sl ∈ w_live w1 ->
  exists out, st_conns (w_st w1) !! ss_conn x = Some (mkConn (cn_open k) (cn_out k ++ out))
    /\ st_conns (w_st w2) !! ss_conn x = Some (mkConn (cn_open k) (cn_out k ++ out ++ out)) /\ sl ∈ w_live w2.
Proof.
  intros Hr Hd H1. destruct (answered_twice e now evs sl frm x k h b Hl Hx Hk Hr Hs) as (S1 & L1 & C1 & K).
  fold w f w1 w2 pl in S1, L1, C1, K. rewrite dev_now, (proj1 (S1 (h_phone h))) in Hd.
  rewrite (answer_again _ _ (ss_id x) _ (ss_conn x) _ _ h b pl keyed_now Hd) in K.
  set (o := outcome e k h _) in *.
  assert (G : snd o = true). { destruct (snd o); [reflexivity|]. exfalso. rewrite L1 in H1.
    apply elem_of_difference in H1 as [_ H1]. apply H1, elem_of_singleton. reflexivity. }
  destruct (K G) as (_ & L2 & C2). rewrite G in *. exists (fst o). cbn [andb] in *.
  split; [exact C1|]. split; [exact C2|]. rewrite L2. exact Hl.
Qed.

Lemma registered_twice r : received e (w_st w) frm = Some (h, B0100 r) -> devAt (w_st w) (h_phone h) = None ->
  devWithPlate (w_st w) (r_plate r) = None -> cn_open k = true ->
  exists f1 f2, encodePacket (e_o e) (mkMsg (with_id h 0x8100) (B8100 (h_sn h) 0 (code_for (r_devid r) (r_plate r) (h_phone h)))) = Ok f1
    /\ encodePacket (e_o e) (mkMsg (with_id h 0x8100) (B8100 (h_sn h) 1 [65; 117; 116; 104; 67; 111; 100; 101])) = Ok f2
    /\ st_conns (w_st w2) !! ss_conn x = Some (mkConn true (cn_out k ++ [f1; f2])).
Proof.
  intros Hr Hd Hp Ho. destruct (answered_twice e now evs sl frm x k h _ Hl Hx Hk Hr Hs) as (_ & _ & _ & K).
  fold w f w1 w2 pl in K. cbn [handle] in K.
  assert (E1 : bool_decide (plate_taken pl (r_plate r)) = false).
  { apply bool_decide_false. intros H. pose proof (history_ok e now evs) as [C _ _ _]. fold w in C.
    apply (taken_iff (w_st w) pl) in H; [|exact C|apply refinement].
    destruct H as (l & Hl'). unfold devWithPlate in Hp. rewrite Hl' in Hp.
    destruct (cs_plate _ C _ _ Hl') as (d & Hd' & _). congruence. }
  assert (E2 : bool_decide (is_Some (pf_dev pl !! h_phone h)) = false).
  { apply bool_decide_false. intros (d & H). rewrite <- dev_now, Hd in H. discriminate. }
  rewrite E1, E2 in K. cbn [fst snd] in K. rewrite bool_decide_true in K.
  2:{ eexists (h_phone h), _. split; [apply enter_key; reflexivity|reflexivity]. }
  cbn [snd] in K. unfold outcome in K. rewrite Ho in K.
  assert (Enc : forall rs cd, exists f', encodePacket (e_o e) (mkMsg (with_id h 0x8100) (B8100 (h_sn h) rs cd)) = Ok f').
  { intros rs cd. unfold encodePacket, msgEncode. cbn [encBody m_body m_hdr rmap]. eauto. }
  destruct (Enc 0 (code_for (r_devid r) (r_plate r) (h_phone h))) as (f1 & F1).
  destruct (Enc 1 [65; 117; 116; 104; 67; 111; 100; 101]) as (f2 & F2).
  rewrite F1, F2 in K. cbn [fst snd andb app] in K. exists f1, f2. split; [exact F1|]. split; [exact F2|]. apply K. reflexivity.
Qed.

Lemma logged_out_twice : received e (w_st w) frm = Some (h, B0003) -> is_Some (devAt (w_st w) (h_phone h)) -> cn_open k = true ->
  exists f1, encodePacket (e_o e) (mkMsg (with_id h 0x8001) (B8001 (h_sn h) (h_id h) 0)) = Ok f1
    /\ st_conns (w_st w1) !! ss_conn x = Some (mkConn true (cn_out k ++ [f1]))
    /\ st_conns (w_st w2) !! ss_conn x = Some (mkConn false (cn_out k ++ [f1])) /\ sl ∉ w_live w2.
Proof.
  intros Hr (d & Hd) Ho. destruct (answered_twice e now evs sl frm x k h _ Hl Hx Hk Hr Hs) as (_ & _ & C1 & K).
  fold w f w1 w2 pl in C1, K. rewrite dev_now in Hd. cbn [handle] in C1, K. rewrite Hd in C1, K. cbn [fst snd] in C1, K.
  assert (E : pf_dev (strike (h_phone h) pl) !! h_phone h = None) by apply lookup_delete. rewrite E in K. cbn [snd] in K.
  assert (Enc : exists f', encodePacket (e_o e) (mkMsg (with_id h 0x8001) (B8001 (h_sn h) (h_id h) 0)) = Ok f').
  { unfold encodePacket, msgEncode. cbn [encBody m_body m_hdr rmap]. eauto. }
  destruct Enc as (f1 & F1). unfold outcome in C1, K. rewrite Ho, F1 in C1, K. cbn [fst snd andb app] in C1, K.
  destruct (K eq_refl) as (_ & L2 & C2). exists f1. split; [exact F1|]. split; [exact C1|]. split; [exact C2|]. rewrite L2.
  intros H. apply elem_of_difference in H as [_ H]. apply H, elem_of_singleton. reflexivity.
Qed.

Lemma located_twice m : received e (w_st w) frm = Some (h, B0200 m) -> is_Some (devAt (w_st w) (h_phone h)) -> cn_open k = true ->
  exists ws g, track (w_st w) (h_phone h) ws /\ track (w_st w1) (h_phone h) (ws ++ [g]) /\ track (w_st w2) (h_phone h) (ws ++ [g; g]).
Proof.
  intros Hr (d & Hd) Ho. destruct (answered_twice e now evs sl frm x k h _ Hl Hx Hk Hr Hs) as (S1 & _ & _ & K).
  fold w f w1 w2 pl in S1, K. rewrite dev_now in Hd. pose proof (keyed_now _ _ Hd) as Ed.
  assert (Enc : exists f', encodePacket (e_o e) (mkMsg (with_id h 0x8001) (B8001 (h_sn h) (h_id h) 0)) = Ok f').
  { unfold encodePacket, msgEncode. cbn [encBody m_body m_hdr rmap]. eauto. }
  destruct Enc as (f1 & F1). cbn [handle] in S1, K. rewrite Hd in S1, K. cbn [fst snd] in S1, K.
  unfold outcome at 1 in K. rewrite Ho, F1 in K. destruct (K eq_refl) as (S2 & _). clear K.
  set (g := mkDevGeo (h_phone h) _ _ _ _ _ _ _) in *. exists (reported pl (h_phone h)), g.
  split; [apply (refinement e now evs (h_phone h))|].
  assert (R : forall p, reported (append (h_phone h) g p) (h_phone h) = reported p (h_phone h) ++ [g]).
  { intros p. unfold reported at 1, append. cbn [pf_loc]. rewrite lookup_insert. reflexivity. }
  assert (Re : forall d' p, reported (enter d' p) (h_phone h) = reported p (h_phone h)) by reflexivity.
  split.
  - pose proof (proj1 (proj2 (S1 (h_phone h)))) as T. rewrite R in T. destruct (N.testbit (l_status m) 0); [exact T|rewrite Re in T; exact T].
  - pose proof (proj1 (proj2 (S2 (h_phone h)))) as T.
    destruct (N.testbit (l_status m) 0).
    + cbn [append pf_dev] in T. rewrite Hd in T. cbn [fst] in T.
      change (mkPlat (pf_dev pl) _ (pf_par pl)) with (append (h_phone h) g pl) in T. rewrite !R, <- app_assoc in T. exact T.
    + assert (Ea : forall d' p, d_phone d' = h_phone h -> pf_dev (append (h_phone h) g (enter d' p)) !! h_phone h = Some d').
      { intros d' p E. cbn [append pf_dev]. apply enter_key. exact E. }
      rewrite Ea in T by exact Ed. cbn [fst] in T. rewrite R, Re, R, Re, <- app_assoc in T. exact T.
Qed.

Lemma set_twice n ps : received e (w_st w) frm = Some (h, B8103 n (Some ps)) -> st_params (w_st w) !! h_phone h = None -> cn_open k = true ->
  st_params (w_st w1) !! h_phone h = Some ps /\ st_params (w_st w2) !! h_phone h = Some (merged ps ps).
Proof.
  intros Hr Hp Ho. destruct (answered_twice e now evs sl frm x k h _ Hl Hx Hk Hr Hs) as (S1 & _ & _ & K).
  fold w f w1 w2 pl in S1, K. pose proof (proj2 (proj2 (refinement e now evs (h_phone h)))) as Ep. fold w pl in Ep. rewrite Hp in Ep.
  assert (Enc : exists f', encodePacket (e_o e) (mkMsg (with_id h 0x0001) (B0001 (h_sn h) (h_id h) 0)) = Ok f').
  { unfold encodePacket, msgEncode. cbn [encBody m_body m_hdr rmap]. eauto. }
  destruct Enc as (f1 & F1). cbn [handle] in S1, K. cbn [fst snd] in S1, K. rewrite <- Ep in S1, K.
  unfold outcome at 1 in K. rewrite Ho, F1 in K. destruct (K eq_refl) as (S2 & _). clear K.
  pose proof (proj2 (proj2 (S1 (h_phone h)))) as T1. pose proof (proj2 (proj2 (S2 (h_phone h)))) as T2.
  cbn [store pf_par] in T1, T2. rewrite lookup_insert in T1. rewrite !lookup_insert in T2. rewrite T1, T2. split; reflexivity.
Qed.
End Twice.

Lemma serial_blind dflt a c t now h b pl sn : fst (handle dflt a c t now (with_serial h sn) b pl) = fst (handle dflt a c t now h b pl).
Proof.
  destruct b as [| | | |r|al code imei sw| |m| | | |s id r| |s r code|n [ps|]| | |]; try reflexivity; cbn;
    repeat match goal with |- context [match ?y with _ => _ end] => destruct y end; reflexivity.
Qed.
Lemma serials_unused e now evs sl frm frm' wr wr' h b sn : let w := history e now evs in
  received e (w_st w) frm = Some (h, b) -> received e (w_st w) frm' = Some (with_serial h sn, b) ->
  same_content (w_st (history e now (evs ++ [EFrame sl (Ok frm) wr]))) (w_st (history e now (evs ++ [EFrame sl (Ok frm') wr']))).
Proof.
  intros w H1 H2. pose proof (refinement e now (evs ++ [EFrame sl (Ok frm) wr])) as S1.
  pose proof (refinement e now (evs ++ [EFrame sl (Ok frm') wr'])) as S2. rewrite follow_app in S1, S2. cbn [follow] in S1, S2.
  eexists. split; [exact S1|]. fold (history e now evs) in S1, S2 |- *. fold w in S1, S2 |- *.
  assert (E : forall pl, advance e w (EFrame sl (Ok frm) wr) pl = advance e w (EFrame sl (Ok frm') wr') pl); [|rewrite E; exact S2].
  intros pl. cbn [advance]. rewrite H1, H2. destruct (bool_decide _); [|reflexivity]. destruct (st_sess (w_st w) !! sl); [|reflexivity].
  symmetry. apply serial_blind.
Qed.
