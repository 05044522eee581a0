(** How long silent devices stay when their checks come regularly (C126) *)
From stdpp Require Import gmap.
From Verif Require Import Base HexM HeaderM ParamsM MsgM PacketM ProgM StateM ProcM ServerM SpecState SpecReg SpecRelease SpecTimed
  ProgP StateP ProcP ServerP RegP LifeP ReleaseP.
Local Open Scope Z_scope.

Definition late (t : Z) (ts : list Z) : nat := length (List.filter (fun c => t <? c) ts).
Lemma overdue_late e ph t : forall evs w, overdue e ph t w evs = late t (check_times e ph w evs).
Proof.
  unfold late. induction evs as [|ev evs IH]; intros w; [reflexivity|]. cbn [overdue check_times].
  rewrite List.filter_app, app_length, <- IH. f_equal.
  destruct ev as [| |q| | | | |]; try reflexivity. destruct (decide (q = ph)); [|reflexivity].
  cbn [List.filter]. destruct (t <? st_clock (w_st w)); reflexivity.
Qed.
Lemma late_cons t c ts : late t (c :: ts) = ((if (t <? c)%Z then 1 else 0) + late t ts)%nat.
Proof. unfold late. cbn [List.filter]. destruct (t <? c); reflexivity. Qed.
Lemma spaced_le lo hi t : 0 <= lo -> forall ts c, spaced lo hi c ts t -> c <= t.
Proof. intros Hl. induction ts as [|c' ts IH]; intros c H; cbn [spaced] in H; [lia|]. destruct H as (H1 & H2). apply IH in H2. lia. Qed.
Lemma late_none lo hi u t : 0 <= lo -> t <= u -> forall ts c, spaced lo hi c ts t -> late u ts = O.
Proof.
  intros Hl Hu. induction ts as [|c' ts IH]; intros c H; [reflexivity|]. cbn [spaced] in H. destruct H as (H1 & H2). rewrite late_cons, (IH _ H2).
  apply (spaced_le _ _ _ Hl) in H2. destruct (Z.ltb_spec u c'); lia.
Qed.
Lemma late_one lo hi u t : 0 <= lo -> t <= u + lo -> forall ts c, spaced lo hi c ts t -> (late u ts <= 1)%nat.
Proof.
  intros Hl Hu. induction ts as [|c' ts IH]; intros c H; [cbn; lia|]. cbn [spaced] in H. destruct H as (H1 & H2). rewrite late_cons.
  destruct (Z.ltb_spec u c'); [|pose proof (IH _ H2); lia].
  destruct ts as [|c'' ts]; [cbn; lia|]. exfalso. cbn [spaced] in H2. destruct H2 as (H3 & H4). apply (spaced_le _ _ _ Hl) in H4. lia.
Qed.
Lemma late_some lo hi u t : 0 <= lo -> u + hi < t -> forall ts c, c <= u -> spaced lo hi c ts t -> (1 <= late u ts)%nat.
Proof.
  intros Hl Hu. induction ts as [|c' ts IH]; intros c Hc H; cbn [spaced] in H; [lia|]. destruct H as (H1 & H2). rewrite late_cons.
  destruct (Z.ltb_spec u c') as [H3|H3]; [lia|]. pose proof (IH _ H3 H2). lia.
Qed.
Lemma late_two lo hi u t : 0 <= lo -> u + 2 * hi < t -> forall ts c, c <= u -> spaced lo hi c ts t -> (2 <= late u ts)%nat.
Proof.
  intros Hl Hu. induction ts as [|c' ts IH]; intros c Hc H; cbn [spaced] in H; [lia|]. destruct H as (H1 & H2). rewrite late_cons.
  destruct (Z.ltb_spec u c') as [H3|H3]; [|pose proof (IH _ H3 H2); lia].
  destruct ts as [|c'' ts]; cbn [spaced] in H2; [lia|]. rewrite late_cons. destruct H2 as (H4 & H5), (Z.ltb_spec u c''); lia.
Qed.

Theorem silent_timed e ph lo hi c now evs evs' d : let w := history e now evs in let s := w_st (history e now (evs ++ evs')) in
  let u := d_last d + d_keep d in
  devAt (w_st w) ph = Some d -> wordless e ph w evs' -> 0 <= lo -> c <= u -> spaced lo hi c (check_times e ph w evs') (st_clock s) ->
  (st_clock s <= u -> devAt s ph = Some d)
  /\ (d_status d <> Offline -> (st_clock s <= u + lo -> devAt s ph = Some d \/ devAt s ph = Some (with_status d Offline))
       /\ (u + hi < st_clock s -> devAt s ph = Some (with_status d Offline) \/ devAt s ph = None)
       /\ (u + 2 * hi < st_clock s -> devAt s ph = None))
  /\ (d_status d = Offline -> u + hi < st_clock s -> devAt s ph = None).
Proof.
  intros w s u Hd Hw Hl Hc Hs. pose proof (silent_history e ph evs' now evs d Hd Hw) as E. fold w s in E. rewrite overdue_late in E. fold u in E.
  pose proof (late_none lo hi u (st_clock s) Hl) as L0. pose proof (late_one lo hi u (st_clock s) Hl) as L1. pose proof (late_some lo hi u (st_clock s) Hl) as L2. pose proof (late_two lo hi u (st_clock s) Hl) as L3.
  set (n := late u (check_times e ph w evs')) in *. rewrite !E. clear E.
  split; [intros H; unfold n; rewrite (L0 H _ _ Hs); reflexivity|]. split.
  - intros Ho. apply N.eqb_neq in Ho.
    split; [|split]; intros H.
    + pose proof (L1 H _ _ Hs) as Hn. fold n in Hn. destruct n as [|[|n']]; [left; reflexivity|right; unfold after_checks; rewrite Ho; reflexivity|lia].
    + pose proof (L2 H _ _ Hc Hs) as Hn. fold n in Hn. destruct n as [|n']; [lia|]. rewrite after_S, Ho. destruct n'; auto.
    + pose proof (L3 H _ _ Hc Hs) as Hn. fold n in Hn. destruct n as [|[|n']]; [lia|lia|]. rewrite after_S, Ho. reflexivity.
  - intros Ho H. pose proof (L2 H _ _ Hc Hs) as Hn. fold n in Hn. destruct n as [|n']; [lia|]. rewrite after_S, Ho. reflexivity.
Qed.
Theorem silent_minute e ph c now evs evs' d : let w := history e now evs in let s := w_st (history e now (evs ++ evs')) in
  let passed := st_clock s - d_last d in
  devAt (w_st w) ph = Some d -> wordless e ph w evs' -> c <= d_last d + 60000 ->
  spaced 60000 60000 c (check_times e ph w evs') (st_clock s) ->
  (passed <= 60000 -> devAt s ph = Some d)
  /\ (d_status d <> Offline ->
        (passed <= 120000 -> is_Some (devAt s ph))
        /\ (120000 < passed -> forall d', devAt s ph = Some d' -> d_status d' = Offline)
        /\ (180000 < passed -> devAt s ph = None))
  /\ (d_status d = Offline -> 120000 < passed -> devAt s ph = None).
Proof.
  intros w s passed Hd Hw Hc Hs. destruct (records e now evs ph d Hd) as (_ & Hk & _).
  assert (Hc' : c <= d_last d + d_keep d) by lia.
  destruct (silent_timed e ph 60000 60000 c now evs evs' d Hd Hw ltac:(lia) Hc' Hs) as (H1 & H2 & H3). fold s in H1, H2, H3. rewrite Hk in H1, H2, H3.
  unfold passed. split; [intros; apply H1; lia|]. split; [|intros Ho H; apply (H3 Ho); lia].
  intros Ho. destruct (H2 Ho) as (K1 & K2 & K3). split; [|split]; intros H.
  - destruct K1 as [->| ->]; [lia|eauto|eauto].
  - intros d' Hd'. destruct K2 as [E|E]; [lia| |]; rewrite E in Hd'; [|discriminate Hd'].
    injection Hd' as <-. reflexivity.
  - apply K3. lia.
Qed.
