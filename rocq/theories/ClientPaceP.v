(** The pauses of a terminal *)
From stdpp Require Import gmap.
From Verif Require Import Base MsgM PacketM FrameM ProgM ProgP StateM ProcM ServerM ClientM ClientPaceM SpecPace SpecClientPace ServerP CmdP PaceP.
Local Open Scope Z_scope.

Lemma run_clientOne e sl r w s : run (clientOne e sl r w) s =
  match st_sess s !! sl with
  | None => run (clientOne e sl r w) s
  | Some x => match run (processConnRead e sl (ss_conn x) r w) s with
              | (Ok _, s') => (Ok (Some 0), s')
              | (Err er, s') => (Ok (if clientStops er then None else Some 1000), s')
              | (Panic, s') => (Panic, s')
              end
  end.
Proof.
  destruct (st_sess s !! sl) as [x|] eqn:E; [|reflexivity]. unfold clientOne. rewrite run_bind.
  unfold readSess. cbn [run]. rewrite E. cbn [run ret].
  rewrite run_bindR. destruct (run (processConnRead e sl (ss_conn x) r w) s) as [[a|er|] s']; cbn; try reflexivity.
Qed.
Lemma clientOne_none e sl r w s : st_sess s !! sl = None -> run (clientOne e sl r w) s = (Panic, s).
Proof. intros E. unfold clientOne. rewrite run_bind. unfold readSess. cbn [run]. rewrite E. reflexivity. Qed.
Lemma clientOne_noerr e sl r w s er s' : run (clientOne e sl r w) s <> (Err er, s').
Proof.
  destruct (st_sess s !! sl) as [x|] eqn:E; [|rewrite (clientOne_none _ _ _ _ _ E); discriminate].
  rewrite run_clientOne, E. destruct (run _ s) as [[a|er'|] s1]; discriminate.
Qed.
Lemma clientOne_pause e sl r w s n s' : run (clientOne e sl r w) s = (Ok (Some n), s') ->
  (n = 0 /\ ~ slips e s sl r w) \/ (n = 1000 /\ slips e s sl r w).
Proof.
  destruct (st_sess s !! sl) as [x|] eqn:E; [|rewrite (clientOne_none _ _ _ _ _ E); discriminate].
  rewrite run_clientOne, E. intros H.
  assert (F : forall q s1, run (processConnRead e sl (ss_conn x) r w) s = (q, s1) ->
     (slips e s sl r w <-> exists er, q = Err er /\ clientStops er = false)).
  { intros q s1 R. unfold slips. split.
    - intros (y & er & Hy & He & Hn). assert (y = x) by congruence. subst y. rewrite R in He. cbn in He. exists er. split; [exact He|].
      destruct (clientStops er) eqn:Ec; [|reflexivity]. apply clientStops_iff in Ec. contradiction.
    - intros (er & -> & Hc). exists x, er. rewrite R. split; [exact E|]. split; [reflexivity|]. intros Hi. apply clientStops_iff in Hi. congruence. }
  destruct (run (processConnRead e sl (ss_conn x) r w) s) as [[a|er|] s1]; try discriminate.
  - injection H as <- _. left. split; [reflexivity|]. rewrite (F _ _ eq_refl). intros (er & [=] & _).
  - specialize (F _ _ eq_refl). destruct (clientStops er) eqn:Ec; [discriminate|]. injection H as <- _. right. split; [reflexivity|]. apply F. eauto.
Qed.
(** one iteration, without the pause, is that of the other model *)
Lemma paced_loop e sl r w t s : run (clientLoop e sl ((r, w) :: t)) s =
  match run (clientOne e sl r w) s with
  | (Ok (Some _), s') => run (clientLoop e sl t) s'
  | (Ok None, s') => (Ok true, s')
  | (Err er, s') => (Err er, s')
  | (Panic, s') => (Panic, s')
  end.
Proof.
  cbn [clientLoop]. rewrite run_bind. unfold readSess. cbn [run]. destruct (st_sess s !! sl) as [x|] eqn:E; cbn [run ret].
  - rewrite run_bindR, run_clientOne, E. destruct (run (processConnRead e sl (ss_conn x) r w) s) as [[a|er|] s1]; try reflexivity.
    cbn [fst snd]. destruct (clientStops er); reflexivity.
  - rewrite (clientOne_none _ _ _ _ _ E). reflexivity.
Qed.

Lemma taken_cons e sl wake i t s : let now := Z.max (ar_at i) wake in
  taken e sl wake (i :: t) s =
  match run (clientOne e sl (ar_in i) (ar_write i)) (set_clock now (ar_others i s)) with
  | (Ok (Some n), s') => mkHandling (ar_at i) now n :: taken e sl (now + n) t s'
  | _ => [mkHandling (ar_at i) now 0]
  end.
Proof.
  cbv zeta. unfold taken. cbn [clientPaced]. destruct (run _ _) as [[[n|]|er|] s']; try reflexivity.
  destruct (clientPaced e sl (Z.max (ar_at i) wake + n) t s') as [[l k] s'']. reflexivity.
Qed.
Lemma taken_successive e sl : forall ins wake s, successive wake (taken e sl wake ins s)
  /\ Forall (fun x => hg_pause x = 0 \/ hg_pause x = 1000) (taken e sl wake ins s).
Proof.
  induction ins as [|i t IH]; intros wake s; [split; [exact Logic.I|constructor]|]. rewrite taken_cons. cbv zeta.
  destruct (run _ _) as [[[n|]|er|] s'] eqn:E; cbn [successive hg_at hg_arrived hg_pause].
  2-4: split; [split; [reflexivity|exact Logic.I]|constructor; [left; reflexivity|constructor]].
  destruct (IH (Z.max (ar_at i) wake + n) s') as (H1 & H2). split; [split; [reflexivity|exact H1]|].
  constructor; [|exact H2]. cbn. destruct (clientOne_pause _ _ _ _ _ _ _ E) as [(-> & _)|(-> & _)]; auto.
Qed.
Lemma successive_not_before : forall l z, successive z l -> not_before z l.
Proof. induction l as [|x l IH]; intros z; [exact id|]. cbn. intros (H1 & H2). split; [lia|]. split; [lia|]. exact (IH _ H2). Qed.
Lemma taken_rate e sl ins wake s a m : wake <= a -> (failing a (a + 1000 * Z.of_nat m) (taken e sl wake ins s) <= m)%nat.
Proof.
  intros Ha. destruct (taken_successive e sl ins wake s) as (H1 & H2).
  pose proof (failing_rate a _ m wake (successive_not_before _ _ H1) H2) as H. rewrite Z.max_l in H by exact Ha. exact H.
Qed.
(** the next one *)
Lemma taken_next e sl wake i t s : let now := Z.max (ar_at i) wake in let s0 := set_clock now (ar_others i s) in
  exists y l, taken e sl wake (i :: t) s = y :: l /\ hg_arrived y = ar_at i /\ hg_at y = now
    /\ (slips e s0 sl (ar_in i) (ar_write i) -> hg_pause y = 1000 /\ exists s', l = taken e sl (now + 1000) t s')
    /\ (~ slips e s0 sl (ar_in i) (ar_write i) -> hg_pause y = 0 /\ (l = [] \/ exists s', l = taken e sl now t s')).
Proof.
  cbv zeta. rewrite taken_cons. cbv zeta. set (now := Z.max (ar_at i) wake). set (s0 := set_clock now (ar_others i s)).
  destruct (run (clientOne e sl (ar_in i) (ar_write i)) s0) as [[[n|]|er|] s'] eqn:E;
    eexists _, _; (split; [reflexivity|]); (split; [reflexivity|]); (split; [reflexivity|]); cbn [hg_pause].
  - destruct (clientOne_pause _ _ _ _ _ _ _ E) as [(-> & H)|(-> & H)]; (split; intros K; [try contradiction|try contradiction]).
    + split; [reflexivity|]. right. rewrite Z.add_0_r. eauto.
    + split; [reflexivity|]. eauto.
  - split; [|auto]. intros (y & er & Hy & He & Hn). exfalso. rewrite run_clientOne, Hy in E.
    destruct (run (processConnRead e sl (ss_conn y) (ar_in i) (ar_write i)) s0) as [q s1]. cbn in He. subst q.
    destruct (clientStops er) eqn:Ec; [|discriminate]. apply clientStops_iff in Ec. contradiction.
  - exfalso. exact (clientOne_noerr _ _ _ _ _ _ _ E).
  - split; [|auto]. intros (y & er & Hy & He & Hn). exfalso. rewrite run_clientOne, Hy in E.
    destruct (run (processConnRead e sl (ss_conn y) (ar_in i) (ar_write i)) s0) as [q s1]. cbn in He. subst q. discriminate.
Qed.
(** what has arrived by [T] is handled within a second for each message before it *)
Lemma taken_backlog e sl : forall ins T wake s k x, wake <= T -> Forall (fun i => ar_at i <= T) ins ->
  nth_error (taken e sl wake ins s) k = Some x -> hg_at x <= T + 1000 * Z.of_nat k.
Proof.
  induction ins as [|i t IH]; intros T wake s k x Hw F; [destruct k; discriminate|]. apply Forall_cons_iff in F as (F1 & F2).
  rewrite taken_cons. cbv zeta. destruct (run _ _) as [[[n|]|er|] s'] eqn:E.
  2-4: destruct k as [|[|k]]; try discriminate; intros [= <-]; cbn; lia.
  destruct k as [|k]; [intros [= <-]; cbn; lia|]. intros H. cbn [nth_error] in H.
  assert (Hn : 0 <= n <= 1000) by (destruct (clientOne_pause _ _ _ _ _ _ _ E) as [(-> & _)|(-> & _)]; lia).
  apply (IH (T + 1000)) in H; [lia|lia|]. refine (List.Forall_impl _ _ F2). cbn. intros y Hy. lia.
Qed.
(** what happens to one result, with the state it leaves *)
Lemma paced_step e sl wake i t s y q s' : let now := Z.max (ar_at i) wake in let s0 := set_clock now (ar_others i s) in
  st_sess s0 !! sl = Some y -> run (processConnRead e sl (ss_conn y) (ar_in i) (ar_write i)) s0 = (q, s') ->
  clientPaced e sl wake (i :: t) s =
  match q with
  | Ok _ => before (ar_at i, now, 0) (clientPaced e sl now t s')
  | Err er => if clientStops er then ([(ar_at i, now, 0)], Returned, s')
              else before (ar_at i, now, 1000) (clientPaced e sl (now + 1000) t s')
  | Panic => ([(ar_at i, now, 0)], Panicked, s')
  end.
Proof.
  cbv zeta. intros Hy R. cbn [clientPaced]. rewrite run_clientOne, Hy, R. unfold before. destruct q as [a|er|].
  - rewrite Z.add_0_r. destruct (clientPaced e sl (Z.max (ar_at i) wake) t s') as [[l k] s'']. reflexivity.
  - destruct (clientStops er); [reflexivity|]. destruct (clientPaced e sl (Z.max (ar_at i) wake + 1000) t s') as [[l k] s'']. reflexivity.
  - reflexivity.
Qed.
Lemma paced_steps e sl wake i t s y q s' : let now := Z.max (ar_at i) wake in let s0 := set_clock now (ar_others i s) in
  st_sess s0 !! sl = Some y -> run (processConnRead e sl (ss_conn y) (ar_in i) (ar_write i)) s0 = (q, s') ->
  (forall a, q = Ok a -> clientPaced e sl wake (i :: t) s = before (ar_at i, now, 0) (clientPaced e sl now t s'))
  /\ (forall er, q = Err er -> ~ In er [ErrEOF; ErrClosedPipe; ErrNetClosed; ErrActiveClose] ->
        clientPaced e sl wake (i :: t) s = before (ar_at i, now, 1000) (clientPaced e sl (now + 1000) t s'))
  /\ (forall er, q = Err er -> In er [ErrEOF; ErrClosedPipe; ErrNetClosed; ErrActiveClose] ->
        clientPaced e sl wake (i :: t) s = ([(ar_at i, now, 0)], Returned, s'))
  /\ (q = Panic -> clientPaced e sl wake (i :: t) s = ([(ar_at i, now, 0)], Panicked, s')).
Proof.
  cbv zeta. intros Hy R. rewrite (paced_step _ _ _ _ t _ _ _ _ Hy R). split; [|split; [|split]].
  - intros a ->. reflexivity.
  - intros er -> Hn. destruct (clientStops er) eqn:Ec; [|reflexivity]. apply clientStops_iff in Ec. contradiction.
  - intros er -> Hi. apply clientStops_iff in Hi. rewrite Hi. reflexivity.
  - intros ->. reflexivity.
Qed.
(** nothing is skipped *)
Lemma paced_prefix e sl : forall ins wake s,
  List.map hg_arrived (taken e sl wake ins s) = List.map ar_at (firstn (length (taken e sl wake ins s)) ins)
  /\ (snd (fst (clientPaced e sl wake ins s)) = Waits -> length (taken e sl wake ins s) = length ins).
Proof.
  induction ins as [|i t IH]; intros wake s; [split; reflexivity|]. unfold taken. cbn [clientPaced].
  destruct (run _ _) as [[[n|]|er|] s']; try (split; [reflexivity|discriminate]).
  specialize (IH (Z.max (ar_at i) wake + n) s'). unfold taken in IH.
  destruct (clientPaced e sl (Z.max (ar_at i) wake + n) t s') as [[l k] s'']. cbn in *. destruct IH as (H1 & H2).
  split; [f_equal; exact H1|]. intros H. f_equal. exact (H2 H).
Qed.
