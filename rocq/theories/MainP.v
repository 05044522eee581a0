(** Proofs of C103-C106: the accept loop, log output, configuration *)
From stdpp Require Import gmap.
From Verif Require Import Base HexM HashM ProgM ProgP RingM StateM ProcM ServerM MainM SpecAnswer ServerP.
Local Open Scope N_scope.

(** * C103 *)
Definition opened1 (l c : nat) (addr : str) (s : st) : st :=
  set_byID (<[addr := l]>) (set_sess (<[l := mkSession addr c 0]>) s).
Lemma run_accept s c addr : let l := fresh (dom (st_sess s)) in
  run (accept c addr) s = (Ok l, opened1 l c addr s) /\ st_sess s !! l = None.
Proof.
  cbn zeta. split; [reflexivity|]. apply not_elem_of_dom. apply is_fresh.
Qed.
Lemma start_loop rs : forall s, exists ls s', run (startLoop rs) s = (Ok ls, s')
  /\ length ls = length (accepted rs) /\ base.NoDup ls
  /\ (forall i sl c addr, ls !! i = Some sl -> accepted rs !! i = Some (c, addr) ->
        st_sess s !! sl = None /\ st_sess s' !! sl = Some (mkSession addr c 0))
  /\ (forall sl x, st_sess s !! sl = Some x -> st_sess s' !! sl = Some x)
  /\ (forall i sl c addr, ls !! i = Some sl -> accepted rs !! i = Some (c, addr) ->
        (forall j c', (i < j)%nat -> accepted rs !! j <> Some (c', addr)) -> st_byID s' !! addr = Some sl)
  /\ (forall a, (forall c, ~ In (c, a) (accepted rs)) -> st_byID s' !! a = st_byID s !! a)
  /\ exists f g, s' = set_byID f (set_sess g s).
Proof.
  induction rs as [|[[c addr]|] rs IH]; intros s.
  - exists [], s. split; [reflexivity|]. split; [reflexivity|]. split; [constructor|].
    split; [intros i sl c addr H; rewrite lookup_nil in H; discriminate H|]. split; [auto|].
    split; [intros i sl c addr H; rewrite lookup_nil in H; discriminate H|]. split; [auto|].
    exists (fun x => x), (fun x => x). destruct s; reflexivity.
  - cbn [startLoop accepted flat_map app]. fold (accepted rs). destruct (run_accept s c addr) as (E & Hf).
    set (l := fresh (dom (st_sess s))) in *. set (s1 := opened1 l c addr s) in *.
    destruct (IH s1) as (ls & s' & R & Hl & Hn & Hs & Hk & Hb & Ho & f & g & Hfg).
    exists (l :: ls), s'. split; [rewrite run_bind, E, run_bind, R; reflexivity|].
    split; [cbn; congruence|].
    assert (Hl1 : st_sess s1 !! l = Some (mkSession addr c 0)) by (unfold s1; cbn; apply lookup_insert).
    assert (Hnew : forall i sl, ls !! i = Some sl -> st_sess s1 !! sl = None).
    { intros i sl Hi. destruct (accepted rs !! i) as [[c' a']|] eqn:Ea.
      - exact (proj1 (Hs i sl c' a' Hi Ea)).
      - apply lookup_ge_None in Ea. apply lookup_lt_Some in Hi. lia. }
    split.
    { constructor; [|exact Hn]. intros Hin. apply elem_of_list_lookup in Hin. destruct Hin as (i & Hi).
      specialize (Hnew i l Hi). congruence. }
    split; [|split; [|split; [|split]]].
    + intros [|i] sl c' a' Hi Ha; cbn in Hi, Ha.
      * injection Hi as <-. injection Ha as <- <-. split; [exact Hf|]. apply Hk. exact Hl1.
      * destruct (Hs i sl c' a' Hi Ha) as (A & B). split; [|exact B]. unfold s1 in A. cbn in A.
        destruct (decide (sl = l)) as [->|Hd]; [exact Hf|]. rewrite lookup_insert_ne in A by congruence. exact A.
    + intros sl x Hx. apply Hk. unfold s1. cbn. rewrite lookup_insert_ne; [exact Hx|]. intros <-. congruence.
    + intros [|i] sl c' a' Hi Ha Hlast; cbn in Hi, Ha.
      * injection Hi as <-. injection Ha as <- <-. rewrite Ho.
        -- unfold s1. cbn. apply lookup_insert.
        -- intros c' Hin. apply elem_of_list_In, elem_of_list_lookup in Hin. destruct Hin as (j & Hj).
           apply (Hlast (S j) c'); [lia|exact Hj].
      * apply (Hb i sl c' a' Hi Ha). intros j c'' Hj. apply (Hlast (S j) c''). lia.
    + intros a Ha. rewrite Ho by (intros c' Hin; apply (Ha c'); right; exact Hin). unfold s1. cbn.
      rewrite lookup_insert_ne; [reflexivity|]. intros ->. apply (Ha c). left. reflexivity.
    + exists (fun m => f (<[addr := l]> m)), (fun m => g (<[l := mkSession addr c 0]> m)). rewrite Hfg. reflexivity.
  - cbn [startLoop accepted flat_map app]. apply IH.
Qed.

(** * C104 *)
Lemma writeAll_ok ws : ~ In WNil ws -> writeAll ws = (ws, false).
Proof.
  induction ws as [|w ws IH]; intros H; [reflexivity|]. cbn [writeAll].
  rewrite IH by (intros Hi; apply H; right; exact Hi). destruct w; try reflexivity. exfalso. apply H. left. reflexivity.
Qed.
Lemma log_event c level : lc_dir c = true ->
  exists l, logEvent c level = (l, false) /\ base.NoDup l
    /\ (WConsole ∈ l <-> lc_level c <= level /\ lc_console c = true)
    /\ (forall j, WFile j ∈ l <-> lc_level c <= level /\ lc_file c = true /\ j = lc_json c)
    /\ ~ WNil ∈ l.
Proof.
  intros Hd. unfold logEvent, writers, fileWriter. rewrite Hd.
  destruct (N.ltb_spec level (lc_level c)) as [Hlt|Hge].
  - eexists. split; [reflexivity|]. split; [constructor|]. setoid_rewrite elem_of_nil.
    split; [split; [tauto|lia]|]. split; [intros j; split; [tauto|lia]|tauto].
  - destruct (lc_console c), (lc_file c); cbn; eexists; (split; [reflexivity|]);
      (split; [repeat constructor; rewrite ?elem_of_list_singleton, ?elem_of_nil; congruence|]);
      setoid_rewrite elem_of_list_In; cbn; (split; [intuition congruence|]); (split; [intros j|]; intuition congruence).
Qed.
Lemma log_dies c level : lc_dir c = false -> lc_file c = true -> lc_level c <= level -> snd (logEvent c level) = true.
Proof.
  intros Hd Hf Hl. unfold logEvent, writers, fileWriter. rewrite Hd, Hf.
  destruct (N.ltb_spec level (lc_level c)) as [Hlt|Hge]; [lia|]. destruct (lc_console c); reflexivity.
Qed.

(** * C105 *)
Lemma short_dir dir name : dir <> [] -> ~ In 47 name -> forall k, (k <= length name)%nat ->
  shortFrom (dir ++ 47 :: name) (length dir + k) = name.
Proof.
  intros Hd Hn. induction k as [|k IH]; intros Hk.
  - rewrite Nat.add_0_r. destruct dir as [|a dir]; [contradiction|]. cbn [length shortFrom].
    assert (nth (S (length dir)) ((a :: dir) ++ 47 :: name) 0 = 47) as ->.
    { change (S (length dir)) with (length (a :: dir)). rewrite app_nth2 by lia. rewrite Nat.sub_diag. reflexivity. }
    cbn [N.eqb]. change (47 =? 47) with true. cbn iota.
    change (S (S (length dir))) with (S (length (a :: dir))). rewrite skipn_app.
    rewrite skipn_all2 by lia. replace (S (length (a :: dir)) - length (a :: dir))%nat with 1%nat by lia. reflexivity.
  - rewrite Nat.add_succ_r. cbn [shortFrom].
    assert (E : nth (S (length dir + k)) (dir ++ 47 :: name) 0 = nth k name 0).
    { rewrite app_nth2 by lia. replace (S (length dir + k) - length dir)%nat with (S k) by lia. reflexivity. }
    rewrite E. destruct (N.eqb_spec (nth k name 0) 47) as [Hx|_]; [|apply IH; lia].
    exfalso. apply Hn. rewrite <- Hx. apply nth_In. lia.
Qed.
Lemma short_none file : ~ In 47 (tl file) -> forall i, (i < length file)%nat \/ i = O -> shortFrom file i = file.
Proof.
  intros Hn. induction i as [|i IH]; intros Hi; [reflexivity|]. cbn [shortFrom].
  destruct (N.eqb_spec (nth (S i) file 0) 47) as [Hx|_]; [|apply IH; destruct Hi; [left; lia|discriminate]].
  exfalso. destruct file as [|a file]; cbn in *; [destruct Hi; [lia|discriminate]|]. apply Hn. rewrite <- Hx. apply nth_In. destruct Hi; [lia|discriminate].
Qed.
Lemma caller_dir dir name line : dir <> [] -> ~ In 47 name ->
  callerMarshal (dir ++ 47 :: name) line = name ++ [58] ++ itoa line.
Proof.
  intros Hd Hn. unfold callerMarshal. rewrite app_length. cbn [length].
  replace (length dir + S (length name) - 1)%nat with (length dir + length name)%nat by lia.
  rewrite short_dir by auto. reflexivity.
Qed.
Lemma caller_none file line : ~ In 47 (tl file) -> callerMarshal file line = file ++ [58] ++ itoa line.
Proof.
  intros Hn. unfold callerMarshal. rewrite short_none; [reflexivity|exact Hn|]. destruct file; cbn; [right; reflexivity|left; lia].
Qed.
