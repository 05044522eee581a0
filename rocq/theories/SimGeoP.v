(** The base locations of the simulator's terminals *)
From stdpp Require Import gmap.
From Verif Require Import Base ProgM ProgP RingM SpecRing RingP StateM StateP InterP SimGeoM.
Local Open Scope Z_scope.

Lemma upd_same {B} (l : list B) : forall j x, nth_error l j = Some x -> firstn j l ++ x :: skipn (j + 1) l = l.
Proof.
  induction l as [|y l IH]; intros [|j] x Hj; cbn in Hj; try discriminate; [injection Hj as ->; reflexivity|].
  cbn. rewrite IH by exact Hj. reflexivity.
Qed.
(** ** Programs on different entries of a map *)
Section Local.
Context {K} `{Countable K} {T A : Type}.
Definition at_ (k : K) (p : prog (option T) A) : prog (gmap K T) A :=
  zoom (fun m => m !! k) (fun o m => partial_alter (fun _ => o) k m) p.
Lemma moves_snoc {S B} (p : prog S B) s a f k t : moves p s (Act a f k) t -> moves p s (k t) (f t).
Proof. intros M. eapply moves_trans; [exact M|]. constructor. apply mv_refl. Qed.
Lemma local_steps sch : forall (ks : list (K * prog (option T) A)) (m : gmap K T), base.NoDup (List.map fst ks) ->
  forall i k p, nth_error ks i = Some (k, p) ->
  exists p', nth_error (fst (psteps (List.map (fun x => at_ (fst x) (snd x)) ks) m sch)) i = Some (at_ k p')
    /\ moves p (m !! k) p' (snd (psteps (List.map (fun x => at_ (fst x) (snd x)) ks) m sch) !! k).
Proof.
  induction sch as [|j t IH]; intros ks m Hn i k p Hi.
  { exists p. cbn. rewrite nth_error_map, Hi. split; [reflexivity|apply mv_refl]. }
  cbn [psteps]. unfold pstep. rewrite nth_error_map.
  destruct (nth_error ks j) as [[k' [r|a f g]]|] eqn:Ej; cbn [option_map fst snd at_ zoom]; try (apply IH; assumption).
  set (ks' := firstn j ks ++ (k', g (m !! k')) :: skipn (j + 1) ks).
  assert (E1 : firstn j (List.map (fun x => at_ (fst x) (snd x)) ks) ++
      zoom (fun m => m !! k') (fun o m => partial_alter (fun _ => o) k' m) (g (m !! k')) ::
      skipn (j + 1) (List.map (fun x => at_ (fst x) (snd x)) ks) = List.map (fun x => at_ (fst x) (snd x)) ks').
  { unfold ks'. rewrite map_app. cbn [List.map fst snd]. rewrite firstn_map, skipn_map. reflexivity. }
  rewrite E1.
  assert (E2 : List.map fst ks' = List.map fst ks).
  { unfold ks'. rewrite map_app. cbn [List.map fst]. rewrite <- firstn_map, <- skipn_map.
    apply upd_same. rewrite nth_error_map, Ej. reflexivity. }
  rewrite <- E2 in Hn.
  assert (Hi' : nth_error ks' i = if Nat.eqb j i then Some (k', g (m !! k')) else nth_error ks i)
    by (apply (nth_error_upd ks j i _ _ Ej)).
  destruct (Nat.eqb_spec j i) as [->|Hji].
  - rewrite Hi in Ej. injection Ej as -> ->.
    destruct (IH ks' (partial_alter (fun _ => f (m !! k')) k' m) Hn i k' _ Hi') as (p' & P1 & P2).
    exists p'. split; [exact P1|]. rewrite lookup_partial_alter in P2. constructor. exact P2.
  - rewrite Hi in Hi'. destruct (IH ks' (partial_alter (fun _ => f (m !! k')) k' m) Hn i k p Hi') as (p' & P1 & P2).
    exists p'. split; [exact P1|]. rewrite lookup_partial_alter_ne in P2; [exact P2|].
    intros ->. apply Hji. rewrite E2 in Hn.
    assert (Hn' : List.NoDup (List.map fst ks)) by (apply NoDup_ListNoDup; exact Hn).
    rewrite NoDup_nth_error in Hn'. apply Hn'.
    + rewrite map_length. apply nth_error_Some. rewrite Ej. discriminate.
    + rewrite !nth_error_map, Ej, Hi. reflexivity.
Qed.
End Local.
Lemma moves_ret_run {S A} (p : prog S A) s r s' : moves p s (Ret r) s' -> run p s = (r, s').
Proof. remember (Ret r) as q. induction 1 as [p s|a f k s p' s' _ IH]; [subst; reflexivity|]. cbn. auto. Qed.

(** ** One terminal *)
Section Geo.
Context {V : Type}.
Lemma run_inBuf {A} (p : prog (ring V) A) : forall r, run (inBuf p) (Some r) = (fst (run p r), Some (snd (run p r))).
Proof. unfold inBuf. induction p as [x|a f k IH]; intros r; cbn; [reflexivity|]. apply IH. Qed.
Definition holding (ws : list V) (o : option (ring V)) : Prop :=
  match o with Some r => rinv 100 ws 0 r | None => ws = [] end.
Lemma run_bufOf ws o : holding ws o -> exists r, run bufOf o = (Ok tt, Some r) /\ rinv 100 ws 0 r.
Proof.
  destruct o as [r|]; cbn; intros Hh; [exists r; split; [reflexivity|exact Hh]|].
  subst ws. eexists. split; [reflexivity|]. apply (rinv_new 100). lia.
Qed.
Lemma run_build (v : V) ws o : holding ws o -> exists r, run (buildGeo v) o = (Ok tt, Some r) /\ rinv 100 (ws ++ [v]) 0 r.
Proof.
  intros Hh. destruct (run_bufOf ws o Hh) as (r & E & Hr). unfold buildGeo. rewrite run_bind, E, run_inBuf.
  destruct (rinv_write 100 ws 0 r 0 v Hr) as (r' & E' & Hw). rewrite E'. exists r'. split; [reflexivity|exact Hw].
Qed.
Lemma rinv_latest l n (ws : list V) k r : rinv n ws k r ->
  run (ringLatest l) r = (Ok (if (length ws mod n =? 0)%nat then None else last_of ws), r).
Proof.
  intros Hh. rewrite (run_latest l r (rinv_ok _ _ _ _ Hh)). destruct Hh as (Hn & Hs & Hw & Hwr & _).
  rewrite Hwr. f_equal. f_equal.
  destruct (Nat.eqb_spec (length ws mod n) 0) as [E|E]; [rewrite E; reflexivity|].
  destruct (Z.eqb_spec (Z.of_nat (length ws mod n)) 0) as [E'|E']; [lia|].
  replace (Z.to_nat (Z.of_nat (length ws mod n) - 1)) with (length ws mod n - 1)%nat by lia.
  destruct ws as [|a l0] using rev_ind; [exfalso; apply E; apply Nat.mod_0_l; lia|].
  clear IHl0. unfold last_of. rewrite rev_app_distr. cbn [rev app].
  destruct Hw as (Hl & Hj & _). rewrite app_length in *. cbn [length] in *.
  specialize (Hj (length l0) a). rewrite nth_error_app2, Nat.sub_diag in Hj by lia.
  specialize (Hj eq_refl ltac:(lia)).
  assert (Em : (length l0 mod n = (length l0 + 1) mod n - 1)%nat).
  { pose proof (Nat.div_mod (length l0 + 1) n ltac:(lia)).
    pose proof (Nat.mod_upper_bound (length l0 + 1) n ltac:(lia)).
    symmetry. apply (Nat.mod_unique _ _ ((length l0 + 1) / n)); lia. }
  rewrite <- Em. apply nth_error_nth with (d := None) in Hj. exact Hj.
Qed.
(** what a look finds after the terminals that share the phone have built [ws] *)
Definition found (ws : list V) : option V := if (length ws mod 100 =? 0)%nat then None else last_of ws.
Lemma run_latestGeo ws o : holding ws o -> exists r, run latestGeo o = (Ok (found ws), Some r) /\ rinv 100 ws 0 r.
Proof.
  intros Hh. destruct (run_bufOf ws o Hh) as (r & E & Hr). unfold latestGeo. rewrite run_bind, E, run_inBuf.
  rewrite (rinv_latest 0 100 ws 0 r Hr). exists r. split; [reflexivity|exact Hr].
Qed.
Lemma run_rounds ws n : forall o, holding ws o -> exists o', run (rounds n) o = (Ok (repeat (found ws) n), o') /\ holding ws o'.
Proof.
  induction n as [|n IH]; intros o Hh; cbn [rounds].
  { exists o. split; [reflexivity|exact Hh]. }
  destruct (run_latestGeo ws o Hh) as (r & E & Hr). rewrite run_bind, E.
  destruct (IH (Some r) Hr) as (o' & E' & Hh'). rewrite run_bind, E'. exists o'. split; [reflexivity|exact Hh'].
Qed.
Lemma run_located (v : V) n : exists o, run (located v n) None = (Ok (repeat (Some v) n), o).
Proof.
  unfold located. destruct (run_build v [] None eq_refl) as (r & E & Hr). rewrite run_bind, E.
  destruct (run_rounds [v] n (Some r) Hr) as (o' & E' & _). exists o'. exact E'.
Qed.

(** ** Terminals with different phones *)
Lemma own_base (ts : list (str * V * nat)) m sch : base.NoDup (List.map (fun t => fst (fst t)) ts) ->
  (forall t, In t ts -> m !! fst (fst t) = None) ->
  forall i t r, nth_error ts i = Some t -> nth_error (fst (locating ts m sch)) i = Some (Ret r) ->
    r = Ok (repeat (Some (snd (fst t))) (snd t)).
Proof.
  intros Hn Hm i [[ph v] n] r Hi Hr. cbn [fst snd].
  set (ks := List.map (fun t : str * V * nat => (fst (fst t), located (snd (fst t)) (snd t))) ts).
  assert (E : locating ts m sch = psteps (List.map (fun x => at_ (fst x) (snd x)) ks) m sch)
    by (unfold locating, ks; rewrite List.map_map; reflexivity).
  assert (Hn' : base.NoDup (List.map fst ks)) by (unfold ks; rewrite List.map_map; exact Hn).
  assert (Hi' : nth_error ks i = Some (ph, located v n)) by (unfold ks; rewrite nth_error_map, Hi; reflexivity).
  destruct (local_steps sch ks m Hn' i ph _ Hi') as (p' & P1 & P2). rewrite E in Hr. pose proof (eq_trans (eq_sym P1) Hr) as Hp. injection Hp as Hp. clear Hr. rename Hp into Hr.
  assert (Ep : p' = Ret r) by (destruct p'; cbn in Hr; [congruence|discriminate]). subst p'.
  apply moves_ret_run in P2. pose proof (Hm _ (nth_error_In _ _ Hi)) as E0. cbn [fst] in E0.
  assert (P3 : run (located v n) None = (r, snd (locating ts m sch) !! ph)) by (rewrite <- E0, E; exact P2).
  destruct (run_located v n) as (o & Ho). rewrite Ho in P3. congruence.
Qed.

(** ** Terminals with one phone *)
Lemma moves_at {S A} (p p' : prog S A) s s' : moves p s p' s' -> forall pre post,
  exists sch, psteps (pre ++ p :: post) s sch = (pre ++ p' :: post, s').
Proof.
  induction 1 as [p s|a f k s p' s' _ IH]; intros pre post; [exists []; reflexivity|].
  destruct (IH pre post) as (sch & E). exists (length pre :: sch). cbn [psteps]. unfold pstep.
  rewrite nth_error_app2, Nat.sub_diag by lia. cbn [nth_error].
  rewrite firstn_app, Nat.sub_diag, firstn_all. cbn [firstn]. rewrite app_nil_r.
  rewrite skipn_app, skipn_all2 by lia. replace (length pre + 1 - length pre)%nat with 1%nat by lia. cbn [skipn app]. exact E.
Qed.
Lemma moves_entry {A} ph (p p' : prog (option (ring V)) A) o o' : moves p o p' o' -> forall m : geobufs V, m !! ph = o ->
  exists m', moves (entry ph p) m (entry ph p') m' /\ m' !! ph = o'.
Proof.
  induction 1 as [p o|a f k o p' o' _ IH]; intros m Hm; [exists m; split; [apply mv_refl|exact Hm]|].
  destruct (IH (partial_alter (fun _ => f (m !! ph)) ph m)) as (m' & M & Hm'); [rewrite lookup_partial_alter, Hm; reflexivity|].
  exists m'. split; [|exact Hm']. unfold entry. cbn [zoom]. constructor. rewrite Hm. unfold entry in M. rewrite Hm in M. exact M.
Qed.
Lemma stage_build ph (ts : list (V * nat)) : forall pre post ws (m : geobufs V), holding ws (m !! ph) ->
  exists sch m', psteps (pre ++ List.map (fun t => entry ph (located (fst t) (snd t))) ts ++ post) m sch
      = (pre ++ List.map (fun t => entry ph (rounds (snd t))) ts ++ post, m')
    /\ holding (ws ++ List.map fst ts) (m' !! ph).
Proof.
  induction ts as [|[v n] ts IH]; intros pre post ws m Hh.
  { exists [], m. cbn. rewrite !app_nil_r. split; [reflexivity|exact Hh]. }
  destruct (run_build v ws _ Hh) as (r & E & Hr).
  destruct (moves_entry ph _ _ _ _ (moves_seq (buildGeo v) (fun _ => rounds n) _ _ _ E) m eq_refl) as (m1 & M & Hm1).
  destruct (moves_at _ _ _ _ M pre (List.map (fun t => entry ph (located (fst t) (snd t))) ts ++ post)) as (s1 & E1).
  assert (Hh1 : holding (ws ++ [v]) (m1 !! ph)) by (rewrite Hm1; exact Hr).
  destruct (IH (pre ++ [entry ph (rounds n)]) post (ws ++ [v]) m1 Hh1) as (s2 & m2 & E2 & Hh2).
  exists (s1 ++ s2), m2. cbn [List.map fst snd app]. rewrite psteps_app.
  change (pbind (buildGeo v) (fun _ => rounds n)) with (located v n) in E1. rewrite E1. cbn [fst snd].
  rewrite <- !app_assoc in E2. cbn [app] in E2. split; [exact E2|].
  rewrite <- app_assoc in Hh2. exact Hh2.
Qed.
Lemma stage_look ph (ts : list (V * nat)) : forall pre ws (m : geobufs V), holding ws (m !! ph) ->
  exists sch m', psteps (pre ++ List.map (fun t => entry ph (rounds (snd t))) ts) m sch
      = (pre ++ List.map (fun t => Ret (Ok (repeat (found ws) (snd t)))) ts, m').
Proof.
  induction ts as [|[v n] ts IH]; intros pre ws m Hh.
  { exists [], m. cbn. reflexivity. }
  destruct (run_rounds ws n _ Hh) as (o & E & Ho).
  destruct (moves_entry ph _ _ _ _ (moves_done _ _ _ _ E) m eq_refl) as (m1 & M & Hm1).
  destruct (moves_at _ _ _ _ M pre (List.map (fun t => entry ph (rounds (snd t))) ts)) as (s1 & E1).
  rewrite <- Hm1 in Ho.
  destruct (IH (pre ++ [Ret (Ok (repeat (found ws) n))]) ws m1 Ho) as (s2 & m2 & E2).
  exists (s1 ++ s2), m2. cbn [List.map fst snd]. rewrite psteps_app, E1.
  rewrite <- !app_assoc in E2. cbn [app] in E2. exact E2.
Qed.
Lemma shared_base (ph : str) (ts : list (V * nat)) (m : geobufs V) : m !! ph = None ->
  exists sch, fst (locating (List.map (fun t => (ph, fst t, snd t)) ts) m sch)
    = List.map (fun t => Ret (Ok (repeat (found (List.map fst ts)) (snd t)))) ts.
Proof.
  intros Hm. destruct (stage_build ph ts [] [] [] m) as (s1 & m1 & E1 & Hh); [rewrite Hm; reflexivity|].
  destruct (stage_look ph ts [] _ m1 Hh) as (s2 & m2 & E2). exists (s1 ++ s2).
  unfold locating. rewrite List.map_map. cbn [fst snd]. cbn [app] in E1, E2. rewrite !app_nil_r in E1. rewrite psteps_app, E1. cbn [fst snd]. rewrite E2. reflexivity.
Qed.
(** a look between whose two reads of the position the last terminal fills the buffer *)
Lemma shared_panics (ph : str) (v w : V) (n n' : nat) (ts : list (V * nat)) (m : geobufs V) : m !! ph = None ->
  (S (S (length ts)) mod 100 = 0)%nat ->
  exists sch, nth_error (fst (locating ((ph, v, S n) :: List.map (fun t => (ph, fst t, snd t)) ts ++ [(ph, w, n')]) m sch)) 0
    = Some (Ret Panic).
Proof.
  intros Hm Hl. set (all := (v, S n) :: ts).
  destruct (stage_build ph all [] [entry ph (located w n')] [] m) as (s1 & m1 & E1 & Hh); [rewrite Hm; reflexivity|].
  cbn [app] in E1, Hh. destruct (m1 !! ph) as [r|] eqn:Em1; [|discriminate Hh]. cbn [holding] in Hh.
  assert (Hlen : length (List.map fst all) = S (length ts)) by (unfold all; cbn; rewrite map_length; reflexivity).
  assert (Hmod : (S (length ts) mod 100 = 99)%nat).
  { pose proof (Nat.div_mod (S (S (length ts))) 100 ltac:(lia)) as D. rewrite Hl in D.
    symmetry. apply (Nat.mod_unique _ _ (S (S (length ts)) / 100 - 1)); lia. }
  assert (Hw : rg_writer r = 99) by (destruct Hh as (_ & _ & _ & Hw & _); rewrite Hw, Hlen, Hmod; reflexivity).
  (* the first look up to its second read *)
  set (rest := (w' <- loadWriter 0 ;; size <- rd1 [] rg_size ;; getSlot (A := V) 0 (Z.rem (w' - 1) size))%prog).
  set (P := pbind (inBuf rest) (fun g => pbind (rounds n) (fun t => ret (g :: t)))).
  assert (M1 : moves (rounds (S n)) (Some r) P (Some r)).
  { cbn [rounds]. unfold P. apply moves_bind. unfold latestGeo.
    eapply moves_trans; [apply (moves_seq bufOf _ (Some r) tt (Some r)); reflexivity|]. cbv beta.
    unfold inBuf, ringLatest. cbn [zoom pbind pbindR rd1 ret]. constructor.
    match goal with |- moves ?q _ _ _ => replace q with (inBuf rest); [apply mv_refl|] end.
    unfold inBuf, rest. cbv beta. cbn [from_option id]. rewrite Hw. reflexivity. }
  destruct (moves_entry ph _ _ _ _ M1 m1 Em1) as (m2 & M2 & Em2).
  set (others := List.map (fun t : V * nat => entry ph (rounds (V := V) (snd t))) ts).
  destruct (moves_at _ _ _ _ M2 [] (others ++ [entry ph (located w n')])) as (s2 & E2).
  (* the last terminal builds *)
  assert (Hh2 : holding (List.map fst all) (m2 !! ph)) by (rewrite Em2; exact Hh).
  destruct (run_build w _ _ Hh2) as (r' & E' & Hr').
  destruct (moves_entry ph _ _ _ _ (moves_seq (buildGeo w) (fun _ => rounds n') _ _ _ E') m2 eq_refl) as (m3 & M3 & Em3).
  destruct (moves_at _ _ _ _ M3 (entry ph P :: others) []) as (s3 & E3).
  assert (Hw' : rg_writer r' = 0).
  { destruct Hr' as (_ & _ & _ & Hw' & _). rewrite Hw', app_length, Hlen. cbn [length].
    replace (S (length ts) + 1)%nat with (S (S (length ts))) by lia. rewrite Hl. reflexivity. }
  assert (Hs' : rg_size r' = 100) by (destruct Hr' as (_ & Hs' & _); rewrite Hs'; reflexivity).
  (* and the first look ends *)
  assert (M4 : moves P (Some r') (Ret Panic) (Some r')).
  { unfold P, pbind. assert (R : run (inBuf rest) (Some r') = (Panic, Some r')).
    { rewrite run_inBuf. unfold rest, loadWriter, getSlot, rd1, pbind. cbn [run pbindR ret]. rewrite Hw', Hs'. reflexivity. }
    exact (moves_bindR _ _ _ _ _ (moves_done _ _ _ _ R)). }
  destruct (moves_entry ph _ _ _ _ M4 m3 Em3) as (m4 & M5 & _).
  destruct (moves_at _ _ _ _ M5 [] (others ++ [entry ph (rounds n')])) as (s4 & E4).
  exists (s1 ++ s2 ++ s3 ++ s4). unfold locating. cbn [List.map fst snd]. rewrite map_app, List.map_map. cbn [List.map fst snd].
  unfold all in E1. cbn [List.map fst snd app] in E1, E2, E3, E4.
  change (pbind (buildGeo w) (fun _ => rounds n')) with (located w n') in E3.
  rewrite psteps_app, E1. cbn [fst snd]. rewrite psteps_app. fold others. rewrite E2. cbn [fst snd].
  rewrite psteps_app, E3. cbn [fst snd]. rewrite E4. reflexivity.
Qed.
End Geo.
