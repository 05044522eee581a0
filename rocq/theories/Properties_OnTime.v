(** Property theorems C132-C133: a fleet of simulated terminals in real time. *)
From Coq Require Import ZArith.
From stdpp Require Import gmap.
From Flocq Require Import IEEE754.Bits.
From Verif Require Import Base HexM TimeM HashM HeaderM ParamsM GeoM MsgM PacketM FrameM FloatM ProgM RingM
  StateM ProcM ServerM ClientM DatagenM NetM SpecRing SpecState SpecCodec SpecSim SpecNet SpecOnTime CmdP FleetP2 FleetP4 FleetP8
  ExampleData ExampleState Properties_Sim Properties_Net.
Local Open Scope Z_scope.

(** C132: when every frame is read within [D], the status checker looks every [S] and the terminals send a
    heartbeat every [P], and [2 D + S + P] is at most the minute after which the server takes a device for
    silent, no check ever finds a terminal silent ... *)
Theorem C132_punctual : forall e ec other n evs D S P, e_o ec = e_o e -> dialled (e_o e) n ->
  on_time e ec other n evs D S P -> 2 * D + S + P <= 60000 -> dated e ec other n evs -> all_punctual e ec other n evs.
Proof. intros e ec other n evs D S P Ho Hd HT. exact (always_punctual e ec other Ho n evs D S P Hd HT). Qed.
Print Assumptions C132_punctual.

(** ... and so, at every moment of the run, no connection is given up and a terminal past its status check is
    online on both sides *)
Theorem C132_online : forall e ec other n evs D S P, e_o ec = e_o e -> dialled (e_o e) n ->
  on_time e ec other n evs D S P -> 2 * D + S + P <= 60000 -> dated e ec other n evs ->
  forall a c i t, evs = a ++ c -> let n' := nruns e ec other n a in nt_terms n' !! i = Some t ->
  tm_served t = true /\ tm_runs t = true /\ tm_at t <> PDead /\ (tm_at t = POnline -> online n' t).
Proof.
  intros e ec other n evs D S P Ho Hd HT HB Hdt a c i t -> n' Hi.
  pose proof (always_punctual e ec other Ho n _ D S P Hd HT HB Hdt) as Hp. apply punctual_app in Hp as (Hp & _).
  destruct (run_inv e ec other Ho a n _ (dialled_inv e n Hd) Hp) as (I & _).
  destruct (inv_says _ _ _ i t I Hi) as (Q1 & Q2 & Q3 & _ & Q5 & _). auto.
Qed.
Print Assumptions C132_online.

(** C133: a terminal that has sent its registration is online on both sides after four times [D] and [S],
    and whatever report it makes is known to the server after [D] *)
Theorem C133_soon : forall e ec other n evs D S P, e_o ec = e_o e -> dialled (e_o e) n ->
  on_time e ec other n evs D S P -> 2 * D + S + P <= 60000 -> dated e ec other n evs ->
  forall a b c i t, evs = a ++ b ++ c -> let n1 := nruns e ec other n a in let n2 := nruns e ec other n (a ++ b) in
  nt_terms n1 !! i = Some t -> tm_at t = PSent -> time n1 + 4 * D + S < time n2 ->
  exists t', nt_terms n2 !! i = Some t' /\ tm_at t' = POnline /\ online n2 t'.
Proof.
  intros e ec other n evs D S P Ho Hd HT HB Hdt a b c i t E n1 n2 Hi Ha Hlt. rewrite app_assoc in E.
  pose proof (always_punctual e ec other Ho n _ D S P Hd HT HB Hdt) as Hp. rewrite E in Hp. apply punctual_app in Hp as (Hp & _).
  destruct (soon e ec other Ho n evs D S P Hd HT _ c E Hp a b i t eq_refl Hi Ha Hlt) as (t' & Hi' & Ha').
  exists t'. split; [exact Hi'|]. split; [exact Ha'|]. exact (proj2 (proj2 (proj2 (C132_online e ec other n evs D S P Ho Hd HT HB Hdt _ c i t' E Hi'))) Ha').
Qed.
Print Assumptions C133_soon.
Theorem C133_reports : forall e ec other n evs D S P, e_o ec = e_o e -> dialled (e_o e) n ->
  on_time e ec other n evs D S P -> 2 * D + S + P <= 60000 -> dated e ec other n evs ->
  forall a b c i t, evs = a ++ b ++ c -> let n1 := nruns e ec other n a in let n2 := nruns e ec other n (a ++ b) in
  nt_terms n !! i = Some t -> time n1 + D < time n2 ->
  exists ws, track (nt_srv n2) (number (tm_conf t)) ws /\ prefix (all_generated e ec other n i a) ws
    /\ prefix ws (all_generated e ec other n i (a ++ b)).
Proof.
  intros e ec other n evs D S P Ho Hd HT HB Hdt a b c i t E n1 n2 Hi Hlt. rewrite app_assoc in E.
  pose proof (always_punctual e ec other Ho n _ D S P Hd HT HB Hdt) as Hp. rewrite E in Hp. apply punctual_app in Hp as (Hp & _).
  exact (arrived e ec other Ho n evs D S P Hd HT _ c E Hp a b i t eq_refl Hi Hlt).
Qed.
Print Assumptions C133_reports.

(** * Runs, one look after each event *)
Definition look (n : net) : Z * list (progress * (nat * nat) * (nat * nat)) :=
  (time n, List.map (fun t => (tm_at t, (tm_up t, tm_down t), (length (NetM.written (nt_cli n) (tm_cli t)), length (NetM.written (nt_srv n) (tm_srv t))))) (nt_terms n)).
Fixpoint looks (n : net) (evs : list nevent) : list (Z * list (progress * (nat * nat) * (nat * nat))) :=
  look n :: match evs with [] => [] | ev :: t => looks (nstep e0 e0 other0 n ev) t end.
Lemma looks_at : forall a n c, nth_error (looks n (a ++ c)) (length a) = Some (look (nruns e0 e0 other0 n a)).
Proof. induction a as [|ev a IH]; intros n c; [destruct c; reflexivity|]. cbn [app length looks nth_error]. apply (IH (nstep e0 e0 other0 n ev) c). Qed.
Lemma look_term n i t : nt_terms n !! i = Some t -> nth_error (snd (look n)) i =
  Some (tm_at t, (tm_up t, tm_down t), (length (NetM.written (nt_cli n) (tm_cli t)), length (NetM.written (nt_srv n) (tm_srv t)))).
Proof.
  unfold look. cbn [snd]. generalize (nt_terms n). intros l. revert i. induction l as [|u l IH]; intros [|i] H; try discriminate H.
  - cbn in H. injection H as ->. reflexivity.
  - apply (IH i H).
Qed.
(** what [on_time] says about two of the looks *)
Definition two_looks (D S P : Z) (evs : list nevent) (tbl : list (Z * list (progress * (nat * nat) * (nat * nat)))) (j k i : nat) : Prop :=
  forall x y a u d wc ws a' u' d' w', nth_error tbl j = Some x -> nth_error tbl k = Some y ->
  nth_error (snd x) i = Some (a, (u, d), (wc, ws)) -> nth_error (snd y) i = Some (a', (u', d'), w') ->
  (fst x + D < fst y -> (wc <= u')%nat /\ (ws <= d')%nat)
  /\ (a = PSent -> fst x + S < fst y -> In (NCheck i) (skipn j (firstn k evs)))
  /\ (a = POnline -> fst x + P < fst y -> In (NBeat i) (skipn j (firstn k evs))).
Lemma on_time_looks D S P n evs : 0 <= D -> 0 <= S -> 0 <= P -> let tbl := looks n evs in
  (forall k t x, nth_error evs k = Some (NClock t) -> nth_error tbl k = Some x -> fst x <= t) ->
  (forall j k i, (j <= k)%nat -> (k <= length evs)%nat -> two_looks D S P evs tbl j k i) -> on_time e0 e0 other0 n evs D S P.
Proof.
  intros D0 S0 P0 tbl F T.
  assert (K : forall a b c i t t', evs = a ++ b ++ c -> nt_terms (nruns e0 e0 other0 n a) !! i = Some t ->
    nt_terms (nruns e0 e0 other0 n (a ++ b)) !! i = Some t' ->
    let n1 := nruns e0 e0 other0 n a in let n2 := nruns e0 e0 other0 n (a ++ b) in
    (time n1 + D < time n2 -> (length (NetM.written (nt_cli n1) (tm_cli t)) <= tm_up t')%nat /\ (length (NetM.written (nt_srv n1) (tm_srv t)) <= tm_down t')%nat)
    /\ (tm_at t = PSent -> time n1 + S < time n2 -> In (NCheck i) b)
    /\ (tm_at t = POnline -> time n1 + P < time n2 -> In (NBeat i) b)).
  { intros a b c i t t' E Hi Hi' n1 n2.
    assert (E1 : nth_error tbl (length a) = Some (look n1)) by (unfold tbl; rewrite E; apply looks_at).
    assert (E2 : nth_error tbl (length (a ++ b)) = Some (look n2)) by (unfold tbl; rewrite E, app_assoc; apply looks_at).
    assert (Eb : b = skipn (length a) (firstn (length (a ++ b)) evs)).
    { rewrite E, app_assoc, firstn_app, firstn_all, Nat.sub_diag. cbn [firstn]. rewrite app_nil_r, skipn_app, skipn_all, Nat.sub_diag. reflexivity. }
    destruct (T (length a) (length (a ++ b)) i ltac:(rewrite app_length; lia) ltac:(rewrite E, !app_length; lia) _ _ _ _ _ _ _ _ _ _ _ E1 E2 (look_term _ _ _ Hi) (look_term _ _ _ Hi'))
      as (T1 & T2 & T3). rewrite <- Eb in T2, T3. split; [exact T1|]. split; [exact T2|exact T3]. }
  assert (Len : forall a, length (nt_terms (nruns e0 e0 other0 n a)) = length (nt_terms n)).
  { induction a as [|ev a IH] using rev_ind; [reflexivity|]. unfold nruns in *. rewrite fold_left_app. cbn [fold_left]. rewrite <- IH.
    generalize (fold_left (nstep e0 e0 other0) a n). intros m. clear.
    assert (G : forall i t B (p : sp B) f, length (nt_terms (goes m i t p f)) = length (nt_terms m)).
    { intros. unfold goes. destruct (run p (nt_cli m)) as [[]]; apply insert_length. }
    destruct ev; cbn [nstep]; try reflexivity; destruct (nt_terms m !! i) as [t|]; try reflexivity; unfold act; try (destruct (tm_at t); try reflexivity; apply G).
    - destruct (tm_served t); [|destruct (tm_at t); reflexivity]. destruct (nth_error _ _); [|destruct (tm_at t); reflexivity].
      destruct (run _ _) as [[[]| |] s']; destruct (tm_at t); apply insert_length.
    - destruct (tm_runs t); [|destruct (tm_at t); reflexivity]. destruct (nth_error _ _); [|destruct (tm_at t); reflexivity].
      destruct (run _ _) as [[[]| |] s']; destruct (tm_at t); apply insert_length.
    - destruct (tm_at t); destruct (bool_decide _); reflexivity. }
  assert (Ex : forall a b i t, nt_terms (nruns e0 e0 other0 n a) !! i = Some t -> exists t', nt_terms (nruns e0 e0 other0 n (a ++ b)) !! i = Some t').
  { intros a b i t H. apply lookup_lt_Some in H. rewrite Len in H. rewrite <- (Len (a ++ b)) in H. apply lookup_lt_is_Some_2 in H as (t' & H). eauto. }
  repeat (split; [assumption|]). split; [|split; [|split]].
  - intros a t c E. apply (F (length a) t (look (nruns e0 e0 other0 n a))).
    + rewrite E, nth_error_app2, Nat.sub_diag by lia. reflexivity.
    + unfold tbl. rewrite E. apply looks_at.
  - intros a b c i t t' E Hi Hi' Ht. exact (proj1 (K a b c i t t' E Hi Hi') Ht).
  - intros a b c i t E Hi Ha Ht. destruct (Ex a b i t Hi) as (t' & Hi'). exact (proj1 (proj2 (K a b c i t t' E Hi Hi')) Ha Ht).
  - intros a b c i t E Hi Ha Ht. destruct (Ex a b i t Hi) as (t' & Hi'). exact (proj2 (proj2 (K a b c i t t' E Hi Hi')) Ha Ht).
Qed.
Lemma dated0 n evs : dated e0 e0 other0 n evs.
Proof. intros a i r c _. exact t_now_ok. Qed.
Lemma tick_look m i t d : consistent (nt_srv m) -> nt_terms m !! i = Some t -> bool_decide (simPhone (tm_conf t) ∈ st_jobs (nt_srv m)) = true ->
  devAt (nt_srv m) (simPhone (tm_conf t)) = Some d -> d_status d <> Offline -> d_last d + d_keep d < time m ->
  let n := nstep e0 e0 other0 m (NTick i) in
  devAt (nt_srv n) (simPhone (tm_conf t)) = Some (with_status d Offline) /\ look n = look m.
Proof.
  intros C Ht Hj Hd Hs Hc.
  destruct (tick_offline _ _ d C Hd Hs Hc) as (s' & R & _ & Hd' & _ & _ & _ & RK). cbn [nstep]. rewrite Ht. unfold act. rewrite Hj, R. cbn [snd].
  destruct RK as (_ & _ & _ & _ & K1 & _ & K2 & K3).
  assert (K : forall l, devAt (nt_srv (mkNet s' (nt_cli m) l)) (simPhone (tm_conf t)) = Some (with_status d Offline)) by (intros; exact Hd').
  destruct (tm_at t); (split; [apply K|]); unfold look, time, NetM.written; cbn [nt_srv nt_cli nt_terms]; rewrite K1, K2, K3; reflexivity.
Qed.
Lemma nruns_snoc n a ev : nruns e0 e0 other0 n (a ++ [ev]) = nstep e0 e0 other0 (nruns e0 e0 other0 n a) ev.
Proof. unfold nruns. rewrite fold_left_app. reflexivity. Qed.
Lemma looks_snoc : forall a n ev, looks n (a ++ [ev]) = looks n a ++ [look (nruns e0 e0 other0 n (a ++ [ev]))].
Proof.
  induction a as [|x a IH]; intros n ev; [reflexivity|]. cbn [app looks]. rewrite (IH (nstep e0 e0 other0 n x) ev). reflexivity.
Qed.
(** the bound of C132 is the best possible: from [2 D + S + P] just over a minute on, [D] being no longer than [S]
    and [P], there are runs as punctual in which a check finds a terminal silent and takes it offline, although both sides hold it for online *)
Definition slow (t1 t2 t3 t4 : Z) : list nevent :=
  [NBuild 0%nat; NRegister 0%nat; NServe 0%nat; NClient 0%nat; NServe 0%nat; NClock t1; NCheck 0%nat; NClient 0%nat; NClock t2; NCheck 0%nat;
   NClock t3; NBeat 0%nat; NClock t4].
Definition slow_looks (t1 t2 t3 t4 : Z) : list (Z * list (progress * (nat * nat) * (nat * nat))) :=
  let o : progress * (nat * nat) * (nat * nat) := (PIdle, (0, 0), (0, 0))%nat in
  [(1000, [(PIdle, (0, 0), (0, 0)); o]%nat); (1000, [(PBuilt, (0, 0), (0, 0)); o]%nat); (1000, [(PSent, (0, 0), (1, 0)); o]%nat);
   (1000, [(PSent, (1, 0), (1, 1)); o]%nat); (1000, [(PSent, (1, 1), (2, 1)); o]%nat); (1000, [(PSent, (2, 1), (2, 2)); o]%nat);
   (t1, [(PSent, (2, 1), (2, 2)); o]%nat); (t1, [(PSent, (2, 1), (2, 2)); o]%nat); (t1, [(PSent, (2, 2), (2, 2)); o]%nat); (t2, [(PSent, (2, 2), (2, 2)); o]%nat);
   (t2, [(POnline, (2, 2), (2, 2)); o]%nat); (t3, [(POnline, (2, 2), (2, 2)); o]%nat); (t3, [(POnline, (2, 2), (3, 2)); o]%nat);
   (t4, [(POnline, (2, 2), (3, 2)); o]%nat); (t4, [(POnline, (2, 2), (3, 2)); o]%nat)].
Lemma slow_table t1 t2 t3 t4 : looks net0 (slow t1 t2 t3 t4) = firstn 14 (slow_looks t1 t2 t3 t4).
Proof. vmr. Qed.
Definition slow_dev : device := Eval vm_compute in
  match devAt (nt_srv (nruns e0 e0 other0 net0 (slow 0 0 0 0))) (number (conf v19)) with Some d => d | None => d1 end.
Definition slow_term : term := mkTerm (conf v19) geo31 0%nat 0%nat POnline 2%nat 2%nat true true.
Lemma slow_facts t1 t2 t3 t4 : let m := nruns e0 e0 other0 net0 (slow t1 t2 t3 t4) in
  all_punctualb net0 (slow t1 t2 t3 t4) = true /\ devAt (nt_srv m) (simPhone (conf v19)) = Some slow_dev
  /\ bool_decide (simPhone (conf v19) ∈ st_jobs (nt_srv m)) = true /\ time m = t4 /\ nt_terms m !! 0%nat = Some slow_term
  /\ look m = (t4, [(POnline, (2, 2), (3, 2)); (PIdle, (0, 0), (0, 0))]%nat).
Proof. repeat split; vmr. Qed.
Lemma slow_phone : simPhone (conf v19) = number (conf v19).
Proof. vmr. Qed.
Theorem C132_sharp : forall D S P, 0 <= D -> D <= S -> D <= P -> 60000 < 2 * D + S + P ->
  exists n a t, dialled (e_o e0) n /\ on_time e0 e0 other0 n (a ++ [NTick 0%nat]) D S P /\ dated e0 e0 other0 n (a ++ [NTick 0%nat])
    /\ all_punctual e0 e0 other0 n a /\ ~ all_punctual e0 e0 other0 n (a ++ [NTick 0%nat])
    /\ nt_terms (nruns e0 e0 other0 n a) !! 0%nat = Some t /\ tm_at t = POnline /\ online (nruns e0 e0 other0 n a) t
    /\ exists d, devAt (nt_srv (nruns e0 e0 other0 n (a ++ [NTick 0%nat]))) (number (tm_conf t)) = Some d /\ d_status d = Offline.
Proof.
  intros D S P D0 S0 P0 HB. exists net0, (slow (1000 + D) (1000 + D + S) (1000 + D + S + P) (1000 + D + S + P + D)), slow_term.
  destruct (slow_facts (1000 + D) (1000 + D + S) (1000 + D + S + P) (1000 + D + S + P + D)) as (F1 & F2 & F3 & F4 & F5 & F6).
  pose proof (slow_table (1000 + D) (1000 + D + S) (1000 + D + S + P) (1000 + D + S + P + D)) as Tb.
  apply all_punctualb_ok in F1.
  pose proof (run_inv e0 e0 other0 eq_refl _ _ _ (dialled_inv e0 net0 net0_dialled) F1) as RI.
  pose proof (nruns_snoc net0 (slow (1000 + D) (1000 + D + S) (1000 + D + S + P) (1000 + D + S + P + D)) (NTick 0%nat)) as Sn.
  pose proof (looks_snoc (slow (1000 + D) (1000 + D + S) (1000 + D + S + P) (1000 + D + S + P + D)) net0 (NTick 0%nat)) as Ls.
  rewrite Sn, Tb in Ls. rewrite Sn. clear Sn Tb.
  remember (nruns e0 e0 other0 net0 (slow (1000 + D) (1000 + D + S) (1000 + D + S + P) (1000 + D + S + P + D))) as m eqn:Em.
  destruct RI as (I & _).
  destruct (tick_look m 0%nat slow_term slow_dev (proj1 I) F5 F3 F2) as (Hd & Hl); [discriminate| |].
  { rewrite F4. change (d_last slow_dev + d_keep slow_dev) with 61000. lia. }
  rewrite F6 in Hl. rewrite Hl in Ls.
  split; [exact net0_dialled|]. split.
  { apply on_time_looks; [lia..| |]; rewrite Ls; clear - D0 S0 P0.
    - intros k u x K X. unfold slow in K. cbn [app] in K.
      do 14 (destruct k as [|k]; [try discriminate K; cbn [nth_error] in K, X; injection K as <-; injection X as <-; cbn [fst]; lia|]). destruct k; discriminate K.
    - intros j k i Hjk Hk. unfold slow in *. cbn [app length] in Hk.
      intros x y m u d wc ws m' u' d' w' X Y X' Y'.
      do 15 (destruct j as [|j]; [cbn [nth_error slow_looks firstn app] in X; injection X as <-;
        do 15 (destruct k as [|k]; [try lia; cbn [nth_error slow_looks firstn app] in Y; injection Y as <-;
          cbn [snd] in X', Y'; destruct i as [|[|i]]; cbn [nth_error] in X', Y'; try (destruct i; discriminate X');
          injection X' as <- <- <- <- <-; injection Y' as <- <- <-; cbn [fst];
          (split; [intros T; try lia; split; lia|]); (split; intros Q T; try discriminate Q; clear Q; try lia;
          match goal with |- In ?e ?l => let l' := eval cbn in l in change (In e l'); repeat (first [left; reflexivity|right]) end)|]); lia|]); lia. }
  split; [apply dated0|]. split; [exact F1|]. split.
  { intros Q. apply punctual_app in Q as (_ & Q & _). rewrite <- Em in Q. rewrite slow_phone in F2. specialize (Q _ _ F5 F2).
    fold (time m) in Q. rewrite F4 in Q. change (d_last slow_dev + d_keep slow_dev) with 61000 in Q. lia. }
  split; [exact F5|]. split; [reflexivity|]. split.
  - exact (proj1 (proj2 (proj2 (proj2 (proj2 (inv_says _ _ _ 0%nat slow_term I F5))))) eq_refl).
  - exists (with_status slow_dev Offline). split; [|reflexivity]. change (number (tm_conf slow_term)) with (number (conf v19)).
    rewrite <- slow_phone. exact Hd.
Qed.
Print Assumptions C132_sharp.

Definition seenb (D S P : Z) (i : nat) (tbl : list (Z * list (progress * (nat * nat) * (nat * nat)))) (evs : list nevent) (j k : nat) : bool :=
  match nth_error tbl j, nth_error tbl k with
  | Some x, Some y =>
      match nth_error (snd x) i, nth_error (snd y) i with
      | Some (a, _, (wc, ws)), Some (_, (u', d'), _) =>
          let b := skipn j (firstn k evs) in
          implb (fst x + D <? fst y) ((wc <=? u')%nat && (ws <=? d')%nat)
          && match a with
             | PSent => implb (fst x + S <? fst y) (existsb (fun ev => match ev with NCheck i' => (i' =? i)%nat | _ => false end) b)
             | POnline => implb (fst x + P <? fst y) (existsb (fun ev => match ev with NBeat i' => (i' =? i)%nat | _ => false end) b)
             | _ => true
             end
      | _, _ => true
      end
  | _, _ => true
  end.
Definition clocksb (tbl : list (Z * list (progress * (nat * nat) * (nat * nat)))) (evs : list nevent) : bool :=
  forallb (fun '(x, ev) => match ev with NClock t => fst x <=? t | _ => true end) (combine tbl evs).
Definition on_timeb (D S P : Z) (n : net) (evs : list nevent) : bool :=
  let tbl := looks n evs in let L := seq 0 (Datatypes.S (length evs)) in
  clocksb tbl evs && forallb (fun x => (length (snd x) <=? 2)%nat) tbl
  && forallb (fun j => forallb (fun k => forallb (fun i => seenb D S P i tbl evs j k) [0; 1]%nat) L) L.
Lemma on_timeb_ok D S P n evs : 0 <= D -> 0 <= S -> 0 <= P -> on_timeb D S P n evs = true -> on_time e0 e0 other0 n evs D S P.
Proof.
  intros D0 S0 P0 H. unfold on_timeb in H. apply andb_prop in H as [H H3]. apply andb_prop in H as [H1 H2].
  apply on_time_looks; [assumption..| |].
  - intros k t x K X. unfold clocksb in H1. rewrite forallb_forall in H1. specialize (H1 (x, NClock t)). apply Z.leb_le, H1.
    generalize (looks n evs) X. clear - K. revert k K. induction evs as [|ev evs IH]; intros [|k] K [|y l] X; try discriminate.
    + cbn in K, X |- *. injection K as ->. injection X as ->. left. reflexivity.
    + right. exact (IH k K l X).
  - intros j k i Hjk Hk x y a u d wc ws a' u' d' [wc' ws'] X Y X' Y'.
    assert (Hi : In i [0; 1]%nat).
    { rewrite forallb_forall in H2. specialize (H2 x (nth_error_In _ _ X)). apply Nat.leb_le in H2.
      assert (i < length (snd x))%nat by (apply nth_error_Some; congruence). cbn. lia. }
    rewrite forallb_forall in H3. specialize (H3 j ltac:(apply in_seq; lia)). rewrite forallb_forall in H3.
    specialize (H3 k ltac:(apply in_seq; lia)). rewrite forallb_forall in H3. specialize (H3 i Hi).
    unfold seenb in H3. rewrite X, Y, X', Y' in H3. apply andb_prop in H3 as [T1 T2]. split; [|split].
    + intros T. apply Z.ltb_lt in T. rewrite T in T1. cbn [implb] in T1. apply andb_prop in T1 as [A B]. apply Nat.leb_le in A, B. auto.
    + intros -> T. apply Z.ltb_lt in T. rewrite T in T2. cbn [implb] in T2. apply existsb_exists in T2 as (ev & I & E).
      destruct ev; try discriminate E. apply Nat.eqb_eq in E. subst. exact I.
    + intros -> T. apply Z.ltb_lt in T. rewrite T in T2. cbn [implb] in T2. apply existsb_exists in T2 as (ev & I & E).
      destruct ev; try discriminate E. apply Nat.eqb_eq in E. subst. exact I.
Qed.
(** frames read within 5 s, a look every second, a heartbeat every 20 s: more than a minute of two terminals *)
Definition minute : list nevent :=
  [NBuild 0; NRegister 0; NClock 1500; NServe 0; NCheck 0; NClient 0; NBuild 1; NRegister 1; NClock 2000; NServe 0; NCheck 0; NCheck 1; NServe 1; NClient 0; NClient 1; NClock 3000;
   NCheck 0; NCheck 1; NReport 0 draw0; NServe 1; NTick 1; NClient 1; NCheck 1; NClock 6000; NServe 0; NTick 0; NClient 0; NClock 21000; NBeat 0; NBeat 1; NClock 25000; NServe 1; NServe 0; NTick 0;
   NClock 29000; NClient 0; NClient 1; NClock 41000; NReport 1 draw0; NBeat 1; NBeat 0; NClock 45000; NServe 0; NServe 1; NServe 1; NTick 1; NClient 0; NClient 1; NClient 1; NClock 60000; NBeat 1; NBeat 0;
   NServe 0; NServe 1; NClient 0; NClient 1; NClock 79000; NBeat 0; NTick 0; NBeat 1; NClock 81000; NTick 1]%nat.
Example C132_ex : dialled (e_o e0) net0 /\ on_time e0 e0 other0 net0 minute 5000 1000 20000 /\ 2 * 5000 + 1000 + 20000 <= 60000
  /\ dated e0 e0 other0 net0 minute /\ List.map tm_at (nt_terms (nruns e0 e0 other0 net0 minute)) = [POnline; POnline]
  /\ on_time e0 e0 other0 net0 (slow 21000 41000 61000 81000) 20000 20000 20000.
Proof.
  split; [exact net0_dialled|]. split; [apply on_timeb_ok; [lia..|vmr]|]. split; [lia|]. split; [apply dated0|]. split; [vmr|].
  apply on_timeb_ok; [lia..|vmr].
Qed.
(** terminal 0 has sent its registration by 1500 and is online on both sides well before 22500; the report
    terminal 1 made at 41000 is in its track at 60000 *)
Example C133_ex : time (nruns e0 e0 other0 net0 (firstn 3 minute)) = 1500 /\ time (nruns e0 e0 other0 net0 (firstn 31 minute)) = 25000
  /\ List.map tm_at (nt_terms (nruns e0 e0 other0 net0 (firstn 3 minute))) = [PSent; PIdle]
  /\ length (all_generated e0 e0 other0 net0 1%nat (firstn 39 minute)) = 1%nat
  /\ time (nruns e0 e0 other0 net0 (firstn 39 minute)) + 5000 < time (nruns e0 e0 other0 net0 (firstn 50 minute)).
Proof. repeat (split; [vmr|]). vm_compute. reflexivity. Qed.
