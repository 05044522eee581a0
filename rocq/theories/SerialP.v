(** Serial numbers taken at the same time, also past 65535 (C63) *)
From Coq Require Import List NArith Lia Bool Arith.
From Verif Require Import Base ProgM ProgP RingM.
Import ListNotations.
Local Open Scope N_scope.

(** where a caller of GetNextSerialNum is *)
Inductive stage : Type := Before | Full | Reset | Got (x : N).
Definition at_stage (l : nat) (g : stage) : prog N N :=
  match g with
  | Before => getNextSerialNum l
  | Full => (wr1 [mkAcc (CSerial l) true Atomic] (fun _ => 0) ;;; rd1 [mkAcc (CSerial l) false Plain] (fun n => n mod 65536))%prog
  | Reset => rd1 [mkAcc (CSerial l) false Plain] (fun n => n mod 65536)
  | Got x => Ret (Ok x)
  end.
(** how many have performed their addition *)
Definition added (g : stage) : N := match g with Before => 0 | _ => 1 end.
Fixpoint adds (gs : list stage) : N := match gs with [] => 0 | g :: t => added g + adds t end.
Lemma adds_app a b : adds (a ++ b) = adds a + adds b.
Proof. induction a as [|g a IH]; cbn [app adds]; lia. Qed.
Lemma adds_length a : adds a <= N.of_nat (length a).
Proof. induction a as [|g a IH]; cbn [length adds]; [lia|]. rewrite Nat2N.inj_succ. destruct g; cbn [added]; lia. Qed.
Lemma nth_split_at {A} (l : list A) i x : nth_error l i = Some x -> l = firstn i l ++ x :: skipn (i + 1) l.
Proof.
  revert i. induction l as [|y l IH]; intros [|i] H; try discriminate; cbn in *; [injection H as ->; reflexivity|].
  f_equal. apply IH, H.
Qed.
Lemma adds_upd gs i g g' : nth_error gs i = Some g -> adds (firstn i gs ++ g' :: skipn (i + 1) gs) + added g = adds gs + added g'.
Proof. intros H. rewrite (nth_split_at gs i g H) at 3. rewrite !adds_app. cbn [adds]. lia. Qed.

Section Wrap.
Context (l : nat) (c0 : N).
Record inv (gs : list stage) (c : N) : Prop := {
  iv_count : c = c0 + adds gs \/ 65536 + c <= c0 + adds gs;
  iv_got : forall i x, nth_error gs i = Some (Got x) -> (c0 < x <= 65535 /\ (c = c0 + adds gs -> x <= c)) \/ 65536 + x <= c0 + adds gs;
  iv_same : forall i j x, i <> j -> nth_error gs i = Some (Got x) -> nth_error gs j = Some (Got x) -> 65536 + x <= c0 + adds gs;
  iv_full : forall i, nth_error gs i = Some Full -> 65536 <= c0 + adds gs;
  iv_reset : forall i, nth_error gs i = Some Reset -> 65536 + c <= c0 + adds gs
}.
Lemma inv_start n : inv (repeat Before n) c0.
Proof.
  assert (H : adds (repeat Before n) = 0) by (induction n as [|n IH]; cbn; [reflexivity|exact IH]).
  assert (K : forall i g, nth_error (repeat Before n) i = Some g -> g = Before) by (intros i g Hi; apply nth_error_In in Hi; eapply repeat_spec; exact Hi).
  constructor; intros; try (match goal with E : nth_error _ _ = Some _ |- _ => apply K in E; discriminate end). left. lia.
Qed.
Lemma inv_step gs c i : inv gs c -> c0 + N.of_nat (length gs) < 4294967296 ->
  exists gs' c', pstep (map (at_stage l) gs) c i = (map (at_stage l) gs', c') /\ inv gs' c' /\ length gs' = length gs.
Proof.
  intros [I1 I2 I3 I4 I5] Hn. unfold pstep. rewrite nth_error_map. destruct (nth_error gs i) as [g|] eqn:E; cbn [option_map];
    [|exists gs, c; split; [reflexivity|split; [constructor; assumption|reflexivity]]].
  assert (U : forall j g', nth_error (firstn i gs ++ g' :: skipn (i + 1) gs) j = if Nat.eqb i j then Some g' else nth_error gs j)
    by (intros j g'; apply (nth_error_upd gs i j g' _ E)).
  assert (Len : forall g', length (firstn i gs ++ g' :: skipn (i + 1) gs) = length gs) by (intros g'; eapply upd_length; exact E).
  assert (Mp : forall g', firstn i (map (at_stage l) gs) ++ at_stage l g' :: skipn (i + 1) (map (at_stage l) gs) = map (at_stage l) (firstn i gs ++ g' :: skipn (i + 1) gs))
    by (intros g'; rewrite map_app, firstn_map; cbn [map]; rewrite skipn_map; reflexivity).
  pose proof (adds_length gs) as Al.
  assert (Hc : c <= c0 + adds gs) by lia.
  destruct g as [| | |x].
  - cbn [at_stage]. unfold getNextSerialNum. cbv beta iota zeta.
    pose proof (adds_upd gs i Before Full E) as A1. assert (Ac : forall x, adds (firstn i gs ++ Got x :: skipn (i + 1) gs) = adds (firstn i gs ++ Full :: skipn (i + 1) gs))
      by (intros x; rewrite !adds_app; reflexivity). cbn [added] in A1.
    assert (Al' : adds gs + 1 <= N.of_nat (length gs)) by (pose proof (adds_length (firstn i gs ++ Full :: skipn (i + 1) gs)) as Q; rewrite Len in Q; lia).
    rewrite (N.mod_small (c + 1)) by lia. destruct (N.leb_spec (c + 1) 65535) as [Hs|Hs].
    + exists (firstn i gs ++ Got (c + 1) :: skipn (i + 1) gs), (c + 1). rewrite <- Mp. cbn [at_stage]. rewrite (N.mod_small (c + 1)) by lia.
      split; [reflexivity|]. split; [|apply Len]. specialize (Ac (c + 1)). constructor.
      * lia.
      * intros j y Hj. rewrite U in Hj. destruct (Nat.eqb_spec i j) as [_|_]; [injection Hj as <-; lia|]. destruct (I2 j y Hj) as [K|K]; lia.
      * intros j k y Hne Hj Hk. rewrite U in Hj, Hk. destruct (Nat.eqb_spec i j) as [Hj'|Hj'], (Nat.eqb_spec i k) as [Hk'|Hk'].
        -- congruence.
        -- injection Hj as <-. destruct (I2 k _ Hk) as [K|K]; lia.
        -- injection Hk as <-. destruct (I2 j _ Hj) as [K|K]; lia.
        -- pose proof (I3 j k y Hne Hj Hk). lia.
      * intros j Hj. rewrite U in Hj. destruct (Nat.eqb i j); [discriminate|]. pose proof (I4 j Hj). lia.
      * intros j Hj. rewrite U in Hj. destruct (Nat.eqb i j); [discriminate|]. pose proof (I5 j Hj). lia.
    + exists (firstn i gs ++ Full :: skipn (i + 1) gs), (c + 1). rewrite <- Mp. split; [reflexivity|]. split; [|apply Len]. constructor.
      * lia.
      * intros j y Hj. rewrite U in Hj. destruct (Nat.eqb i j); [discriminate|]. destruct (I2 j y Hj) as [K|K]; lia.
      * intros j k y Hne Hj Hk. rewrite U in Hj, Hk. destruct (Nat.eqb i j); [discriminate|]. destruct (Nat.eqb i k); [discriminate|].
        pose proof (I3 j k y Hne Hj Hk). lia.
      * intros j Hj. lia.
      * intros j Hj. rewrite U in Hj. destruct (Nat.eqb i j); [discriminate|]. pose proof (I5 j Hj). lia.
  - pose proof (adds_upd gs i Full Reset E) as A1. cbn [added] in A1. pose proof (I4 i E) as F.
    exists (firstn i gs ++ Reset :: skipn (i + 1) gs), 0. rewrite <- Mp. split; [reflexivity|]. split; [|apply Len]. constructor.
    + lia.
    + intros j y Hj. rewrite U in Hj. destruct (Nat.eqb i j); [discriminate|]. destruct (I2 j y Hj) as [K|K]; lia.
    + intros j k y Hne Hj Hk. rewrite U in Hj, Hk. destruct (Nat.eqb i j); [discriminate|]. destruct (Nat.eqb i k); [discriminate|].
      pose proof (I3 j k y Hne Hj Hk). lia.
    + intros j Hj. lia.
    + intros j Hj. lia.
  - pose proof (adds_upd gs i Reset (Got (c mod 65536)) E) as A1. cbn [added] in A1. pose proof (I5 i E) as F.
    assert (M : c mod 65536 <= c) by (apply N.mod_le; lia).
    exists (firstn i gs ++ Got (c mod 65536) :: skipn (i + 1) gs), c. rewrite <- Mp. split; [reflexivity|]. split; [|apply Len]. constructor.
    + lia.
    + intros j y Hj. rewrite U in Hj. destruct (Nat.eqb i j); [injection Hj as <-; lia|]. destruct (I2 j y Hj) as [K|K]; lia.
    + intros j k y Hne Hj Hk. rewrite U in Hj, Hk. destruct (Nat.eqb_spec i j) as [Hj'|Hj'], (Nat.eqb_spec i k) as [Hk'|Hk'].
      * congruence.
      * injection Hj as <-. lia.
      * injection Hk as <-. lia.
      * pose proof (I3 j k y Hne Hj Hk). lia.
    + intros j Hj. rewrite U in Hj. destruct (Nat.eqb i j); [discriminate|]. pose proof (I4 j Hj). lia.
    + intros j Hj. rewrite U in Hj. destruct (Nat.eqb i j); [discriminate|]. pose proof (I5 j Hj). lia.
  - exists gs, c. split; [reflexivity|]. split; [constructor; assumption|reflexivity].
Qed.
Lemma inv_steps sch : forall gs c, inv gs c -> c0 + N.of_nat (length gs) < 4294967296 ->
  exists gs' c', psteps (map (at_stage l) gs) c sch = (map (at_stage l) gs', c') /\ inv gs' c' /\ length gs' = length gs.
Proof.
  induction sch as [|i t IH]; intros gs c I Hn; cbn [psteps]; [exists gs, c; auto|].
  destruct (inv_step gs c i I Hn) as (gs1 & c1 & E & I1 & L1). rewrite E.
  destruct (IH gs1 c1 I1) as (gs2 & c2 & E2 & I2 & L2); [rewrite L1; exact Hn|]. exists gs2, c2. split; [exact E2|]. split; [exact I2|congruence].
Qed.
End Wrap.
Lemma map_repeat' {A B} (f : A -> B) x n : map f (repeat x n) = repeat (f x) n.
Proof. induction n as [|n IH]; cbn; [reflexivity|]. f_equal. exact IH. Qed.
Lemma serials_wrap l n c0 sch : c0 + N.of_nat n < 4294967296 ->
  let '(ps, _) := psteps (repeat (getNextSerialNum l) n) c0 sch in
  (forall i x, nth_error ps i = Some (Ret (Ok x)) -> c0 < x <= 65535 \/ 65536 + x <= c0 + N.of_nat n)
  /\ (forall i j x, i <> j -> nth_error ps i = Some (Ret (Ok x)) -> nth_error ps j = Some (Ret (Ok x)) -> 65536 + x <= c0 + N.of_nat n).
Proof.
  intros Hn. change (repeat (getNextSerialNum l) n) with (repeat (at_stage l Before) n). rewrite <- map_repeat'.
  destruct (inv_steps l c0 sch (repeat Before n) c0 (inv_start c0 n)) as (gs & c & E & I & L); [rewrite repeat_length; exact Hn|].
  rewrite repeat_length in L. rewrite E. pose proof (adds_length gs) as A. rewrite L in A.
  assert (G : forall i x, nth_error (map (at_stage l) gs) i = Some (Ret (Ok x)) -> nth_error gs i = Some (Got x)).
  { intros i x H. rewrite nth_error_map in H. destruct (nth_error gs i) as [[| | |y]|]; try discriminate. injection H as <-. reflexivity. }
  split.
  - intros i x H. destruct (iv_got _ _ _ I i x (G i x H)) as [K|K]; lia.
  - intros i j x Hne H H'. pose proof (iv_same _ _ _ I i j x Hne (G i x H) (G j x H')). lia.
Qed.

(** that bound is reached: one caller past the end, resetting, and [x] others *)
Lemma serials_pass l (P : prog N N) m : forall Ds c, c + N.of_nat m <= 65535 ->
  exists Es, length Es = m /\ psteps (P :: Ds ++ repeat (getNextSerialNum l) m) c (seq (S (length Ds)) m) = (P :: Ds ++ Es, c + N.of_nat m)
    /\ (m <> 0%nat -> nth_error Es (m - 1) = Some (Ret (Ok (c + N.of_nat m)))).
Proof.
  induction m as [|m IH]; intros Ds c Hc.
  - exists []. split; [reflexivity|]. split; [cbn [repeat seq psteps]; rewrite N.add_0_r; reflexivity|congruence].
  - cbn [repeat seq psteps]. assert (En : nth_error (Ds ++ getNextSerialNum l :: repeat (getNextSerialNum l) m) (length Ds) = Some (getNextSerialNum l))
      by (rewrite nth_error_app2, Nat.sub_diag by lia; reflexivity).
    unfold pstep at 1. cbn [nth_error]. rewrite En. unfold getNextSerialNum at 1. cbv beta iota zeta.
    rewrite (N.mod_small (c + 1)) by lia. replace (c + 1 <=? 65535) with true by (symmetry; apply N.leb_le; lia).
    rewrite (N.mod_small (c + 1) 65536) by lia.
    replace (firstn (S (length Ds)) (P :: Ds ++ getNextSerialNum l :: repeat (getNextSerialNum l) m)
             ++ ret (c + 1) :: skipn (S (length Ds) + 1) (P :: Ds ++ getNextSerialNum l :: repeat (getNextSerialNum l) m))
      with (P :: (Ds ++ [ret (c + 1)]) ++ repeat (getNextSerialNum l) m).
    + destruct (IH (Ds ++ [ret (c + 1)]) (c + 1) ltac:(lia)) as (Es & L & E & K). rewrite app_length, Nat.add_1_r in E.
      exists (ret (c + 1) :: Es). split; [cbn; lia|]. split.
      * rewrite E, <- app_assoc. cbn [app]. f_equal. lia.
      * intros _. destruct m as [|m]; [cbn; f_equal; f_equal; f_equal; lia|].
        replace (S (S m) - 1)%nat with (S (S m - 1))%nat by lia. cbn [nth_error]. rewrite K by congruence. f_equal. f_equal. f_equal. lia.
    + cbn [firstn skipn Nat.add app]. rewrite firstn_app, Nat.sub_diag, firstn_O, app_nil_r, firstn_all.
      rewrite skipn_app. replace (length Ds + 1 - length Ds)%nat with 1%nat by lia. rewrite (skipn_all2 Ds) by lia. cbn [skipn app].
      rewrite <- app_assoc. reflexivity.
Qed.
Lemma serials_twice l x : 1 <= x <= 65535 ->
  exists sch, let '(ps, _) := psteps (repeat (getNextSerialNum l) (S (N.to_nat x))) 65535 sch in
    nth_error ps 0 = Some (Ret (Ok x)) /\ nth_error ps (N.to_nat x) = Some (Ret (Ok x)).
Proof.
  intros Hx. set (m := N.to_nat x). assert (Hm : N.of_nat m = x) by (unfold m; lia).
  destruct (serials_pass l (at_stage l Reset) m [] 0) as (Es & L & E & K); [lia|]. cbn [app length] in E.
  exists ([0; 0]%nat ++ seq 1 m ++ [0]%nat). rewrite psteps_app.
  change (psteps (repeat (getNextSerialNum l) (S m)) 65535 [0; 0]%nat) with (at_stage l Reset :: repeat (getNextSerialNum l) m, 0).
  cbn [fst snd]. rewrite psteps_app, E. cbn [fst snd psteps pstep nth_error firstn app skipn Nat.add at_stage rd1].
  rewrite N.add_0_l, Hm, N.mod_small by lia. split; [reflexivity|].
  assert (Ne : m <> 0%nat) by lia. specialize (K Ne). rewrite N.add_0_l, Hm in K. destruct m as [|m']; [congruence|]. cbn [nth_error].
  replace (S m' - 1)%nat with m' in K by lia. exact K.
Qed.
