(** Proofs of C39: Latest among other goroutines while Writer does not come back to 0 *)
From Verif Require Import Base ProgM ProgP RingM SpecRing RingP.
Local Open Scope Z_scope.

Section Latest.
Context {A : Type}.
Notation rp := (prog (ring A)).
(** Writer stays away from 0 *)
Definition away (r r' : ring A) : Prop := rg_writer r <> 0 -> rg_writer r' <> 0.
Lemma away_refl r : away r r. Proof. intros H. exact H. Qed.
Lemma away_trans a b c : away a b -> away b c -> away a c. Proof. unfold away. auto. Qed.

(** [safe] in executions in which each step stays away *)
Inductive asafe {B} (m : Z) : ring A -> rp B -> Prop :=
| as_ret r x : x <> Panic -> asafe m r (Ret x)
| as_act r a f k :
    (forall u, rok m u -> away r u -> rok m (f u)) ->
    (forall u, rok m u -> away r u -> away u (f u) -> asafe m (f u) (k u)) -> asafe m r (Act a f k).
Lemma asafe_move {B} m r r' (p : rp B) : asafe m r p -> away r r' -> asafe m r' p.
Proof.
  intros H Ha. destruct H as [r x Hx|r a f k H1 H2]; [constructor; exact Hx|].
  constructor; intros u Hu Hau; [apply H1|apply H2]; try assumption; eapply away_trans; eassumption.
Qed.
Lemma asafe_of {B} m r (p : rp B) : safe (rok m) gtrue (fun _ x => x <> Panic) r p -> rok m r -> asafe m r p.
Proof.
  intros H. induction H as [r x Hq|r a f k H1 _ IH]; intros Hr.
  - constructor. exact (Hq r Hr Logic.I).
  - constructor; intros u Hu _; [exact (proj1 (H1 u Hu Logic.I))|]. intros _. apply IH; [exact Hu|exact Logic.I|].
    exact (proj1 (H1 u Hu Logic.I)).
Qed.
Lemma asafe_bind {B C} m r (p : rp B) (g : B -> rp C) : asafe m r p -> rok m r ->
  (forall u b, rok m u -> asafe m u (g b)) -> asafe m r (pbind p g).
Proof.
  intros H. unfold pbind. induction H as [r x Hx|r a f k H1 _ IH]; intros Hr Hg; cbn.
  - destruct x as [b|e|]; [exact (Hg r b Hr)|constructor; discriminate|congruence].
  - constructor; intros u Hu Ha; [exact (H1 u Hu Ha)|]. intros Hf. apply (IH u Hu Ha Hf); [exact (H1 u Hu Ha)|exact Hg].
Qed.
Lemma asafe_latest m l r : rok m r -> asafe m r (ringLatest l : rp (option A)).
Proof.
  intros _. unfold ringLatest, loadWriter, rd1. cbn. constructor; [auto|]. intros u Hu _ _. cbn.
  destruct (Z.eqb_spec (rg_writer u) 0) as [E|E]; [constructor; discriminate|]. cbn.
  constructor; [auto|]. intros v Hv Ha _. cbn. specialize (Ha E).
  constructor; [auto|]. intros w Hw _ _. cbn. constructor; [auto|]. intros z Hz _ _. cbn.
  destruct Hv as ((V1 & V2 & V3 & V4) & V5). destruct Hw as ((W1 & W2 & W3 & W4) & W5). destruct Hz as ((Z1 & Z2 & Z3 & Z4) & Z5).
  assert (Ei : inRange (Z.rem (rg_writer v - 1) (rg_size w)) (rg_slots z) = true).
  { apply inRange_iff. rewrite Z.rem_small by lia. lia. }
  rewrite Ei. constructor. discriminate.
Qed.
Lemma asafe_thread m l cs : forall r, rok m r -> asafe m r (ringThread l cs).
Proof.
  induction cs as [|c cs IH]; intros r Hr; cbn [ringThread]; [constructor; discriminate|].
  apply asafe_bind; [|exact Hr|intros u _ Hu; exact (IH u Hu)].
  destruct c as [v| | |v|]; [apply asafe_of; [apply safe_ringCall; discriminate|exact Hr]..|].
  cbn [ringCall]. apply asafe_bind; [exact (asafe_latest m l r Hr)|exact Hr|]. intros u b _. constructor. discriminate.
Qed.
Lemma pstep_asafe {B} m (ps : list (rp B)) r i : rok m r -> away r (snd (pstep ps r i)) ->
  (forall p, In p ps -> asafe m r p) ->
  rok m (snd (pstep ps r i)) /\ forall p, In p (fst (pstep ps r i)) -> asafe m (snd (pstep ps r i)) p.
Proof.
  intros Hr Ha Hs. unfold pstep in *. destruct (nth_error ps i) as [[x|a f k]|] eqn:E; cbn in *; [auto| |auto].
  pose proof (Hs _ (nth_error_In _ _ E)) as Hp. inversion Hp as [|? ? ? ? H1 H2]; subst.
  split; [exact (H1 r Hr (away_refl r))|]. intros p Hin. apply in_app_or in Hin.
  assert (Hold : In p ps -> asafe m (f r) p) by (intros Hin'; exact (asafe_move m r (f r) p (Hs p Hin') Ha)).
  destruct Hin as [Hin|[<-|Hin]].
  - apply Hold. rewrite <- (firstn_skipn i ps). apply in_or_app. left. exact Hin.
  - exact (H2 r Hr (away_refl r) Ha).
  - apply Hold. rewrite <- (firstn_skipn (i + 1) ps). apply in_or_app. right. exact Hin.
Qed.
Lemma psteps_asafe {B} m sch : forall (ps : list (rp B)) r, rok m r -> (forall p, In p ps -> asafe m r p) ->
  (forall k, (k < length sch)%nat -> away (snd (psteps ps r (firstn k sch))) (snd (psteps ps r (firstn (S k) sch)))) ->
  rok m (snd (psteps ps r sch)) /\ forall p, In p (fst (psteps ps r sch)) -> asafe m (snd (psteps ps r sch)) p.
Proof.
  induction sch as [|i sch IH]; intros ps r Hr Hs Ha; [auto|]. cbn [psteps].
  assert (Ha0 : away r (snd (pstep ps r i))).
  { specialize (Ha 0%nat). cbn [firstn psteps length] in Ha. destruct (pstep ps r i) as [ps' r']. apply Ha. lia. }
  destruct (pstep_asafe m ps r i Hr Ha0 Hs) as (Hr' & Hs'). destruct (pstep ps r i) as [ps' r'] eqn:E. cbn in *.
  apply IH; [exact Hr'|exact Hs'|]. intros k Hk. specialize (Ha (S k)). cbn [firstn psteps length] in Ha. rewrite E in Ha. apply Ha. lia.
Qed.
Lemma latest_bounds l n (css : list (list (rcall A))) sch : (0 < n)%nat ->
  let at_ k := snd (psteps (map (ringThread l) css) (newRing (Z.of_nat n)) (firstn k sch)) in
  (forall k, (k < length sch)%nat -> rg_writer (at_ k) <> 0 -> rg_writer (at_ (S k)) <> 0) ->
  let '(ps, r) := psteps (map (ringThread l) css) (newRing (Z.of_nat n)) sch in
  ring_ok r /\ forall p, In p ps -> p <> Ret Panic.
Proof.
  intros Hn at_ Ha.
  assert (H0 : rok (A := A) (Z.of_nat n) (newRing (Z.of_nat n))).
  { pose proof (rinv_ok _ _ _ _ (rinv_new (A := A) n Hn)). split; [assumption|reflexivity]. }
  destruct (psteps_asafe (Z.of_nat n) sch (map (ringThread l) css) (newRing (Z.of_nat n)) H0) as (H1 & H2).
  - intros p Hp. apply in_map_iff in Hp. destruct Hp as (cs & <- & _). exact (asafe_thread _ l cs _ H0).
  - exact Ha.
  - destruct (psteps _ _ sch) as [ps r]. split; [apply H1|]. intros p Hp ->. specialize (H2 _ Hp). inversion H2. congruence.
Qed.
End Latest.
