(** Reasoning about programs: sequential composition, interleavings *)
From Verif Require Import Base ProgM.

Lemma run_bindR {S A B} (p : prog S A) (g : res A -> prog S B) s :
  run (pbindR p g) s = run (g (fst (run p s))) (snd (run p s)).
Proof. revert s. induction p as [r|a f k IH]; intros s; cbn; [reflexivity|apply IH]. Qed.

Lemma run_bind {S A B} (p : prog S A) (g : A -> prog S B) s :
  run (pbind p g) s =
  match run p s with
  | (Ok a, s') => run (g a) s'
  | (Err e, s') => (Err e, s')
  | (Panic, s') => (Panic, s')
  end.
Proof. unfold pbind. rewrite run_bindR. destruct (run p s) as [[a|e|] s']; reflexivity. Qed.

Lemma run_zoom {S T A} (get : S -> T) (put : T -> S -> S) (p : prog T A) s :
  (forall t u, get (put t u) = t) -> (forall t t' u, put t (put t' u) = put t u) ->
  (forall u, put (get u) u = u) ->
  run (zoom get put p) s = (fst (run p (get s)), put (snd (run p (get s))) s).
Proof.
  intros Hgp Hpp Hpg. revert s. induction p as [r|a f k IH]; intros s; cbn.
  - rewrite Hpg. reflexivity.
  - rewrite IH, Hgp, Hpp. reflexivity.
Qed.

(** * Interleavings *)
Lemma nth_error_upd {A} (l : list A) i j x y : nth_error l i = Some y ->
  nth_error (firstn i l ++ x :: skipn (i + 1) l) j = if Nat.eqb i j then Some x else nth_error l j.
Proof.
  intros H. assert (Hi : i < length l) by (apply nth_error_Some; congruence).
  destruct (Nat.eqb_spec i j) as [->|Hn].
  - rewrite nth_error_app2; rewrite firstn_length_le by lia; [|lia].
    rewrite Nat.sub_diag. reflexivity.
  - destruct (Nat.lt_ge_cases j i).
    + rewrite nth_error_app1 by (rewrite firstn_length_le; lia).
      rewrite <- (firstn_skipn i l) at 2. rewrite nth_error_app1; [reflexivity|].
      rewrite firstn_length_le; lia.
    + rewrite nth_error_app2; rewrite firstn_length_le by lia; [|lia].
      destruct (j - i) as [|m] eqn:E; [lia|]. cbn.
      rewrite <- (firstn_skipn (i + 1) l) at 2.
      rewrite nth_error_app2; rewrite firstn_length_le by lia; [|lia].
      f_equal. lia.
Qed.

Lemma upd_length {A} (l : list A) i x y : nth_error l i = Some y ->
  length (firstn i l ++ x :: skipn (i + 1) l) = length l.
Proof.
  intros H. assert (i < length l) by (apply nth_error_Some; congruence).
  rewrite app_length. cbn. rewrite firstn_length_le, skipn_length by lia. lia.
Qed.

Lemma pstep_length {S A} (ps : list (prog S A)) s i : length (fst (pstep ps s i)) = length ps.
Proof.
  unfold pstep. destruct (nth_error ps i) as [[r|a f k]|] eqn:E; cbn; try reflexivity.
  eapply upd_length; eassumption.
Qed.

Lemma psteps_length {S A} sch : forall (ps : list (prog S A)) s,
  length (fst (psteps ps s sch)) = length ps.
Proof.
  induction sch as [|i t IH]; intros ps s; cbn; [reflexivity|].
  destruct (pstep ps s i) as [ps' s'] eqn:E. rewrite IH.
  pose proof (pstep_length ps s i) as H. rewrite E in H. exact H.
Qed.

Lemma psteps_app {S A} a : forall b (ps : list (prog S A)) s,
  psteps ps s (a ++ b) = psteps (fst (psteps ps s a)) (snd (psteps ps s a)) b.
Proof.
  induction a as [|i a IH]; intros b ps s; cbn; [reflexivity|].
  destruct (pstep ps s i) as [ps' s'] eqn:E. apply IH.
Qed.

(** A program is safe from [s] when, whatever states related by [G] the others bring
    about, each of its actions keeps the invariant and is allowed by [G], and its results
    satisfy [Q]. *)
Inductive safe {S A} (I : S -> Prop) (G : S -> S -> Prop) (Q : S -> res A -> Prop)
  : S -> prog S A -> Prop :=
| safe_ret s r : (forall s', I s' -> G s s' -> Q s' r) -> safe I G Q s (Ret r)
| safe_act s a f k :
    (forall s', I s' -> G s s' -> I (f s') /\ G s' (f s')) ->
    (forall s', I s' -> G s s' -> safe I G Q (f s') (k s')) ->
    safe I G Q s (Act a f k).

Section Safe.
Context {S : Type} (I : S -> Prop) (G : S -> S -> Prop).
Hypothesis Grefl : forall s, G s s.
Hypothesis Gtrans : forall a b c, G a b -> G b c -> G a c.

Lemma safe_mono {A} (Q : S -> res A -> Prop) s s' p : safe I G Q s p -> G s s' -> safe I G Q s' p.
Proof.
  intros H Hg. inversion H as [? ? Hq|? ? ? ? Hk Hk']; subst; constructor.
  - intros t Ht Hst. apply Hq; [exact Ht|eapply Gtrans; eassumption].
  - intros t Ht Hst. apply Hk; [exact Ht|eapply Gtrans; eassumption].
  - intros t Ht Hst. apply Hk'; [exact Ht|eapply Gtrans; eassumption].
Qed.

Lemma safe_post {A} (Q Q' : S -> res A -> Prop) s p :
  safe I G Q s p -> (forall t r, I t -> G s t -> Q t r -> Q' t r) -> safe I G Q' s p.
Proof.
  intros H. induction H as [s r Hq|s a f k Hk _ IH]; intros HQ; constructor.
  - intros s' Hi Hg. apply HQ; auto.
  - exact Hk.
  - intros s' Hi Hg. destruct (Hk s' Hi Hg) as (H1 & H2). apply (IH s' Hi Hg). intros t r Ht Hst HQt.
    apply HQ; [exact Ht| |exact HQt]. eapply Gtrans; [exact Hg|]. eapply Gtrans; eassumption.
Qed.

Lemma safe_bindR {A B} (Q : S -> res A -> Prop) (Q' : S -> res B -> Prop) s (p : prog S A) g :
  safe I G Q s p -> (forall t r, G s t -> I t -> Q t r -> safe I G Q' t (g r)) ->
  I s -> safe I G Q' s (pbindR p g).
Proof.
  intros H. induction H as [s r Hq|s a f k Hk _ IH]; intros Hg Hi; cbn.
  - apply Hg; auto.
  - constructor; [exact Hk|]. intros s' Hi' Hg'. destruct (Hk s' Hi' Hg') as (H1 & H2). apply (IH s' Hi' Hg'); [|exact H1].
    intros t r Ht Hit HQ. apply Hg; [|exact Hit|exact HQ].
    eapply Gtrans; [exact Hg'|]. eapply Gtrans; eassumption.
Qed.

Lemma safe_bind {A B} (Q : S -> A -> Prop) (Q' : S -> res B -> Prop) s (p : prog S A) g :
  safe I G (fun t r => match r with Ok a => Q t a | Err e => forall u, I u -> G t u -> Q' u (Err e) | Panic => forall u, I u -> G t u -> Q' u Panic end) s p ->
  (forall t a, G s t -> I t -> Q t a -> safe I G Q' t (g a)) ->
  I s -> safe I G Q' s (pbind p g).
Proof.
  intros H Hg Hi. unfold pbind. eapply safe_bindR; [exact H| |exact Hi].
  intros t [a|e|] Ht Hit HQ; [apply Hg; assumption|constructor; exact HQ..].
Qed.

Lemma pstep_safe {A} (Q : S -> res A -> Prop) ps s i :
  I s -> (forall j p, nth_error ps j = Some p -> safe I G Q s p) ->
  I (snd (pstep ps s i)) /\ G s (snd (pstep ps s i))
  /\ forall j p, nth_error (fst (pstep ps s i)) j = Some p -> safe I G Q (snd (pstep ps s i)) p.
Proof.
  intros Hi Hs. unfold pstep. destruct (nth_error ps i) as [[r|a f k]|] eqn:E; cbn; auto.
  pose proof (Hs i _ E) as H. inversion H as [|? ? ? ? Hk Hk']; subst.
  destruct (Hk s Hi (Grefl s)) as (H1 & H2). pose proof (Hk' s Hi (Grefl s)) as H3. repeat split; [assumption..|].
  intros j p Hj. rewrite (nth_error_upd ps i j (k s) _ E) in Hj.
  destruct (Nat.eqb i j); [congruence|]. eapply safe_mono; [eapply Hs; eassumption|exact H2].
Qed.

Lemma psteps_safe {A} (Q : S -> res A -> Prop) sch : forall ps s,
  I s -> (forall j p, nth_error ps j = Some p -> safe I G Q s p) ->
  I (snd (psteps ps s sch)) /\ G s (snd (psteps ps s sch))
  /\ forall j p, nth_error (fst (psteps ps s sch)) j = Some p ->
       safe I G Q (snd (psteps ps s sch)) p.
Proof.
  induction sch as [|i t IH]; intros ps s Hi Hs; cbn; [auto|].
  destruct (pstep_safe Q ps s i Hi Hs) as (H1 & H2 & H3).
  destruct (pstep ps s i) as [ps' s'] eqn:E. cbn in *.
  destruct (IH ps' s' H1 H3) as (G1 & G2 & G3). repeat split; [exact G1| |exact G3].
  eapply Gtrans; eassumption.
Qed.

(** running alone is one of the interleavings *)
Lemma run_safe {A} (Q : S -> res A -> Prop) (p : prog S A) : forall s, I s -> safe I G Q s p ->
  I (snd (run p s)) /\ G s (snd (run p s)) /\ Q (snd (run p s)) (fst (run p s)).
Proof.
  induction p as [r|a f k IH]; intros s Hi Hs; cbn.
  - inversion Hs as [? ? Hq|]; subst. auto.
  - inversion Hs as [|? ? ? ? Hk Hk']; subst. destruct (Hk s Hi (Grefl s)) as (H1 & H2).
    pose proof (Hk' s Hi (Grefl s)) as H3.
    destruct (IH s (f s) H1 H3) as (K1 & K2 & K3). repeat split; [exact K1| |exact K3].
    eapply Gtrans; eassumption.
Qed.
End Safe.

(** A goroutine running to completion while the others wait *)
Lemma psteps_alone {S A} (p : prog S A) : forall ps s i, nth_error ps i = Some p ->
  exists n, fst (psteps ps s (repeat i n)) = firstn i ps ++ Ret (fst (run p s)) :: skipn (i + 1) ps
            /\ snd (psteps ps s (repeat i n)) = snd (run p s).
Proof.
  induction p as [r|a f k IH]; intros ps s i E.
  - exists 0. cbn. split; [|reflexivity].
    rewrite <- (firstn_skipn i ps) at 1. f_equal.
    assert (Hi : i < length ps) by (apply nth_error_Some; congruence).
    clear -E Hi. revert i E Hi. induction ps as [|x ps IHp]; intros [|i] E Hi; cbn in *; try lia.
    + congruence.
    + apply IHp; [exact E|lia].
  - set (ps' := firstn i ps ++ k s :: skipn (i + 1) ps).
    assert (E' : nth_error ps' i = Some (k s)).
    { unfold ps'. rewrite (nth_error_upd ps i i _ _ E), Nat.eqb_refl. reflexivity. }
    destruct (IH s ps' (f s) i E') as (n & H1 & H2). exists (Datatypes.S n). cbn.
    unfold pstep. rewrite E. fold ps'. cbn. rewrite H1, H2. split; [|reflexivity].
    assert (Hi : i < length ps) by (apply nth_error_Some; congruence).
    unfold ps'. rewrite firstn_app, firstn_length_le by lia.
    rewrite Nat.sub_diag, firstn_firstn, Nat.min_id. cbn. rewrite app_nil_r. f_equal. f_equal.
    rewrite skipn_app, firstn_length_le by lia.
    rewrite (skipn_all2 (firstn i ps)) by (rewrite firstn_length_le; lia). cbn.
    replace (i + 1 - i) with 1 by lia. cbn. reflexivity.
Qed.
