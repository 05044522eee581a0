(** Every execution comes to an end (C120) *)
From stdpp Require Import gmap relations.
From Verif Require Import Base HexM TimeM HeaderM ParamsM GeoM MsgM PacketM FrameM ProgM ProgP RingM
  StateM ProcM ServerM ConcM LockM SpecState SpecEnd LockP.

(** ** What is left to do becomes less *)
Inductive below : sp unit -> sp unit -> Prop := below_k a f k s : below (k s) (Act a f k).
Lemma below_wf p : Acc below p.
Proof. induction p as [r|a f k IH]; constructor; intros q H; inversion H; subst. apply IH. Qed.
(** a thread has entered a section, or done an action *)
Inductive less : thread -> thread -> Prop :=
| less_in h p r : less (mkTh h (Some p) r) (mkTh h None r)
| less_act h h' i i' q p : below q p -> less (mkTh h' i' q) (mkTh h i p).
Lemma less_wf t : Acc less t.
Proof.
  destruct t as [h i p]. revert h i. pose proof (below_wf p) as H. induction H as [p _ IH]. intros h i.
  assert (Hs : forall h x, Acc less (mkTh h (Some x) p)).
  { intros h' x. constructor. intros t Ht. inversion Ht; subst. apply IH. assumption. }
  destruct i as [x|]; [apply Hs|]. constructor. intros t Ht. inversion Ht; subst; [apply Hs|]. apply IH. assumption.
Qed.
Inductive oneless : list thread -> list thread -> Prop :=
| ol_head t t' ts : less t' t -> oneless (t' :: ts) (t :: ts)
| ol_tail t ts ts' : oneless ts' ts -> oneless (t :: ts') (t :: ts).
Lemma oneless_wf ts : Acc oneless ts.
Proof.
  induction ts as [|t ts IH].
  { constructor. intros ts H. inversion H. }
  pose proof (less_wf t) as Ht. revert ts IH. induction Ht as [t Ht1 Ht2]. intros ts IH. induction IH as [ts H1 H2].
  constructor. intros ts' H. inversion H as [? t' ? Hl|? ? ts2 Hl]; subst.
  - apply Ht2; [exact Hl|]. constructor. exact H1.
  - apply H2. exact Hl.
Qed.
Lemma move_less fr t v t' v' : lmove fr t v t' v' -> less t' t \/ t' = t.
Proof. intros H. destruct H; first [right; reflexivity|left; solve [constructor]|left; constructor; constructor]. Qed.
Lemma oneless_insert ts i t t' : ts !! i = Some t -> less t' t -> oneless (<[i := t']> ts) ts.
Proof.
  revert i. induction ts as [|x ts IH]; intros i H Hl; [discriminate|]. destruct i as [|i]; cbn in *.
  - injection H as ->. constructor. exact Hl.
  - constructor. apply IH; assumption.
Qed.
Lemma step_less c c' : lstep c c' -> oneless (fst c') (fst c) \/ fst c' = fst c.
Proof.
  intros (i & t & t' & Hi & Hm & ->). destruct (move_less _ _ _ _ _ Hm) as [Hl| ->].
  - left. eapply oneless_insert; eassumption.
  - right. apply list_insert_id. exact Hi.
Qed.
(** ** No execution goes on for ever *)
Theorem no_endless f : execution f -> ~ forall n, exists m, n <= m /\ goes_on f m.
Proof.
  intros He Hinf. assert (H : forall ts, Acc oneless ts -> forall n, fst (f n) = ts -> False); [|exact (H _ (oneless_wf _) 0 eq_refl)].
  intros ts Ha. induction Ha as [ts _ IH]. intros n En. destruct (Hinf n) as (m & Hm & Hg).
  assert (Hk : forall k, n <= k -> k <= m -> fst (f k) = ts).
  { intros k Hk. induction Hk as [|k Hk IHk]; intros Hle; [exact En|].
    destruct (step_less _ _ (He k)) as [Hl|E]; [|rewrite E; apply IHk; lia].
    exfalso. rewrite (IHk ltac:(lia)) in Hl. exact (IH _ Hl (S k) eq_refl). }
  destruct (step_less _ _ (He m)) as [Hl|E]; [|exact (Hg E)]. rewrite (Hk m Hm (le_n m)) in Hl. exact (IH _ Hl (S m) eq_refl).
Qed.
(** ** ... and none rests before everything is done *)
Lemma less_irrefl t : ~ less t t.
Proof. intros H. induction (less_wf t) as [t _ IH]. exact (IH t H H). Qed.
Lemma move_anywhere fr t v t' v' w : lmove fr t v t' v' -> t' = t \/ exists t2 w2, lmove fr t w t2 w2 /\ less t2 t.
Proof.
  intros H. destruct H as [h a f k v m H1 H2 H3 H4|h p r v q H|h p a f k v|h a f k v H1 H2 H3|h a f k v m H1 H2 H3 H4|h h' a f k v m H1 H2 H3 H4];
    [right|left; reflexivity|right..].
  - eexists _, _. split; [eapply l_enter; eassumption|constructor].
  - eexists _, _. split; [eapply l_leave|constructor; constructor].
  - eexists _, _. split; [eapply l_plain; eassumption|constructor; constructor].
  - eexists _, _. split; [eapply l_take; eassumption|constructor; constructor].
  - eexists _, _. split; [eapply l_give; eassumption|constructor; constructor].
Qed.
Lemma rest_stays c c' : rtc lstep c c' -> forall w, at_rest (fst c, w) -> fst c' = fst c.
Proof.
  intros H. induction H as [c|c d c' Hs _ IH]; intros w Hr; [reflexivity|].
  assert (E : fst d = fst c).
  { destruct Hs as (i & t & t' & Hi & Hm & E). destruct (move_anywhere _ _ _ _ _ w Hm) as [->|(t2 & w2 & Hm2 & Hl)].
    - rewrite E. apply list_insert_id. exact Hi.
    - exfalso. assert (Hd : lstep (fst c, w) (<[i := t2]> (fst c), w2)) by (exists i, t, t2; auto).
      apply Hr in Hd. cbn in Hd. assert (Ht : <[i := t2]> (fst c) !! i = Some t) by (rewrite Hd; exact Hi).
      rewrite list_lookup_insert in Ht by (eapply lookup_lt_Some; exact Hi). injection Ht as ->. exact (less_irrefl t Hl). }
  rewrite <- E. apply (IH w). rewrite E. exact Hr.
Qed.
Theorem rest_done e gs s c : rtc lstep (lstart e gs, s) c -> at_rest c -> forall t, In t (fst c) -> finished t.
Proof.
  intros H Hr t Ht. destruct (no_deadlock e gs s c H) as (c' & H' & Hf). apply Hf.
  rewrite (rest_stays c c' H' (snd c)); [exact Ht|]. destruct c. exact Hr.
Qed.
Theorem rest_iff e gs s c : rtc lstep (lstart e gs, s) c -> at_rest c <-> forall t, In t (fst c) -> finished t.
Proof.
  intros H. split; [apply rest_done with e gs s; exact H|]. intros Hf c' (i & t & t' & Hi & Hm & _). exfalso.
  destruct (Hf t) as (_ & E2 & r & E3); [apply elem_of_list_In, elem_of_list_lookup; eauto|].
  destruct Hm; cbn in *; congruence.
Qed.
