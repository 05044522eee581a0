(** The end of the simulator's process (C119) *)
From Coq Require Import List ZArith Bool Arith Lia.
Import ListNotations.
From Verif Require Import SimM SpecProcess.

Lemma dials_app a b : dials (a ++ b) = dials a ++ dials b.
Proof. induction a as [|[ok|i] a IH]; cbn; [reflexivity|rewrite IH; reflexivity|exact IH]. Qed.
Lemma ups_app a b : ups (a ++ b) = ups a + ups b.
Proof. unfold ups. rewrite filter_app, app_length. reflexivity. Qed.

(** the failures at the end of the list *)
Fixpoint lead (l : list bool) : nat := match l with false :: t => S (lead t) | _ => 0 end.
Definition trailing (ds : list bool) : nat := lead (rev ds).
Lemma lead_split l : exists t, l = repeat false (lead l) ++ t /\ match t with false :: _ => False | _ => True end.
Proof.
  induction l as [|[] l IH]; cbn; [exists []; auto|exists (true :: l); auto|]. destruct IH as (t & E & H). exists t. split; [f_equal; exact E|exact H].
Qed.
Lemma repeat_rev {A} (x : A) n : rev (repeat x n) = repeat x n.
Proof. induction n; cbn; [reflexivity|]. rewrite IHn. symmetry. apply repeat_cons. Qed.
Lemma trailing_split ds : exists a, ds = a ++ repeat false (trailing ds).
Proof.
  destruct (lead_split (rev ds)) as (t & E & _). exists (rev t). rewrite <- (rev_involutive ds), E at 1.
  rewrite rev_app_distr, repeat_rev. reflexivity.
Qed.
Lemma trailing_max ds a k : ds = a ++ repeat false k -> k <= trailing ds.
Proof.
  intros ->. unfold trailing. rewrite rev_app_distr, repeat_rev. induction k; cbn; lia.
Qed.
Lemma trailing_true ds : trailing (ds ++ [true]) = 0.
Proof. unfold trailing. rewrite rev_app_distr. reflexivity. Qed.
Lemma trailing_false ds : trailing (ds ++ [false]) = S (trailing ds).
Proof. unfold trailing. rewrite rev_app_distr. reflexivity. Qed.
Lemma ups_fails k : ups (repeat false k) = 0.
Proof. induction k; cbn; auto. Qed.

(** the dials that go wrong: one more result *)
Definition lost (n : nat) (ds : list bool) : Prop := exists a b, ds = a ++ repeat false 7 ++ b /\ ups a < n.
Lemma lost_more n ds b : lost n ds -> lost n (ds ++ b).
Proof. intros (x & y & -> & H). exists x, (y ++ b). rewrite <- !app_assoc. auto. Qed.
Lemma lost_snoc n ds b : ~ lost n ds -> (lost n (ds ++ [b]) <-> b = false /\ 6 <= trailing ds /\ ups ds < n).
Proof.
  intros Hn. split.
  - intros (x & y & E & H). destruct (exists_last (l := repeat false 7 ++ y)) as (z & c & Ez); [discriminate|].
    rewrite Ez, app_assoc in E. apply app_inj_tail in E. destruct E as (E & ->).
    destruct y as [|y0 y] using rev_ind; [|clear IHy].
    + change (repeat false 7 ++ []) with (repeat false 6 ++ [false]) in Ez. apply app_inj_tail in Ez. destruct Ez as (<- & <-).
      split; [reflexivity|]. split; [eapply trailing_max; exact E|]. rewrite E, ups_app, ups_fails. lia.
    + rewrite app_assoc in Ez. apply app_inj_tail in Ez. destruct Ez as (<- & _). destruct Hn. exists x, y. auto.
  - intros (-> & Ht & Hu). destruct (trailing_split ds) as (a & E).
    exists (a ++ repeat false (trailing ds - 6)), []. split.
    + rewrite E at 1. replace (trailing ds) with ((trailing ds - 6) + 6) at 1 by lia. rewrite repeat_app, <- !app_assoc. reflexivity.
    + rewrite E, ups_app, ups_fails in Hu. rewrite ups_app, ups_fails. exact Hu.
Qed.

Definition over_ok (n : nat) (x : sim) (evs : list simEv) : Prop :=
  NoDup (sm_over x) /\ (forall i, In i (sm_over x) <-> i < n /\ came_and_went i evs) /\ sm_wg x = (Z.of_nat n - Z.of_nat (length (sm_over x)))%Z.
(** the state after [evs] *)
Definition after (n : nat) (x : sim) (evs : list simEv) : Prop :=
  match sm_end x with
  | Some s => (s = 1%Z /\ hopeless n evs) \/ (s = 0%Z /\ ~ hopeless n evs /\ forall i, i < n -> came_and_went i evs)
  | None => ~ hopeless n evs /\ sm_up x = min n (ups (dials evs)) /\ (sm_up x < n -> sm_retry x = S (trailing (dials evs)) /\ trailing (dials evs) <= 6)
            /\ over_ok n x evs /\ (exists i, i < n /\ ~ came_and_went i evs)
  end.
Lemma came_snoc i evs ev : came_and_went i (evs ++ [ev]) <-> came_and_went i evs \/ (ev = SStop i /\ i < ups (dials evs)).
Proof.
  split.
  - intros (a & b & E & H). destruct b as [|b0 b] using rev_ind; [|clear IHb].
    + apply app_inj_tail in E. destruct E as (-> & ->). auto.
    + rewrite app_comm_cons, app_assoc in E. apply app_inj_tail in E. destruct E as (-> & _). left. exists a, b. auto.
  - intros [(a & b & -> & H)|(-> & H)]; [exists a, (b ++ [ev])|exists evs, []]; rewrite <- ?app_assoc; auto.
Qed.
Lemma came_up i evs : came_and_went i evs -> i < ups (dials evs).
Proof. intros (a & b & -> & H). rewrite dials_app, ups_app. lia. Qed.
Lemma full n l : NoDup l -> (forall i, In i l -> i < n) -> length l = n -> forall i, i < n -> In i l.
Proof.
  intros Hd Hl E i Hi. assert (Hincl : incl l (seq 0 n)) by (intros j Hj; apply in_seq; specialize (Hl j Hj); lia).
  assert (Hback : incl (seq 0 n) l) by (apply NoDup_length_incl; [exact Hd|rewrite seq_length; lia|exact Hincl]).
  apply Hback, in_seq. lia.
Qed.
(** Wait *)
Lemma waits_after n x evs : sm_end x = None -> ~ hopeless n evs -> sm_up x = min n (ups (dials evs)) ->
  (sm_up x < n -> sm_retry x = S (trailing (dials evs)) /\ trailing (dials evs) <= 6) -> over_ok n x evs -> after n (waits (Z.of_nat n) x) evs.
Proof.
  intros He Hh Hu Hr (Ho1 & Ho2 & Ho3). unfold waits.
  destruct (Z.geb_spec (Z.of_nat (sm_up x)) (Z.of_nat n)); cbn [andb].
  2:{ unfold after. rewrite He. split; [exact Hh|]. split; [exact Hu|]. split; [exact Hr|]. split; [split; auto|].
      exists (sm_up x). split; [lia|]. intros Hc. apply came_up in Hc. lia. }
  destruct (Z.eqb_spec (sm_wg x) 0).
  - cbn. right. split; [reflexivity|]. split; [exact Hh|]. intros i Hi. apply Ho2. apply (full n); [exact Ho1| |lia|exact Hi].
    intros j Hj. apply Ho2 in Hj. tauto.
  - unfold after. rewrite He. split; [exact Hh|]. split; [exact Hu|]. split; [exact Hr|]. split; [split; auto|].
    destruct (Forall_Exists_dec (fun i => In i (sm_over x)) (fun i => in_dec Nat.eq_dec i (sm_over x)) (seq 0 n)) as [Ha|Hx].
    + exfalso. rewrite Forall_forall in Ha. assert (n <= length (sm_over x)).
      { rewrite <- (seq_length n 0). apply NoDup_incl_length; [apply seq_NoDup|exact Ha]. }
      assert (length (sm_over x) <= n).
      { rewrite <- (seq_length n 0). apply NoDup_incl_length; [exact Ho1|]. intros j Hj. apply Ho2 in Hj. apply in_seq. lia. }
      lia.
    + apply Exists_exists in Hx. destruct Hx as (i & Hi & Hni). apply in_seq in Hi. exists i. split; [lia|]. intros Hc. apply Hni, Ho2. split; [lia|exact Hc].
Qed.
Lemma over_more n x x' evs ev : (forall i, ev = SStop i -> i < n -> i < ups (dials evs) -> came_and_went i evs) ->
  sm_over x' = sm_over x -> sm_wg x' = sm_wg x -> over_ok n x evs -> over_ok n x' (evs ++ [ev]).
Proof.
  intros Hev E1 E2 (H1 & H2 & H3). unfold over_ok. rewrite E1, E2. split; [exact H1|]. split; [|exact H3].
  intros i. rewrite H2, came_snoc. split; [tauto|]. intros (Hi & [Hc|(-> & Hu)]); [tauto|]. split; [exact Hi|]. apply (Hev i eq_refl Hi Hu).
Qed.
Lemma step_after n x evs ev : after n x evs -> after n (simStep (Z.of_nat n) x ev) (evs ++ [ev]).
Proof.
  unfold simStep. destruct (sm_end x) as [s|] eqn:He.
  - unfold after. rewrite He. intros [(-> & a & b & E & Hu)|(-> & Hh & Hc)]; [left|right]; (split; [reflexivity|]).
    + unfold hopeless. rewrite dials_app. apply lost_more. exists a, b. auto.
    + split; [|intros i Hi; apply came_snoc; left; apply Hc; exact Hi].
      intros H. unfold hopeless in H. rewrite dials_app in H. destruct ev as [ok|i]; cbn [dials] in H; [|rewrite app_nil_r in H; exact (Hh H)].
      apply (lost_snoc n _ ok Hh) in H. destruct H as (_ & _ & H). destruct n as [|n]; [lia|].
      specialize (Hc n (Nat.lt_succ_diag_r n)). apply came_up in Hc. lia.
  - unfold after at 1. rewrite He. intros (Hh & Hu & Hr & Ho & _).
    destruct ev as [ok|i].
    + destruct (Z.ltb_spec (Z.of_nat (sm_up x)) (Z.of_nat n)) as [Hlt|Hge].
      * assert (Hun : ups (dials evs) < n) by lia. destruct (Hr ltac:(lia)) as (Hr1 & Hr2).
        assert (Ho' : forall x', sm_over x' = sm_over x -> sm_wg x' = sm_wg x -> over_ok n x' (evs ++ [SDial ok])).
        { intros x' E1 E2. apply (over_more n x x'); auto. discriminate. }
        assert (Hd : dials (evs ++ [SDial ok]) = dials evs ++ [ok]) by (rewrite dials_app; reflexivity).
        unfold dialled. destruct ok.
        -- apply waits_after; cbn; [reflexivity| | | |apply Ho'; reflexivity].
           ++ unfold hopeless. rewrite Hd. intros H. apply (lost_snoc n _ true Hh) in H. destruct H as (H & _). discriminate.
           ++ rewrite Hd, ups_app. cbn. lia.
           ++ intros _. rewrite Hd, trailing_true. lia.
        -- rewrite Hr1. destruct (Nat.ltb_spec retryMaxCnt (S (trailing (dials evs)))) as [Hm|Hm]; unfold retryMaxCnt in Hm.
           ++ unfold waits. cbn. assert (Hw : (Z.of_nat (sm_up x) >=? Z.of_nat n)%Z = false) by lia. rewrite Hw. cbn. left.
              split; [reflexivity|]. unfold hopeless. rewrite Hd. apply (lost_snoc n _ false Hh). split; [reflexivity|]. lia.
           ++ apply waits_after; cbn; [reflexivity| | | |apply Ho'; reflexivity].
              ** unfold hopeless. rewrite Hd. intros H. apply (lost_snoc n _ false Hh) in H. lia.
              ** rewrite Hd, ups_app. cbn. lia.
              ** intros _. rewrite Hd, trailing_false. lia.
      * apply waits_after; [exact He| | |intros; lia|].
        -- unfold hopeless. rewrite dials_app. cbn. intros H. apply (lost_snoc n _ ok Hh) in H. lia.
        -- rewrite dials_app, ups_app. lia.
        -- apply (over_more n x x); auto. discriminate.
    + assert (Hd : dials (evs ++ [SStop i]) = dials evs) by (rewrite dials_app; cbn; apply app_nil_r).
      assert (Hh' : ~ hopeless n (evs ++ [SStop i])) by (unfold hopeless; rewrite Hd; exact Hh).
      destruct (Nat.ltb_spec i (sm_up x)) as [Hi|Hi]; cbn [andb].
      * destruct (existsb (Nat.eqb i) (sm_over x)) eqn:Ee; cbn [negb].
        -- apply existsb_exists in Ee. destruct Ee as (j & Hj & Ej). apply Nat.eqb_eq in Ej. subst j.
           apply waits_after; rewrite ?Hd; auto. apply (over_more n x x); auto. intros k [= <-] _ _. apply Ho in Hj. tauto.
        -- apply waits_after; cbn; rewrite ?Hd; auto. destruct Ho as (H1 & H2 & H3). unfold over_ok.
           assert (Hn : ~ In i (sm_over x)).
           { intros H. rewrite <- not_true_iff_false in Ee. apply Ee, existsb_exists. exists i. split; [exact H|apply Nat.eqb_refl]. }
           split; [constructor; assumption|]. split; [|unfold stopped; cbn [sm_over sm_wg length]; lia].
           unfold stopped; cbn [sm_over]. intros j. cbn [In]. rewrite H2, came_snoc. split.
           ++ intros [<-|(Hj & Hc)]; [|tauto]. split; [lia|]. right. split; [reflexivity|lia].
           ++ intros (Hj & [Hc|([= ->] & _)]); auto.
      * apply waits_after; rewrite ?Hd; auto. apply (over_more n x x); auto. intros k [= <-] Hk Hk'. lia.
Qed.
Lemma not_yet n : ~ hopeless n [].
Proof. intros (a & b & E & _). destruct a; discriminate. Qed.
Lemma run_after n evs : after n (simRun (Z.of_nat n) evs) evs.
Proof.
  induction evs as [|ev evs IH] using rev_ind.
  - unfold simRun, simStart. cbn [fold_left]. destruct (Z.ltb_spec (Z.of_nat n) 0); [lia|].
    apply waits_after; cbn; [reflexivity|apply not_yet|lia|intros _; split; [reflexivity|lia]|].
    split; [constructor|]. split; [|cbn; lia]. intros i. split; [intros []|]. intros (_ & a & b & E & _). destruct a; discriminate.
  - unfold simRun. rewrite fold_left_app. cbn [fold_left]. apply step_after, IH.
Qed.

Theorem sim_exit n evs : sm_end (simRun (Z.of_nat n) evs) = Some 1%Z <-> hopeless n evs.
Proof.
  pose proof (run_after n evs) as H. unfold after in H. destruct (sm_end _) as [s|].
  - destruct H as [(-> & H)|(-> & H & _)]; [tauto|]. split; [discriminate|contradiction].
  - split; [discriminate|]. intros Hh. destruct H as (H & _). contradiction.
Qed.
Theorem sim_done n evs : sm_end (simRun (Z.of_nat n) evs) = Some 0%Z <-> ~ hopeless n evs /\ forall i, i < n -> came_and_went i evs.
Proof.
  pose proof (run_after n evs) as H. unfold after in H. destruct (sm_end _) as [s|].
  - destruct H as [(-> & H)|(-> & H)]; [|tauto]. split; [discriminate|]. intros (Hn & _). contradiction.
  - split; [discriminate|]. intros (_ & Hc). destruct H as (_ & _ & _ & _ & i & Hi & Hni). destruct (Hni (Hc i Hi)).
Qed.
Theorem sim_status n evs s : sm_end (simRun (Z.of_nat n) evs) = Some s -> s = 0%Z \/ s = 1%Z.
Proof. intros E. pose proof (run_after n evs) as H. unfold after in H. rewrite E in H. tauto. Qed.
(** seven failed calls end the process, however many terminals are running *)
Theorem sim_ends_all n evs : sm_end (simRun (Z.of_nat n) evs) = None -> ups (dials evs) < n ->
  sm_end (simRun (Z.of_nat n) (evs ++ repeat (SDial false) 7)) = Some 1%Z.
Proof.
  intros _ Hu. apply sim_exit. exists (dials evs), []. split; [rewrite dials_app; reflexivity|exact Hu].
Qed.
