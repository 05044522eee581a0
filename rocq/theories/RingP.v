(** Proofs about the ring buffer and the serial numbers *)
From Coq Require Import ZifyBool ZifyNat ZifyN.
From Verif Require Import Base ProgM RingM SpecRing ProgP.
Ltac Zify.zify_post_hook ::= Z.div_mod_to_equations.
Local Open Scope Z_scope.

Section Ring.
Context {A : Type}.
Implicit Types r : ring A.

Definition upd {B} (sl : list B) (i : nat) (v : B) : list B := firstn i sl ++ v :: skipn (S i) sl.
Lemma upd_len {B} (sl : list B) i v : (i < length sl)%nat -> length (upd sl i v) = length sl.
Proof. intros H. unfold upd. rewrite app_length. cbn [length]. rewrite firstn_length_le, skipn_length; lia. Qed.
Lemma upd_nth {B} (sl : list B) i j v : (i < length sl)%nat ->
  nth_error (upd sl i v) j = if Nat.eqb i j then Some v else nth_error sl j.
Proof.
  intros H. destruct (nth_error sl i) as [y|] eqn:E.
  - unfold upd. replace (S i) with (i + 1)%nat by lia. eapply nth_error_upd; eassumption.
  - apply nth_error_None in E. lia.
Qed.

Lemma inRange_iff i (sl : list (option A)) : inRange i sl = true <-> 0 <= i < Z.of_nat (length sl).
Proof. unfold inRange. lia. Qed.

(** * Sequential behaviour *)
Lemma run_write l v r : ring_ok r ->
  run (ringWrite l v) r =
  (Ok tt, mkRing (rg_size r) (upd (rg_slots r) (Z.to_nat (rg_writer r)) v) (rg_reader r)
                 (Z.rem (rg_writer r + 1) (rg_size r))).
Proof.
  intros (Hs & Hl & Hr & Hw). unfold ringWrite, loadWriter, setSlot, storeWriter, rd1, wr1.
  cbn. assert (E : inRange (rg_writer r) (rg_slots r) = true) by (apply inRange_iff; lia).
  rewrite E. reflexivity.
Qed.

Lemma nth_error_some_nth {B} (l : list B) i d : (i < length l)%nat -> nth_error l i = Some (nth i l d).
Proof. intros H. apply nth_error_nth'. exact H. Qed.

Lemma run_read l r : ring_ok r ->
  run (ringRead l) r =
  (Ok (nth (Z.to_nat (rg_reader r)) (rg_slots r) None),
   set_reader r (Z.rem (rg_reader r + 1) (rg_size r))).
Proof.
  intros (Hs & Hl & Hr & Hw). unfold ringRead, loadReader, getSlot, seekReader, storeReader, rd1, wr1.
  cbn. assert (E : inRange (rg_reader r) (rg_slots r) = true) by (apply inRange_iff; lia).
  rewrite E. reflexivity.
Qed.

Lemma run_latest l r : ring_ok r ->
  run (ringLatest l) r =
  (Ok (if rg_writer r =? 0 then None else nth (Z.to_nat (rg_writer r - 1)) (rg_slots r) None), r).
Proof.
  intros (Hs & Hl & Hr & Hw). unfold ringLatest, loadWriter, getSlot, rd1. cbn.
  destruct (rg_writer r =? 0) eqn:E0; [reflexivity|]. cbn.
  rewrite Z.rem_small by lia.
  assert (E : inRange (rg_writer r - 1) (rg_slots r) = true) by (apply inRange_iff; lia).
  rewrite E. reflexivity.
Qed.

Lemma run_oldest l r : ring_ok r ->
  run (ringOldest l) r = (Ok (nth (Z.to_nat (rg_writer r)) (rg_slots r) None), r).
Proof.
  intros (Hs & Hl & Hr & Hw). unfold ringOldest, loadWriter, getSlot, rd1. cbn.
  assert (E : inRange (rg_writer r) (rg_slots r) = true) by (apply inRange_iff; lia).
  rewrite E. reflexivity.
Qed.

Lemma run_overwrite l v r : ring_ok r ->
  run (ringOverwrite l v) r =
  (Ok tt, set_slots r (upd (rg_slots r) (Z.to_nat (rg_writer r)) v)).
Proof.
  intros (Hs & Hl & Hr & Hw). unfold ringOverwrite, loadWriter, setSlot, rd1. cbn.
  assert (E : inRange (rg_writer r) (rg_slots r) = true) by (apply inRange_iff; lia).
  rewrite E. reflexivity.
Qed.

Lemma ok_set_slots r i v : ring_ok r -> 0 <= i < rg_size r ->
  ring_ok (set_slots r (upd (rg_slots r) (Z.to_nat i) v)).
Proof.
  intros (H1 & H2 & H3 & H4) Hi. unfold ring_ok, set_slots. cbn [rg_size rg_slots rg_reader rg_writer].
  rewrite upd_len by lia. auto.
Qed.
Lemma ok_set_writer r i : ring_ok r -> 0 <= i < rg_size r -> ring_ok (set_writer r i).
Proof. intros (H1 & H2 & H3 & H4) Hi. unfold ring_ok, set_writer. cbn. auto. Qed.
Lemma ok_set_reader r i : ring_ok r -> 0 <= i < rg_size r -> ring_ok (set_reader r i).
Proof. intros (H1 & H2 & H3 & H4) Hi. unfold ring_ok, set_reader. cbn. auto. Qed.

(** state after [ws] writes and [k] reads *)
Definition rinv (n : nat) (ws : list A) (k : nat) r : Prop :=
  (0 < n)%nat /\ rg_size r = Z.of_nat n /\ window n ws (rg_slots r)
  /\ rg_writer r = Z.of_nat (length ws mod n) /\ rg_reader r = Z.of_nat (k mod n).

Lemma rinv_ok n ws k r : rinv n ws k r -> ring_ok r.
Proof.
  intros (Hn & Hs & (Hl & _) & Hw & Hr). unfold ring_ok. rewrite Hs, Hw, Hr, Hl.
  pose proof (Nat.mod_upper_bound (length ws) n). pose proof (Nat.mod_upper_bound k n). lia.
Qed.

Lemma rinv_new n : (0 < n)%nat -> rinv n [] 0 (newRing (Z.of_nat n)).
Proof.
  intros Hn. unfold newRing. split; [exact Hn|]. cbn. split; [reflexivity|].
  rewrite Nat2Z.id, !Nat.mod_0_l by lia. split; [|split; reflexivity].
  split; [apply repeat_length|]. split.
  - intros j x Hj. destruct j; discriminate.
  - intros i Hi. cbn in Hi. rewrite nth_error_repeat by lia. reflexivity.
Qed.

Lemma mod_succ_rem k n : (0 < n)%nat ->
  Z.rem (Z.of_nat (k mod n) + 1) (Z.of_nat n) = Z.of_nat (S k mod n).
Proof.
  intros Hn. rewrite Z.rem_mod_nonneg by lia.
  rewrite !Nat2Z.inj_mod. rewrite Nat2Z.inj_succ, Zplus_mod_idemp_l. reflexivity.
Qed.

Lemma mod_close a b n : (0 < n)%nat -> (a < b)%nat -> (b < a + n)%nat -> (a mod n <> b mod n)%nat.
Proof.
  intros Hn H1 H2 E.
  pose proof (Nat.div_mod a n). pose proof (Nat.div_mod b n).
  pose proof (Nat.mod_upper_bound a n).
  assert (b / n <= a / n \/ a / n + 1 <= b / n)%nat as [?|?] by lia.
  - assert (n * (b / n) <= n * (a / n))%nat by (apply Nat.mul_le_mono_l; lia). lia.
  - assert (n * (a / n + 1) <= n * (b / n))%nat by (apply Nat.mul_le_mono_l; lia). lia.
Qed.

Lemma window_write n (ws : list A) sl v : (0 < n)%nat -> window n ws sl ->
  window n (ws ++ [v]) (upd sl (length ws mod n) (Some v)).
Proof.
  intros Hn (Hl & Hj & He). pose proof (Nat.mod_upper_bound (length ws) n ltac:(lia)) as Hb.
  split; [rewrite upd_len; lia|]. rewrite app_length. cbn [length]. split.
  - intros j x Hx Hw. rewrite upd_nth by lia.
    destruct (Nat.lt_ge_cases j (length ws)) as [Hlt|Hge].
    + rewrite nth_error_app1 in Hx by exact Hlt.
      destruct (Nat.eqb_spec (length ws mod n) (j mod n)) as [E|E].
      * exfalso. symmetry in E. revert E. apply mod_close; lia.
      * apply Hj; [exact Hx|lia].
    + assert (j = length ws) as ->.
      { assert (j < length (ws ++ [v]))%nat by (apply nth_error_Some; congruence).
        rewrite app_length in *. cbn in *. lia. }
      rewrite nth_error_app2, Nat.sub_diag in Hx by lia. cbn in Hx. rewrite Nat.eqb_refl. congruence.
  - intros i Hi. rewrite upd_nth by lia. rewrite Nat.mod_small by lia.
    destruct (Nat.eqb_spec (length ws) i); [lia|]. apply He. lia.
Qed.

Lemma rinv_write n ws k r l v : rinv n ws k r ->
  exists r', run (ringWrite l (Some v)) r = (Ok tt, r') /\ rinv n (ws ++ [v]) k r'.
Proof.
  intros H. rewrite (run_write _ _ _ (rinv_ok _ _ _ _ H)). destruct H as (Hn & Hs & Hw & Hwr & Hrd).
  eexists. split; [reflexivity|]. split; [exact Hn|]. cbn. rewrite Hs, Hwr, Nat2Z.id.
  split; [reflexivity|]. split; [apply window_write; assumption|]. split; [|exact Hrd].
  rewrite app_length. cbn [length]. replace (length ws + 1)%nat with (S (length ws)) by lia.
  apply mod_succ_rem. exact Hn.
Qed.

Lemma window_slot n (ws : list A) sl i : (0 < n)%nat -> window n ws sl -> (i < n)%nat ->
  slot_after n ws i (nth i sl None).
Proof.
  intros Hn (Hl & Hj & He) Hi.
  destruct (Nat.lt_ge_cases i (length ws)) as [Hlt|Hge].
  - left. set (q := (length ws - 1 - i)%nat).
    set (j := (i + n * (q / n))%nat).
    assert (Hq : (n * (q / n) <= q < n * (q / n) + n)%nat).
    { pose proof (Nat.div_mod q n ltac:(lia)). pose proof (Nat.mod_upper_bound q n ltac:(lia)). lia. }
    assert (Hjm : (j mod n = i)%nat).
    { unfold j. rewrite Nat.mul_comm, Nat.mod_add by lia. apply Nat.mod_small. exact Hi. }
    destruct (nth_error ws j) as [x|] eqn:Ex.
    + exists j, x. split; [exact Ex|]. split; [exact Hjm|]. split; [unfold j, q in *; lia|].
      assert (E : nth_error sl i = Some (Some x)) by (rewrite <- Hjm; apply Hj; [exact Ex|unfold j, q in *; lia]).
      apply nth_error_nth with (d := None) in E. exact E.
    + apply nth_error_None in Ex. exfalso. unfold j, q in *. lia.
  - right. split; [exact Hge|].
    assert (E : nth_error sl i = Some None) by (apply He; lia).
    apply nth_error_nth with (d := None) in E. exact E.
Qed.

Lemma rinv_read n ws k r l : rinv n ws k r ->
  exists v r', run (ringRead l) r = (Ok v, r') /\ slot_after n ws (k mod n) v /\ rinv n ws (S k) r'.
Proof.
  intros H. rewrite (run_read _ _ (rinv_ok _ _ _ _ H)). destruct H as (Hn & Hs & Hw & Hwr & Hrd).
  eexists _, _. split; [reflexivity|]. rewrite Hrd, Nat2Z.id. split.
  - apply window_slot; [exact Hn|exact Hw|]. apply Nat.mod_upper_bound. lia.
  - split; [exact Hn|]. cbn. rewrite Hs. split; [reflexivity|]. split; [exact Hw|].
    split; [exact Hwr|]. apply mod_succ_rem. exact Hn.
Qed.

Lemma ringOps_spec l n ops : forall ws k r, rinv n ws k r ->
  exists rs r', run (ringOps l ops) r = (Ok rs, r')
    /\ rinv n (ws ++ written ops) (k + reads_in ops) r'
    /\ length rs = reads_in ops
    /\ forall pre post, ops = pre ++ RRead :: post ->
         exists v, nth_error rs (reads_in pre) = Some v
                   /\ slot_after n (ws ++ written pre) ((k + reads_in pre) mod n) v.
Proof.
  induction ops as [|o ops IH]; intros ws k r H; cbn [ringOps].
  - exists [], r. cbn. rewrite app_nil_r, Nat.add_0_r. repeat split; try assumption; try apply H.
    intros [|? ?] post E; discriminate.
  - destruct o as [v|].
    + destruct (rinv_write n ws k r l v H) as (r1 & E1 & H1).
      destruct (IH _ _ _ H1) as (rs & r' & E & Hinv & Hlen & Hrd).
      exists rs, r'. rewrite run_bind, E1, E. split; [reflexivity|].
      change (written (RWrite v :: ops)) with ([v] ++ written ops). rewrite app_assoc.
      split; [exact Hinv|]. split; [exact Hlen|]. intros pre post Ep.
      destruct pre as [|o pre]; cbn in Ep; [discriminate|]. injection Ep as <- Ep.
      destruct (Hrd pre post Ep) as (x & Hx & Hs). exists x. split; [exact Hx|].
      change (written (RWrite v :: pre)) with ([v] ++ written pre). rewrite app_assoc. exact Hs.
    + destruct (rinv_read n ws k r l H) as (x & r1 & E1 & Hx & H1).
      destruct (IH _ _ _ H1) as (rs & r' & E & Hinv & Hlen & Hrd).
      exists (x :: rs), r'. rewrite run_bind, E1, run_bind, E. split; [reflexivity|].
      change (written (RRead :: ops)) with (written ops).
      assert (Er : reads_in (RRead :: ops) = S (reads_in ops)) by reflexivity. rewrite Er.
      split; [replace (k + S (reads_in ops))%nat with (S k + reads_in ops)%nat by lia; exact Hinv|].
      split; [cbn; lia|]. intros pre post Ep.
      destruct pre as [|o pre]; cbn in Ep.
      * exists x. cbn. rewrite app_nil_r, Nat.add_0_r. split; [reflexivity|exact Hx].
      * injection Ep as <- Ep. destruct (Hrd pre post Ep) as (y & Hy & Hs). exists y.
        assert (Er' : reads_in (RRead :: pre) = S (reads_in pre)) by reflexivity. rewrite Er'.
        split; [exact Hy|]. change (written (RRead :: pre)) with (written pre).
        replace (k + S (reads_in pre))%nat with (S k + reads_in pre)%nat by lia. exact Hs.
Qed.

(** C38 *)
Lemma ring_window l n ops : (0 < n)%nat ->
  exists rs r, run (ringOps l ops) (newRing (Z.of_nat n)) = (Ok rs, r)
    /\ window n (written ops) (rg_slots r) /\ length rs = reads_in ops
    /\ (forall pre post, ops = pre ++ RRead :: post ->
          exists v, nth_error rs (reads_in pre) = Some v
                    /\ slot_after n (written pre) (reads_in pre mod n) v)
    /\ ((n <= length (written ops))%nat ->
          exists x, nth_error (written ops) (length (written ops) - n) = Some x
                    /\ run (ringOldest l) r = (Ok (Some x), r))
    /\ ((length (written ops) < n)%nat -> run (ringOldest l) r = (Ok None, r)).
Proof.
  intros Hn. destruct (ringOps_spec l n ops [] 0 _ (rinv_new n Hn)) as (rs & r & E & H & Hlen & Hrd).
  cbn [app Nat.add] in *. exists rs, r. split; [exact E|].
  pose proof (rinv_ok _ _ _ _ H) as Hok. destruct H as (_ & Hs & Hw & Hwr & _).
  split; [exact Hw|]. split; [exact Hlen|]. split; [exact Hrd|].
  rewrite (run_oldest l r Hok), Hwr, Nat2Z.id.
  assert (Hb : (length (written ops) mod n < n)%nat) by (apply Nat.mod_upper_bound; lia).
  destruct Hw as (Hl & Hj & He). split; intros Hc.
  - destruct (nth_error (written ops) (length (written ops) - n)) as [x|] eqn:Ex.
    + exists x. split; [reflexivity|]. f_equal. f_equal.
      pose proof (Hj _ _ Ex ltac:(lia)) as Hx.
      assert (Em : ((length (written ops) - n) mod n = length (written ops) mod n)%nat).
      { replace (length (written ops)) with ((length (written ops) - n) + 1 * n)%nat at 2 by lia.
        rewrite Nat.mod_add by lia. reflexivity. }
      rewrite Em in Hx. apply nth_error_nth with (d := None) in Hx. exact Hx.
    + apply nth_error_None in Ex. lia.
  - rewrite Nat.mod_small by exact Hc. f_equal. f_equal.
    assert (Hx : nth_error (rg_slots r) (length (written ops)) = Some None) by (apply He; lia).
    apply nth_error_nth with (d := None) in Hx. exact Hx.
Qed.

(** C37 *)
Lemma ring_latest l n ops rs r : (0 < n)%nat ->
  run (ringOps l ops) (newRing (Z.of_nat n)) = (Ok rs, r) ->
  run (ringLatest l) r =
  (Ok (if (length (written ops) mod n =? 0)%nat then None else last_of (written ops)), r).
Proof.
  intros Hn E0. destruct (ringOps_spec l n ops [] 0 _ (rinv_new n Hn)) as (rs' & r' & E & H & _).
  rewrite E0 in E. injection E as <- <-. cbn [app Nat.add] in H.
  rewrite (run_latest l r (rinv_ok _ _ _ _ H)). destruct H as (_ & Hs & Hw & Hwr & _).
  rewrite Hwr. f_equal. f_equal.
  destruct (Nat.eqb_spec (length (written ops) mod n) 0) as [E|E].
  - rewrite E. reflexivity.
  - destruct (Z.eqb_spec (Z.of_nat (length (written ops) mod n)) 0) as [E'|E']; [lia|].
    replace (Z.to_nat (Z.of_nat (length (written ops) mod n) - 1)) with (length (written ops) mod n - 1)%nat by lia.
    destruct (written ops) as [|a l0] eqn:Ew using rev_ind; [exfalso; apply E; apply Nat.mod_0_l; lia|].
    clear IHl0. unfold last_of. rewrite rev_app_distr. cbn [rev app].
    destruct Hw as (Hl & Hj & _). rewrite app_length in *. cbn [length] in *.
    specialize (Hj (length l0) a). rewrite nth_error_app2, Nat.sub_diag in Hj by lia.
    specialize (Hj eq_refl ltac:(lia)).
    assert (Em : (length l0 mod n = (length l0 + 1) mod n - 1)%nat).
    { pose proof (Nat.div_mod (length l0 + 1) n ltac:(lia)).
      pose proof (Nat.mod_upper_bound (length l0 + 1) n ltac:(lia)).
      symmetry. apply (Nat.mod_unique _ _ ((length l0 + 1) / n)); lia. }
    rewrite <- Em. apply nth_error_nth with (d := None) in Hj. exact Hj.
Qed.

Lemma ring_latest_nil l n k (w : A) ws : (0 < n)%nat -> length (w :: ws) = (k * n)%nat ->
  exists rs r, run (ringOps l (map RWrite (w :: ws))) (newRing (Z.of_nat n)) = (Ok rs, r)
    /\ run (ringLatest l) r = (Ok None, r).
Proof.
  intros Hn Hl. destruct (ring_window l n (map RWrite (w :: ws)) Hn) as (rs & r & E & _).
  exists rs, r. split; [exact E|]. rewrite (ring_latest l n _ rs r Hn E).
  assert (Ew : forall us : list A, written (map RWrite us) = us).
  { unfold written. induction us as [|u us IH]; cbn; [reflexivity|]. f_equal. exact IH. }
  rewrite Ew, Hl, Nat.mod_mul by lia. reflexivity.
Qed.

(** C40 *)
Lemma overwrite_latest l r v : ring_ok r ->
  exists r', run (ringOverwrite l v) r = (Ok tt, r')
    /\ fst (run (ringLatest l) r') = fst (run (ringLatest l) r)
    /\ fst (run (ringOldest l) r') = Ok v.
Proof.
  intros H. rewrite (run_overwrite l v r H).
  assert (Hu : (Z.to_nat (rg_writer r) < length (rg_slots r))%nat) by (destruct H as (?&?&?&?); lia).
  assert (H' : ring_ok (set_slots r (upd (rg_slots r) (Z.to_nat (rg_writer r)) v))).
  { destruct H as (H1 & H2 & H3 & H4). repeat split; cbn; try lia. rewrite upd_len; lia. }
  eexists. split; [reflexivity|]. rewrite !run_latest, run_oldest by assumption. cbn. split.
  - f_equal. destruct (Z.eqb_spec (rg_writer r) 0); [reflexivity|].
    assert (Hn : nth_error (upd (rg_slots r) (Z.to_nat (rg_writer r)) v) (Z.to_nat (rg_writer r - 1))
            = nth_error (rg_slots r) (Z.to_nat (rg_writer r - 1))).
    { rewrite upd_nth by exact Hu. destruct H as (?&?&?&?).
      destruct (Nat.eqb_spec (Z.to_nat (rg_writer r)) (Z.to_nat (rg_writer r - 1))); [lia|reflexivity]. }
    destruct H as (?&?&?&?).
    rewrite !(nth_error_nth' _ None) in Hn by (rewrite ?upd_len; lia). congruence.
  - f_equal. pose proof (upd_nth (rg_slots r) (Z.to_nat (rg_writer r)) (Z.to_nat (rg_writer r)) v Hu) as Hn.
    rewrite Nat.eqb_refl in Hn. apply nth_error_nth with (d := None) in Hn. exact Hn.
Qed.

(** * Interleavings *)
Definition rok (m : Z) r : Prop := ring_ok r /\ rg_size r = m.
Definition gtrue (r r' : ring A) : Prop := True.
Notation rsafe m := (safe (rok m) gtrue (fun _ x => x <> Panic)).

Ltac sact := constructor; [|intros ? ? ?].
Lemma safe_ringCall m l c r : c <> CLatest -> rsafe m r (ringCall l c).
Proof.
  intros Hc. destruct c as [v| | |v|]; [| | | |congruence]; unfold ringCall.
  - unfold ringWrite, loadWriter, rd1. cbn. sact; [unfold rok, gtrue; auto|]. cbn.
    destruct H as ((Hs & Hl & Hr & Hw) & Hm).
    sact.
    { intros u (Hu & Hum) _. split; [|exact I]. destruct (inRange _ _) eqn:Ei; [|split; assumption].
      split; [|exact Hum]. apply inRange_iff in Ei. apply ok_set_slots; [exact Hu|].
      destruct Hu as (U1 & U2 & U3 & U4). lia. }
    cbn. destruct H as ((U1 & U2 & U3 & U4) & Hum).
    assert (Ei : inRange (rg_writer s') (rg_slots s'0) = true) by (apply inRange_iff; lia).
    rewrite Ei. cbn. sact; [unfold gtrue; auto|]. cbn. sact; [|constructor; intros; congruence].
    destruct H as (_ & Hm2). intros u (Hu & Hu2) _. split; [|exact I]. split; [|exact Hu2].
    apply ok_set_writer; [exact Hu|]. rewrite Hu2, <- Hm2. apply Z.rem_bound_pos; lia.
  - unfold ringRead, loadReader, rd1. cbn. sact; [unfold rok, gtrue; auto|]. cbn.
    destruct H as ((Hs & Hl & Hr & Hw) & Hm). sact; [unfold rok, gtrue; auto|].
    cbn. destruct H as ((U1 & U2 & U3 & U4) & Hum).
    assert (Ei : inRange (rg_reader s') (rg_slots s'0) = true) by (apply inRange_iff; lia).
    rewrite Ei. cbn. sact; [unfold rok, gtrue; auto|]. destruct H as ((V1 & V2 & V3 & V4) & Hvm).
    cbn. sact; [unfold rok, gtrue; auto|]. destruct H as (_ & Hm2).
    cbn. sact; [|constructor; intros; congruence]. intros u (Hu & Hu2) _. split; [|exact Logic.I]. split; [|exact Hu2].
    apply ok_set_reader; [exact Hu|]. rewrite Hu2, <- Hm2. apply Z.rem_bound_pos; lia.
  - unfold ringOldest, loadWriter, rd1. cbn. sact; [unfold rok, gtrue; auto|]. cbn.
    destruct H as ((Hs & Hl & Hr & Hw) & Hm). sact; [unfold rok, gtrue; auto|].
    cbn. destruct H as ((U1 & U2 & U3 & U4) & Hum).
    assert (Ei : inRange (rg_writer s') (rg_slots s'0) = true) by (apply inRange_iff; lia).
    rewrite Ei. cbn. constructor. congruence.
  - unfold ringOverwrite, loadWriter, rd1. cbn. sact; [unfold rok, gtrue; auto|]. cbn.
    destruct H as ((Hs & Hl & Hr & Hw) & Hm). sact.
    { intros u (Hu & Hum) _. split; [|exact Logic.I]. destruct (inRange _ _) eqn:Ei; [|split; assumption].
      split; [|exact Hum]. apply inRange_iff in Ei. apply ok_set_slots; [exact Hu|].
      destruct Hu as (U1 & U2 & U3 & U4). lia. }
    cbn. destruct H as ((U1 & U2 & U3 & U4) & Hum).
    assert (Ei : inRange (rg_writer s') (rg_slots s'0) = true) by (apply inRange_iff; lia).
    rewrite Ei. constructor. congruence.
Qed.

Lemma safe_ringThread m l cs : ~ In CLatest cs -> forall r, rok m r -> rsafe m r (ringThread l cs).
Proof.
  induction cs as [|c cs IH]; intros Hc r Hr; cbn.
  - constructor. unfold ret. congruence.
  - unfold pbind. eapply safe_bindR with (Q := fun _ x => x <> Panic).
    + unfold gtrue. auto.
    + unfold gtrue. auto.
    + apply safe_ringCall. intros ->. apply Hc. left. reflexivity.
    + intros t x _ Ht Hx. destruct x as [[]|e|]; [|constructor; congruence..].
      apply IH; [|exact Ht]. intros Hin. apply Hc. right. exact Hin.
    + exact Hr.
Qed.

(** C39 *)
Lemma ring_bounds l n (css : list (list (rcall A))) sch : (0 < n)%nat -> (forall cs, In cs css -> ~ In CLatest cs) ->
  let '(ps, r) := psteps (map (ringThread l) css) (newRing (Z.of_nat n)) sch in
  ring_ok r /\ forall p, In p ps -> p <> Ret Panic.
Proof.
  intros Hn Hc. destruct (psteps _ _ sch) as [ps r] eqn:E.
  assert (H0 : rok (Z.of_nat n) (newRing (Z.of_nat n))).
  { pose proof (rinv_ok _ _ _ _ (rinv_new n Hn)). split; [assumption|reflexivity]. }
  pose proof (psteps_safe (rok (Z.of_nat n)) gtrue (fun _ => Logic.I) (fun _ _ _ _ _ => Logic.I)
                (fun _ x => x <> Panic) sch (map (ringThread l) css) (newRing (Z.of_nat n)) H0) as H.
  rewrite E in H. cbn in H. destruct H as (H1 & _ & H3).
  - intros j p Hj. rewrite nth_error_map in Hj. destruct (nth_error css j) as [cs|] eqn:Ej; [|discriminate].
    injection Hj as <-. apply safe_ringThread; [|exact H0]. apply Hc. eapply nth_error_In; eassumption.
  - split; [apply H1|]. intros p Hp ->. apply In_nth_error in Hp. destruct Hp as (j & Hj).
    specialize (H3 _ _ Hj). inversion H3 as [? ? Hq|]; subst. exact (Hq r H1 Logic.I eq_refl).
Qed.

(** a Write that wraps between the two reads of Writer in Latest *)
Lemma latest_races l r v : ring_ok r -> rg_writer r = rg_size r - 1 -> 2 <= rg_size r ->
  exists r', psteps [ringThread l [CLatest]; ringThread l [CWrite v]] r [0; 1; 1; 1; 1; 0; 0; 0]%nat
             = ([Ret Panic; Ret (Ok tt)], r') /\ ring_ok r'.
Proof.
  intros Hr Hw Hs.
  assert (E0 : (rg_writer r =? 0) = false) by lia.
  assert (Ei : inRange (rg_writer r) (rg_slots r) = true)
    by (apply inRange_iff; destruct Hr as (?&?&?&?); lia).
  assert (Em : Z.rem (rg_writer r + 1) (rg_size r) = 0).
  { rewrite Hw. replace (rg_size r - 1 + 1) with (rg_size r) by lia. apply Z.rem_same. lia. }
  assert (Ep : Z.rem (-1) (rg_size r) = -1).
  { change (-1) with (- (1)). rewrite Z.rem_opp_l by lia. rewrite Z.rem_small by lia. reflexivity. }
  unfold ringThread, ringCall, ringLatest, ringWrite, loadWriter, storeWriter, setSlot, rd1, wr1.
  cbn. unfold pstep. cbn. rewrite E0. cbn. rewrite Ei. cbn. rewrite Em. cbn. rewrite Ep. cbn.
  eexists. split; [reflexivity|].
  apply ok_set_writer; [|cbn; lia]. apply (ok_set_slots r (rg_writer r) v Hr). lia.
Qed.
End Ring.

(** * Serial numbers *)
Local Open Scope N_scope.
Lemma run_serial l c : c <= 65535 ->
  run (getNextSerialNum l) c = (Ok ((c + 1) mod 65536), (c + 1) mod 65536).
Proof.
  intros Hc. unfold getNextSerialNum. cbn [run].
  rewrite (N.mod_small (c + 1) 4294967296) by lia.
  destruct (N.leb_spec (c + 1) 65535) as [H|H].
  - cbn. rewrite (N.mod_small (c + 1) 65536) by lia. reflexivity.
  - assert (c = 65535) as -> by lia. reflexivity.
Qed.

Lemma run_serials l k : forall c, c <= 65535 ->
  run (serials l k) c = (Ok (map (fun i => (c + 1 + N.of_nat i) mod 65536) (seq 0 k)),
                         (c + N.of_nat k) mod 65536).
Proof.
  induction k as [|k IH]; intros c Hc.
  - cbn. rewrite N.add_0_r, N.mod_small by lia. reflexivity.
  - cbn [serials]. rewrite run_bind, run_serial by exact Hc.
    rewrite run_bind, IH by lia. cbn [run ret]. f_equal.
    + f_equal. cbn [seq map]. f_equal; [f_equal; lia|].
      rewrite <- seq_shift, map_map. apply map_ext. intros i. 
      rewrite <- N.add_assoc, N.add_mod_idemp_l by lia. f_equal. lia.
    + rewrite N.add_mod_idemp_l by lia. f_equal. lia.
Qed.

(** C62: the k calls made in a session from its start, and any 65536 consecutive ones *)
Lemma serials_cycle l k :
  exists xs c, run (serials l k) 0 = (Ok xs, c) /\ length xs = k
    /\ (forall i, (i < k)%nat -> nth_error xs i = Some ((N.of_nat i + 1) mod 65536))
    /\ (forall i j, (i < j < k)%nat -> N.of_nat j < N.of_nat i + 65536 -> nth_error xs i <> nth_error xs j).
Proof.
  eexists _, _. split; [apply run_serials; lia|].
  assert (Hn : forall i, (i < k)%nat -> nth_error (map (fun i => (0 + 1 + N.of_nat i) mod 65536) (seq 0 k)) i
            = Some ((N.of_nat i + 1) mod 65536)).
  { intros i Hi. rewrite nth_error_map.
    rewrite (nth_error_nth' _ 0%nat) by (rewrite seq_length; exact Hi). rewrite seq_nth by exact Hi.
    cbn [option_map Nat.add]. f_equal. f_equal. lia. }
  split; [rewrite map_length, seq_length; reflexivity|]. split; [exact Hn|].
  intros i j Hij Hlt. rewrite !Hn by lia. intros E. injection E as E. lia.
Qed.

(** C63: two concurrent calls at the wrap-around both get 0 *)
Lemma serials_race l : exists sch,
  psteps [getNextSerialNum l; getNextSerialNum l] 65535 sch = ([Ret (Ok 0); Ret (Ok 0)], 0).
Proof. exists [0; 1; 0; 1; 0; 1]%nat. reflexivity. Qed.

(** C63: away from the wrap-around concurrent calls get distinct numbers *)
Definition finals {S A} (ps : list (prog S A)) : list (option (res A)) :=
  map (fun p => match p with Ret r => Some r | _ => None end) ps.

Definition sinv (c0 : N) (n : nat) (ps : list (prog N N)) (c : N) : Prop :=
  exists done, N.of_nat (length done) = c - c0 /\ c0 <= c /\ NoDup done
    /\ (forall j, In j done -> (j < n)%nat) /\ length ps = n
    /\ (forall j p, nth_error ps j = Some p ->
          (~ In j done /\ p = getNextSerialNum 0)
          \/ (In j done /\ exists x, p = Ret (Ok x) /\ c0 < x <= c))
    /\ (forall i j x, i <> j -> nth_error ps i = Some (Ret (Ok x)) -> nth_error ps j <> Some (Ret (Ok x))).

Lemma sinv_step c0 n ps c i : c0 + N.of_nat n <= 65535 -> sinv c0 n ps c ->
  sinv c0 n (fst (pstep ps c i)) (snd (pstep ps c i)).
Proof.
  intros Hb Hinv. unfold pstep. destruct (nth_error ps i) as [p|] eqn:E; [|exact Hinv].
  destruct Hinv as (dn & Hd & Hc & Hnd & Hlt & Hlen & Hp & Hu).
  destruct (Hp i p E) as [(Hni & ->)|(Hi & x & -> & Hx)].
  - unfold getNextSerialNum. cbn [fst snd].
    assert (Hni' : (i < n)%nat) by (rewrite <- Hlen; apply nth_error_Some; congruence).
    assert (Hle : (S (length dn) <= n)%nat).
    { assert (Hnd' : NoDup (i :: dn)) by (constructor; assumption).
      assert (Hinc : incl (i :: dn) (seq 0 n)).
      { intros j [<-|Hj]; apply in_seq; [lia|]. specialize (Hlt j Hj). lia. }
      pose proof (NoDup_incl_length Hnd' Hinc) as Hl. rewrite seq_length in Hl. exact Hl. }
    rewrite (N.mod_small (c + 1) 4294967296) by lia.
    destruct (N.leb_spec (c + 1) 65535) as [Hn|Hn]; [|lia].
    rewrite (N.mod_small (c + 1) 65536) by lia.
    exists (i :: dn). cbn [length]. split; [lia|]. split; [lia|]. split; [constructor; assumption|].
    split. { intros j [<-|Hj]; [exact Hni'|apply Hlt; exact Hj]. }
    split. { rewrite (upd_length ps i _ _ E). exact Hlen. }
    split.
    + intros j q Hj. rewrite (nth_error_upd ps i j _ _ E) in Hj.
      destruct (Nat.eqb_spec i j) as [->|Hij].
      * injection Hj as <-. right. split; [left; reflexivity|]. eexists. split; [reflexivity|]. lia.
      * destruct (Hp j q Hj) as [(Hnj & ->)|(Hj' & x & -> & Hx)].
        -- left. split; [|reflexivity]. intros [?|?]; [congruence|contradiction].
        -- right. split; [right; exact Hj'|]. exists x. split; [reflexivity|lia].
    + intros j1 j2 x Hne H1 H2. rewrite (nth_error_upd ps i j1 _ _ E) in H1.
      rewrite (nth_error_upd ps i j2 _ _ E) in H2.
      destruct (Nat.eqb_spec i j1) as [->|Hi1].
      * destruct (Nat.eqb_spec j1 j2); [congruence|].
        injection H1 as <-. destruct (Hp j2 _ H2) as [(_ & ?)|(_ & x & Ex & Hx)]; [discriminate|].
        injection Ex as <-. lia.
      * destruct (Nat.eqb_spec i j2) as [->|Hi2].
        -- injection H2 as <-. destruct (Hp j1 _ H1) as [(_ & ?)|(_ & x & Ex & Hx)]; [discriminate|].
           injection Ex as <-. lia.
        -- exact (Hu j1 j2 x Hne H1 H2).
  - cbn [fst snd]. exists dn. repeat (split; [assumption|]). assumption.
Qed.

Lemma serials_distinct n c0 sch : c0 + N.of_nat n <= 65535 ->
  let '(ps, c) := psteps (repeat (getNextSerialNum 0) n) c0 sch in
  c0 <= c <= c0 + N.of_nat n
  /\ (forall i p, nth_error ps i = Some p -> p <> Ret Panic)
  /\ (forall i x, nth_error ps i = Some (Ret (Ok x)) -> c0 < x <= c0 + N.of_nat n)
  /\ (forall i j x y, i <> j -> nth_error ps i = Some (Ret (Ok x)) -> nth_error ps j = Some (Ret (Ok y)) -> x <> y).
Proof.
  intros Hb.
  assert (H0 : sinv c0 n (repeat (getNextSerialNum 0) n) c0).
  { exists []. cbn. split; [lia|]. split; [lia|]. split; [constructor|]. split; [intros j []|].
    split; [apply repeat_length|]. split.
    - intros j p Hj. left. split; [intros []|]. apply nth_error_In in Hj. apply repeat_spec in Hj. exact Hj.
    - intros i j x _ Hi. apply nth_error_In, repeat_spec in Hi. discriminate. }
  revert H0. generalize (repeat (getNextSerialNum 0) n). intros ps0 H0.
  assert (H : forall sch ps c, sinv c0 n ps c -> sinv c0 n (fst (psteps ps c sch)) (snd (psteps ps c sch))).
  { clear -Hb. induction sch as [|i t IH]; intros ps c H; cbn; [exact H|].
    pose proof (sinv_step c0 n ps c i Hb H) as H1. destruct (pstep ps c i) as [ps' c'].
    apply IH. exact H1. }
  specialize (H sch _ _ H0). destruct (psteps ps0 c0 sch) as [ps c].
  cbn in H. destruct H as (dn & Hd & Hc & Hnd & Hlt & Hlen & Hp & Hu).
  assert (Hle : (length dn <= n)%nat).
  { rewrite <- (seq_length n 0). apply NoDup_incl_length; [exact Hnd|].
    intros j Hj. apply in_seq. specialize (Hlt j Hj). lia. }
  split; [lia|]. split; [|split].
  - intros i p Hi. destruct (Hp i p Hi) as [(_ & ->)|(_ & x & -> & _)]; discriminate.
  - intros i x Hi. destruct (Hp i _ Hi) as [(_ & E)|(_ & y & E & Hy)]; [discriminate|].
    injection E as <-. lia.
  - intros i j x y Hij Hi Hj <-. exact (Hu i j x Hij Hi Hj).
Qed.
