(** Proofs about the log file (C146) *)
From stdpp Require Import gmap.
From Verif Require Import Base ServerM LogFileM SpecLogFile.
Local Open Scope N_scope.

Lemma elems_ne s : elems s <> [].
Proof. destruct s as [|c t]; cbn; [discriminate|]. destruct (c =? 47); [discriminate|]. destruct (elems t); discriminate. Qed.
Lemma names_elems p : forall cur, exists x xs, elems p = x :: xs /\ names_from cur p = (cur ++ x) :: xs.
Proof.
  induction p as [|c t IH]; intros cur.
  - exists [], []. rewrite app_nil_r. auto.
  - cbn. destruct (c =? 47).
    + destruct (IH []) as (x & xs & E & N). exists [], (x :: xs). rewrite E, N, app_nil_r. auto.
    + destruct (IH (cur ++ [c])) as (x & xs & E & N). exists (c :: x), xs. rewrite E, N, <- app_assoc. auto.
Qed.
Lemma names_eq p : names p = elems p.
Proof. unfold names. destruct (names_elems p []) as (x & xs & -> & ->). reflexivity. Qed.

Definition noslash (x : str) : Prop := ~ In 47 x.
Lemma elems_noslash p : Forall noslash (elems p).
Proof.
  induction p as [|c t IH]; cbn; [repeat constructor; intros []|]. destruct (N.eqb_spec c 47).
  - constructor; [intros []|exact IH].
  - destruct (elems t) as [|x xs] eqn:E; [destruct (elems_ne t E)|]. apply Forall_cons_iff in IH. destruct IH as [H1 H2].
    constructor; [|exact H2]. intros [K|K]; [congruence|]. exact (H1 K).
Qed.
Lemma elems_of x : noslash x -> elems x = [x].
Proof.
  induction x as [|c t IH]; [reflexivity|]. intros H. cbn. destruct (N.eqb_spec c 47) as [->|]; [destruct H; left; reflexivity|].
  rewrite IH; [reflexivity|]. intros K. apply H. right. exact K.
Qed.
Lemma elems_cons x s : noslash x -> elems (x ++ 47 :: s) = x :: elems s.
Proof.
  induction x as [|c t IH]; [reflexivity|]. intros H. cbn. destruct (N.eqb_spec c 47) as [->|]; [destruct H; left; reflexivity|].
  change (t ++ 47 :: s) with (app t (47 :: s)). rewrite IH; [reflexivity|]. intros K. apply H. right. exact K.
Qed.
Lemma elems_joined ps : Forall noslash ps -> ps <> [] -> elems (joined ps) = ps.
Proof.
  induction ps as [|p ps IH]; [congruence|]. intros H _. apply Forall_cons_iff in H. destruct H as [H1 H2].
  destruct ps as [|q ps]; [exact (elems_of p H1)|]. change (joined (p :: q :: ps)) with (p ++ 47 :: joined (q :: ps)).
  rewrite (elems_cons p _ H1), (IH H2); [reflexivity|discriminate].
Qed.
Lemma elems_app a b : elems (a ++ 47 :: b) = elems a ++ elems b.
Proof.
  induction a as [|c t IH]; [reflexivity|]. cbn. destruct (c =? 47).
  - change (t ++ 47 :: b) with (app t (47 :: b)). rewrite IH. reflexivity.
  - change (t ++ 47 :: b) with (app t (47 :: b)). rewrite IH. destruct (elems t) eqn:E; [destruct (elems_ne t E)|]. reflexivity.
Qed.

(** * Clean *)
Definition kept (x : str) : Prop := x <> [] /\ x <> dot /\ noslash x.
Lemma go_kept L x : kept x -> x <> dotdot -> go L x = x :: L.
Proof.
  intros (H1 & H2 & _) H3. unfold go, dot, dotdot in *. rewrite (bool_decide_eq_false_2 _ H1), (bool_decide_eq_false_2 _ H2), (bool_decide_eq_false_2 _ H3). reflexivity.
Qed.
Lemma clean_follow rooted ps : forall out base, (rooted = true -> base = []) -> Forall noslash ps -> Forall kept out ->
  follow base (cleanElems rooted out ps) = follow (follow base (rev out)) ps /\ Forall kept (cleanElems rooted out ps).
Proof.
  induction ps as [|p ps IH]; intros out base Hb Hn Hk; cbn [cleanElems].
  - split; [reflexivity|]. apply Forall_rev. exact Hk.
  - apply Forall_cons_iff in Hn. destruct Hn as [Hp Hn]. cbn [follow fold_left]. fold (follow (go (follow base (rev out)) p) ps).
    destruct (bool_decide (p = []) || bool_decide (p = dot)) eqn:E0.
    + unfold go at 1. unfold dot in E0. rewrite E0. exact (IH out base Hb Hn Hk).
    + apply orb_false_iff in E0. destruct E0 as [E1 E2]. apply bool_decide_eq_false in E1, E2.
      case_bool_decide as E3.
      * assert (Hg : forall L, go L p = tl L).
        { intros L. subst p. reflexivity. }
        rewrite Hg. destruct out as [|x out].
        -- destruct rooted.
           ++ rewrite (Hb eq_refl). cbn [rev follow fold_left tl]. exact (IH [] [] (fun _ => eq_refl) Hn (Forall_nil _)).
           ++ destruct (IH [dotdot] base) as [I1 I2]; [discriminate|exact Hn|repeat constructor; unfold dotdot, dot; try discriminate; intros [K|[K|[]]]; discriminate K|].
              split; [|exact I2]. rewrite I1. reflexivity.
        -- pose proof Hk as Hk'. apply Forall_cons_iff in Hk'. destruct Hk' as [Hx Ho]. case_bool_decide as E4.
           ++ destruct (IH (dotdot :: x :: out) base) as [I1 I2]; [exact Hb|exact Hn| |].
              { constructor; [|exact Hk]. repeat constructor; unfold dotdot, dot; try discriminate; intros [K|[K|[]]]; discriminate K. }
              split; [|exact I2]. rewrite I1. f_equal. unfold follow at 1. cbn [rev]. rewrite fold_left_app. reflexivity.
           ++ destruct (IH out base Hb Hn Ho) as [I1 I2]. split; [|exact I2]. rewrite I1. f_equal. unfold follow at 2. cbn [rev].
              rewrite fold_left_app. cbn [fold_left]. rewrite (go_kept _ x Hx E4). reflexivity.
      * assert (Hkp : kept p) by (repeat split; assumption). destruct (IH (p :: out) base Hb Hn) as [I1 I2]; [constructor; assumption|].
        split; [|exact I2]. rewrite I1. f_equal. unfold follow at 1. cbn [rev]. rewrite fold_left_app. reflexivity.
Qed.
Lemma place_rooted cwd p : place_of cwd p = follow (if isRooted p then [] else cwd) (elems p).
Proof. unfold place_of. rewrite names_eq. destruct p; reflexivity. Qed.
Lemma joined_rooted p ps : kept p -> isRooted (joined (p :: ps)) = false.
Proof.
  intros (H1 & _ & H3). destruct p as [|c t]; [congruence|]. assert (c <> 47) by (intros ->; apply H3; left; reflexivity).
  destruct ps; cbn; apply N.eqb_neq; assumption.
Qed.
Lemma clean_place cwd p : place_of cwd (pathClean p) = place_of cwd p.
Proof.
  rewrite !place_rooted. unfold pathClean. destruct (isRooted p) eqn:R.
  - destruct (clean_follow true (elems p) [] [] (fun _ => eq_refl) (elems_noslash p) (Forall_nil _)) as [I1 I2].
    cbn [isRooted]. change (47 =? 47) with true. cbn iota. change (elems (47 :: joined (cleanElems true [] (elems p)))) with ([] :: elems (joined (cleanElems true [] (elems p)))).
    cbn [follow fold_left]. change (go [] []) with (@nil str). fold (follow [] (elems (joined (cleanElems true [] (elems p))))).
    destruct (cleanElems true [] (elems p)) as [|x xs] eqn:E; [exact I1|]. rewrite elems_joined; [exact I1| |discriminate].
    apply (List.Forall_impl _ (P := kept)); [|exact I2]. intros a Ha. exact (proj2 (proj2 Ha)).
  - destruct (clean_follow false (elems p) [] cwd) as [I1 I2]; [discriminate|exact (elems_noslash p)|constructor|].
    destruct (cleanElems false [] (elems p)) as [|x xs] eqn:E; [exact I1|]. pose proof I2 as I3. apply Forall_cons_iff in I3.
    rewrite (joined_rooted x xs (proj1 I3)), elems_joined; [exact I1| |discriminate].
    apply (List.Forall_impl _ (P := kept)); [|exact I2]. intros a Ha. exact (proj2 (proj2 Ha)).
Qed.
Lemma join_place cwd dir file : dir <> [] -> place_of cwd (pathJoin dir file) = follow (place_of cwd dir) (names file).
Proof.
  intros Hd. rewrite names_eq. destruct dir as [|c d]; [congruence|]. unfold pathJoin. destruct file as [|f fs].
  - rewrite clean_place. reflexivity.
  - rewrite clean_place, !place_rooted, elems_app. unfold follow. rewrite fold_left_app. reflexivity.
Qed.
Lemma file_place cwd c : y_dir c <> [] ->
  place_of cwd (ro_file (rollingFile (parseLog c))) = follow (place_of cwd (y_dir c)) (names (y_name c)).
Proof. exact (join_place cwd (y_dir c) (y_name c)). Qed.
Lemma follow_below ns : forall L, ~ In [46; 46] ns -> exists b, follow L ns = b ++ L.
Proof.
  induction ns as [|n ns IH]; intros L H; [exists []; reflexivity|]. cbn [follow fold_left]. fold (follow (go L n) ns).
  destruct (IH (go L n)) as [b Hb]; [intros K; apply H; right; exact K|]. rewrite Hb. unfold go.
  match goal with |- context [if ?t then L else _] => destruct t end; [exists b; reflexivity|]. case_bool_decide as E; [subst n; destruct H; left; reflexivity|].
  exists (b ++ [n]). rewrite <- app_assoc. reflexivity.
Qed.
Lemma file_below cwd c : y_dir c <> [] -> ~ In [46; 46] (names (y_name c)) ->
  exists b, place_of cwd (ro_file (rollingFile (parseLog c))) = b ++ place_of cwd (y_dir c).
Proof. intros Hd Hn. rewrite (file_place cwd c Hd). apply follow_below. exact Hn. Qed.
Lemma file_in cwd c : y_dir c <> [] -> plain_name (y_name c) ->
  place_of cwd (ro_file (rollingFile (parseLog c))) = y_name c :: place_of cwd (y_dir c).
Proof.
  intros Hd (H1 & H2 & H3 & H4). rewrite (file_place cwd c Hd), names_eq, (elems_of _ H4). cbn.
  apply go_kept; [repeat split; assumption|exact H3].
Qed.
Lemma file_outside cwd c n : y_dir c <> [] -> plain_name n -> y_name c = [46; 46; 47] ++ n ->
  place_of cwd (ro_file (rollingFile (parseLog c))) = n :: tl (place_of cwd (y_dir c)).
Proof.
  intros Hd (H1 & H2 & H3 & H4) E. rewrite (file_place cwd c Hd), names_eq, E. change ([46; 46; 47] ++ n) with ([46; 46] ++ 47 :: n).
  rewrite elems_cons; [|intros [K|[K|[]]]; discriminate K]. rewrite (elems_of _ H4). cbn [follow fold_left].
  rewrite (go_kept _ n); [reflexivity|repeat split; assumption|exact H3].
Qed.
(** * the level column *)
Lemma upper_len lv : (length lv <= 6)%nat -> length (formatLevel lv) = 9%nat.
Proof. intros H. unfold formatLevel, pad6. rewrite map_length, !app_length, repeat_length. cbn. lia. Qed.
