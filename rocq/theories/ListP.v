(** The device list while messages come in (C150) *)
From stdpp Require Import gmap.
From Verif Require Import Base ProgM ProgP StateM ServerM ConcM ListM SpecState SpecReg SpecConc SpecList StateP ConcP.

Lemma grows_same t0 t l d : grows t0 t -> st_devs t0 !! l = Some d -> exists d', st_devs t !! l = Some d' /\ same_identity d d'.
Proof. intros G H. destruct (gr_dev _ _ G _ _ H) as (d' & H' & E). exists d'. split; [exact H'|]. injection E. intros. repeat split; assumption. Qed.
Definition read_of (t0 : st) (ls : list nat) (ds : list device) : Prop :=
  Forall2 (fun l d' => exists d, st_devs t0 !! l = Some d /\ same_identity d d') ls ds.
Lemma readAll_safe t0 ls : Forall (fun l => is_Some (st_devs t0 !! l)) ls -> forall s, sane s -> grows t0 s ->
  safe sane grows (fun _ r => exists ds, r = Ok ds /\ read_of t0 ls ds) s (readAll ls).
Proof.
  induction 1 as [|l ls (d & Hl) _ IH]; intros s Hs G; cbn [readAll].
  - constructor. intros t _ _. exists []. split; [reflexivity|constructor].
  - unfold readDev, pbind at 1. cbn [pbindR]. constructor; [intros t Ht _; split; [exact Ht|apply grows_refl]|].
    intros t Ht Gt. assert (G' : grows t0 t) by (eapply grows_trans; eassumption).
    destruct (grows_same t0 t l d G' Hl) as (d' & Hd' & E). rewrite Hd'. cbn [ret pbindR].
    eapply (safe_bindR _ _ grows_refl grows_trans); [exact (IH t Ht G')| |exact Ht].
    intros u r _ _ (ds & -> & K). constructor. intros v _ _. exists (d' :: ds). split; [reflexivity|]. constructor; [eauto|exact K].
Qed.
Lemma read_lists t ls ds : sane t -> ls = (map_to_list (st_byPhone t)).*2 -> read_of t ls ds -> lists t ds.
Proof.
  intros Hs -> H.
  assert (K : Forall2 (fun x d' => exists d, st_byPhone t !! fst x = Some (snd x) /\ st_devs t !! snd x = Some d /\ same_identity d d' /\ d_phone d' = fst x)
    (map_to_list (st_byPhone t)) ds).
  { unfold read_of in H. rewrite Forall2_fmap_l in H.
    apply Forall2_same_length_lookup_2; [exact (Forall2_length _ _ _ H)|].
    intros i [p l] d' Hi Hi'. pose proof (Forall2_lookup_lr _ _ _ _ _ _ H Hi Hi') as (d & Hd & E).
    assert (Hb : st_byPhone t !! p = Some l) by (apply elem_of_map_to_list; eapply elem_of_list_lookup_2, Hi).
    exists d. cbn [fst snd] in *. split; [exact Hb|]. split; [exact Hd|]. split; [exact E|].
    destruct (sn_phone t Hs _ _ Hb) as (d2 & Hd2 & Ep). destruct E as (_ & _ & Eq & _). congruence. }
  assert (E : List.map d_phone ds = (map_to_list (st_byPhone t)).*1).
  { clear H. induction K as [|x d' xs ds (d & _ & _ & _ & E) _ IH]; [reflexivity|]. cbn. rewrite E, IH. reflexivity. }
  split; [rewrite E; apply NoDup_fst_map_to_list|]. split.
  - intros ph d Hd. unfold devAt in Hd. destruct (st_byPhone t !! ph) as [l|] eqn:Hb; [|discriminate].
    assert (Hin : (ph, l) ∈ map_to_list (st_byPhone t)) by (apply elem_of_map_to_list; exact Hb).
    apply elem_of_list_lookup in Hin as (i & Hi). destruct (Forall2_lookup_l _ _ _ _ _ K Hi) as (d' & Hi' & d2 & _ & Hd2 & Es & _).
    exists d'. split; [apply elem_of_list_In; eapply elem_of_list_lookup_2, Hi'|]. cbn [snd] in Hd2. congruence.
  - intros d' Hin. apply elem_of_list_In, elem_of_list_lookup in Hin as (i & Hi). destruct (Forall2_lookup_r _ _ _ _ _ K Hi) as ([p l] & _ & d & Hb & Hd & Es & Ep).
    cbn [fst snd] in *. exists d. split; [|exact Es]. unfold devAt. rewrite Ep, Hb. exact Hd.
Qed.
Lemma one_moment (ps : list (sp (option (list device)))) s sch : forall r, sane s ->
  (forall j p, nth_error ps j = Some p -> safe sane grows (fun _ _ => True) s p) ->
  nth_error (fst (psteps ((x <- showList ;; ret (Some x))%prog :: ps) s sch)) 0 = Some (Ret r) ->
  exists k ds, (k <= length sch)%nat /\ r = Ok (Some ds)
    /\ lists (snd (psteps ((x <- showList ;; ret (Some x))%prog :: ps) s (firstn k sch))) ds.
Proof.
  revert ps s. induction sch as [|i sch IH]; intros ps s r Hs Hp H; [discriminate H|].
  assert (F : forall n (x : nat) (t : list nat), firstn (S n) (x :: t) = x :: firstn n t) by reflexivity.
  destruct i as [|i].
  - cbn [psteps] in H. set (ls := (map_to_list (st_byPhone s)).*2).
    change (pstep ((x <- showList ;; ret (Some x))%prog :: ps) s 0) with ((x <- readAll ls ;; ret (Some x))%prog :: ps, s) in H.
    cbv beta iota in H.
    assert (Hl : Forall (fun l => is_Some (st_devs s !! l)) ls).
    { apply Forall_forall. intros l Hl. unfold ls in Hl. apply elem_of_list_In, elem_of_list_fmap in Hl as ([p l'] & -> & Hin). apply elem_of_map_to_list in Hin.
      destruct (sn_phone s Hs _ _ Hin) as (d & Hd & _). eauto. }
    destruct (psteps_safe_i sane grows grows_refl grows_trans
      (fun j => match j with O => fun _ r => exists ds, r = Ok (Some ds) /\ read_of s ls ds | _ => fun _ _ => True end) sch
      ((x <- readAll ls ;; ret (Some x))%prog :: ps) s Hs) as (Hend & _ & K).
    { intros [|j] p Hj; cbn in Hj; [|exact (Hp _ _ Hj)]. injection Hj as <-.
      eapply (safe_bindR _ _ grows_refl grows_trans); [exact (readAll_safe s ls Hl s Hs (grows_refl s))| |exact Hs].
      intros t x _ _ (ds & -> & R). constructor. intros u _ _. eauto. }
    specialize (K O _ H). inversion K as [? ? Hq|]; subst. destruct (Hq _ Hend (grows_refl _)) as (ds & -> & R).
    exists O, ds. split; [lia|]. split; [reflexivity|]. exact (read_lists s ls ds Hs eq_refl R).
  - cbn [psteps] in H.
    assert (E : exists ps' s', pstep ((x <- showList ;; ret (Some x))%prog :: ps) s (S i) = ((x <- showList ;; ret (Some x))%prog :: ps', s')
      /\ pstep ps s i = (ps', s')).
    { unfold pstep. cbn [nth_error]. destruct (nth_error ps i) as [[y|a f k]|]; [eauto| |eauto].
      eexists _, _. split; reflexivity. }
    destruct E as (ps' & s' & E & E'). rewrite E in H. cbv beta iota in H.
    destruct (pstep_safe sane grows grows_refl grows_trans (fun _ _ => True) ps s i Hs Hp) as (H1 & _ & H3). rewrite E' in H1, H3. cbn [fst snd] in H1, H3.
    destruct (IH ps' s' r H1 H3 H) as (k & ds & Hk & Hr & L). exists (S k), ds. split; [cbn; lia|]. split; [exact Hr|].
    rewrite F. cbn [psteps]. rewrite E. exact L.
Qed.
Lemma list_moment e gs s sch r : sane s -> (forall g, In g gs -> placed s g) ->
  nth_error (fst (beside e showList gs s sch)) 0 = Some (Ret r) ->
  exists k ds, (k <= length sch)%nat /\ r = Ok (Some ds) /\ lists (snd (beside e showList gs s (firstn k sch))) ds.
Proof.
  intros Hs Hp. apply one_moment; [exact Hs|]. intros j p Hj. rewrite nth_error_map in Hj.
  destruct (nth_error gs j) as [g|] eqn:E; [|discriminate]. injection Hj as <-. apply nth_error_In in E.
  eapply (safe_bindR _ _ grows_refl grows_trans (fun _ _ => True)); [|intros t [u|er|] _ _ _; constructor; auto|exact Hs].
  eapply safe_post; [exact grows_trans|apply (sf_code false e s g Hs (Hp g E)); discriminate|auto].
Qed.
