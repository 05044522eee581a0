(** Restoring under names with both kinds of slash when operations fail (C147) *)
From Coq Require Import String.
From stdpp Require Import gmap.
From Verif Require Import Base AssetM SpecAsset AssetP LogFileM SpecLogFile LogFileP RestoreM SpecRestore RestoreP RestoreAnyP
  RestoreFailM SpecRestoreFail RestoreFailP.
Local Open Scope N_scope.

(** what has been changed, and what success means *)
Definition safe (B : list str) (l : list (str * gen)) (s s' : disk) (ok : bool) : Prop :=
  (forall pl, (forall x, In x l -> pl <> spot B (fst x)) -> d_files s' !! pl = d_files s !! pl)
  /\ (ok = true -> forall x, In x l -> copiedF s' (spot B (fst x)) (snd x)).
Section A.
Context (bad : nat -> option fault) (cwd : list str) (ord : list str -> list str) (dir : str).
Context (Hd : dir <> []) (Ho : forall l, Permutation l (ord l)).
Let B := place_of cwd dir.
Lemma safe_one name g s : In (canon name, g) embedded ->
  safe B [(canon name, g)] s (fst (restoreAssetF bad cwd dir name s)) (snd (restoreAssetF bad cwd dir name s)).
Proof.
  intros Hin. unfold restoreAssetF. rewrite !(path_place cwd dir _ Hd), (asset_any name g Hin). fold B.
  assert (K : forall pl, (forall x, In x [(canon name, g)] -> pl <> spot B (fst x)) -> spot B (canon name) <> pl).
  { intros pl H E. apply (H _ (or_introl eq_refl)). auto. }
  unfold mkdirAllF. destruct (bad (d_ops s)) as [f0|]; cbn [negb fst snd]; [split; [reflexivity|discriminate]|].
  unfold writeFileF. cbn [d_dirs d_files d_ops]. destruct (bad (S (d_ops s))) as [f1|]; cbn [negb fst snd].
  { split; [|discriminate]. intros pl Hpl. cbn. destruct (fl_left f1); [|reflexivity]. apply lookup_insert_ne. auto. }
  case_bool_decide; cbn [negb fst snd]; [|split; [reflexivity|discriminate]].
  unfold chtimesF. cbn [d_dirs d_files d_ops]. rewrite lookup_insert. destruct (bad (S (S (d_ops s)))) as [f2|]; cbn [fst snd].
  - split; [|discriminate]. intros pl Hpl. cbn. apply lookup_insert_ne. auto.
  - split; cbn [d_files].
    + intros pl Hpl. rewrite insert_insert. apply lookup_insert_ne. auto.
    + intros _ x [<-|[]]. apply copiedF_info. cbn. rewrite lookup_insert. reflexivity.
Qed.
Lemma outcome_safe l s s' ok : outcome bad B l s s' ok -> safe B l s s' ok.
Proof. intros [H1 H2 H3 H4]. split; [exact H2|]. intros E. apply H3, E. Qed.
Definition does_safe (depth : nat) (name : str) (l : list (str * gen)) : Prop := forall s,
  safe B l s (fst (restoreAssetsF bad cwd ord depth dir name s)) (snd (restoreAssetsF bad cwd ord depth dir name s)).
Lemma does_does depth name l : does bad cwd ord dir depth name l -> does_safe depth name l.
Proof. intros W s. apply outcome_safe, W. Qed.
Lemma a_file depth name g path : In (path, g) embedded -> canon name = path -> does_safe depth name [(path, g)].
Proof.
  intros Hin <- s. destruct depth; cbn [restoreAssetsF]; rewrite (nodir_any name g Hin); apply safe_one; exact Hin.
Qed.
Lemma a_one depth name c l : assetDir name = Some [c] -> does_safe depth (fileJoin [name; c]) l -> does_safe (S depth) name l.
Proof.
  intros E W s. cbn [restoreAssetsF]. rewrite E, (Permutation_length_1_inv (Ho [c])). cbn [fold_left fst snd]. exact (W s).
Qed.
Local Ltac cv := vm_compute; reflexivity.
Local Ltac isin := match goal with |- In ?x ?l => let v := eval vm_compute in l in change (In x v); let y := eval vm_compute in x in change x with y; cbn [In]; tauto end.
Lemma a_tcc depth name : In name (variants (nTest ++ 47 :: nClient ++ 47 :: nConfigs)) -> does_safe (S depth) name [xC].
Proof.
  intros H. vm_compute in H. destruct H as [<-|[<-|[<-|[<-|[]]]]]; (apply (a_one depth _ nDefault); [cv|]; apply a_file; [right; right; left; reflexivity|cv]).
Qed.
Lemma a_tc depth name : In name (variants (nTest ++ 47 :: nClient)) -> does_safe (S (S depth)) name [xC].
Proof.
  intros H. vm_compute in H. destruct H as [<-|[<-|[]]]; (apply (a_one (S depth) _ nConfigs); [cv|]; apply a_tcc; isin).
Qed.
Lemma a_any name : In (canon name) dirs \/ (exists g, In (canon name, g) embedded) -> exists l, does_safe 4 name l /\ goodb (canon name) l = true.
Proof.
  intros [Hn|[g Hn]].
  - pose proof (canon_variants name) as V. cbn in Hn. destruct Hn as [Hn|[Hn|[Hn|[Hn|[Hn|[]]]]]]; rewrite <- Hn in V |- *.
    + vm_compute in V. destruct V as [<-|[]]. eexists. split; [exact (does_does _ _ _ (f_root bad cwd ord dir Hd Ho 0))|cv].
    + vm_compute in V. destruct V as [<-|[]]. eexists. split; [exact (does_does _ _ _ (f_configs bad cwd ord dir Hd Ho 3))|cv].
    + vm_compute in V. destruct V as [<-|[]]. eexists. split; [exact (does_does _ _ _ (f_t bad cwd ord dir Hd Ho 1))|cv].
    + eexists. split; [exact (a_tc 2 name V)|cv].
    + eexists. split; [exact (a_tcc 3 name V)|cv].
  - exists [(canon name, g)]. split; [apply a_file; [exact Hn|reflexivity]|]. cbn in Hn.
    destruct Hn as [Hn|[Hn|[Hn|[]]]]; injection Hn as Hn <-; rewrite <- Hn; cv.
Qed.
End A.
Lemma restoreF_any bad cwd ord dir name d s path g : dir <> [] -> (forall l, Permutation l (ord l)) -> stands_for name d ->
  In (path, g) embedded -> chosen d path -> let B := place_of cwd dir in
  exists s' ok, restoreAssetsF bad cwd ord 4 dir name s = (s', ok)
    /\ (ok = true -> forall path g, In (path, g) embedded -> chosen d path -> copiedF s' (spot B path) g)
    /\ (forall pl, (forall path, In path paths -> chosen d path -> pl <> spot B path) -> d_files s' !! pl = d_files s !! pl).
Proof.
  intros Hd Ho Hst Hin Hc. cbv zeta. pose proof (stands_canon _ _ Hst) as E. subst d.
  assert (Hn : In (canon name) dirs \/ exists g, In (canon name, g) embedded).
  { destruct Hc as [<-|[rest Hu]]; [right; exists g; exact Hin|]. left. apply (entry_dirs (canon name) (first_comp rest)). exists path, rest. rewrite names_paths.
    split; [exact (in_map fst _ _ Hin)|]. auto. }
  destruct (a_any bad cwd ord dir Hd Ho name Hn) as (l & W & G). destruct (goodb_spec _ _ G) as [_ Gi]. specialize (W s).
  destruct (restoreAssetsF bad cwd ord 4 dir name s) as [s' ok]. cbn [fst snd] in W. destruct W as (W1 & W2). exists s', ok. split; [reflexivity|]. split.
  - intros E p g' Hp Hch. apply (W2 E (p, g')). apply Gi. auto.
  - intros pl Hpl. apply W1. intros x Hx. apply Gi in Hx. apply Hpl; [exact (in_map fst _ _ (proj1 Hx))|exact (proj2 Hx)].
Qed.
