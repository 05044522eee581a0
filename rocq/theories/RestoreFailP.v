(** Restoring embedded files when operations fail (C147) *)
From Coq Require Import String.
From stdpp Require Import gmap.
From Verif Require Import Base AssetM SpecAsset AssetP LogFileM SpecLogFile LogFileP RestoreM SpecRestore RestoreP RestoreAnyP RestoreFailM SpecRestoreFail.
Local Open Scope N_scope.

Lemma copiedF_info s pl g : d_files s !! pl = Some (Some g, fst (infoOf g), snd (infoOf g)) -> copiedF s pl g.
Proof. unfold copiedF. intros ->. destruct g; reflexivity. Qed.
(** what restoring the files [l] has done *)
Record outcome (bad : nat -> option fault) (B : list str) (l : list (str * gen)) (s : disk) (s' : disk) (ok : bool) : Prop := mkOutcome {
  oc_dirs : d_dirs s ⊆ d_dirs s';
  oc_others : forall pl, (forall x, In x l -> pl <> spot B (fst x)) -> d_files s' !! pl = d_files s !! pl;
  oc_done : ok = true -> (forall x, In x l -> copiedF s' (spot B (fst x)) (snd x)) /\ d_ops s' = (d_ops s + 3 * length l)%nat
     /\ forall n, (d_ops s <= n < d_ops s')%nat -> ~ fails bad n;
  oc_failed : ok = false -> (exists n, d_ops s' = S n /\ (d_ops s <= n < d_ops s + 3 * length l)%nat /\ fails bad n
       /\ forall k, (d_ops s <= k < n)%nat -> ~ fails bad k)
     /\ exists x, In x l /\ forall y, In y l -> fst y <> fst x ->
          copiedF s' (spot B (fst y)) (snd y) \/ d_files s' !! spot B (fst y) = d_files s !! spot B (fst y) }.
Section F.
Context (bad : nat -> option fault) (cwd : list str) (ord : list str -> list str) (dir : str).
Hypothesis Hd : dir <> [].
Hypothesis Ho : forall l, Permutation l (ord l).
Let B := place_of cwd dir.
Lemma restoreF_one path g s : In (path, g) embedded ->
  outcome bad B [(path, g)] s (fst (restoreAssetF bad cwd dir path s)) (snd (restoreAssetF bad cwd dir path s)).
Proof.
  intros Hin. unfold restoreAssetF. rewrite !(path_place cwd dir _ Hd). fold B.
  assert (E : assetOf path = Some g /\ canon path = path /\ exists n, spot B path = n :: spot B (canon (fileDir path))).
  { cbn in Hin. destruct Hin as [Hin|[Hin|[Hin|[]]]]; injection Hin as <- <-; (split; [vm_compute; reflexivity|]); (split; [vm_compute; reflexivity|]);
      eexists; cbv -[place_of]; reflexivity. }
  destruct E as (-> & -> & n & Ep).
  assert (Only : forall s' : disk, exists x, In x [(path, g)] /\ forall y, In y [(path, g)] -> fst y <> fst x ->
            copiedF s' (spot B (fst y)) (snd y) \/ d_files s' !! spot B (fst y) = d_files s !! spot B (fst y)).
  { intros s'. eexists. split; [left; reflexivity|]. intros y [<-|[]] Hy. congruence. }
  unfold mkdirAllF. destruct (bad (d_ops s)) as [f0|] eqn:E0; cbn [negb fst snd].
  { split; cbn [d_dirs d_files d_ops]; [set_solver|reflexivity|discriminate|]. intros _. split; [|apply (Only (mkDisk _ _ _))].
    exists (d_ops s). split; [reflexivity|]. split; [cbn; lia|]. split; [unfold fails; congruence|]. intros k Hk. lia. }
  unfold writeFileF. cbn [d_dirs d_files d_ops]. destruct (bad (S (d_ops s))) as [f1|] eqn:E1; cbn [negb fst snd].
  { split; cbn [d_dirs d_files d_ops]; [set_solver| |discriminate|].
    - intros pl Hpl. destruct (fl_left f1); [|reflexivity]. apply lookup_insert_ne. intros K. apply (Hpl _ (or_introl eq_refl)). auto.
    - intros _. split; [|apply (Only (mkDisk _ _ _))]. exists (S (d_ops s)). split; [reflexivity|]. split; [cbn; lia|]. split; [unfold fails; congruence|].
      intros k Hk. assert (k = d_ops s) as -> by lia. unfold fails. congruence. }
  rewrite bool_decide_eq_true_2; [|rewrite Ep; cbn [tl]; apply elem_of_union_r, above_in]. cbn [negb].
  unfold chtimesF. cbn [d_dirs d_files d_ops]. rewrite lookup_insert. destruct (bad (S (S (d_ops s)))) as [f2|] eqn:E2; cbn [fst snd].
  - split; cbn [d_dirs d_files d_ops]; [set_solver| |discriminate|].
    + intros pl Hpl. apply lookup_insert_ne. intros K. apply (Hpl _ (or_introl eq_refl)). auto.
    + intros _. split; [|apply (Only (mkDisk _ _ _))]. exists (S (S (d_ops s))). split; [reflexivity|]. split; [cbn; lia|]. split; [unfold fails; congruence|].
      intros k Hk. assert (k = d_ops s \/ k = S (d_ops s)) as [-> | ->] by lia; unfold fails; congruence.
  - split; cbn [d_dirs d_files d_ops]; [set_solver| | |discriminate].
    + intros pl Hpl. rewrite insert_insert. apply lookup_insert_ne. intros K. apply (Hpl _ (or_introl eq_refl)). auto.
    + intros _. split; [|split; [cbn; lia|]].
      * intros x [<-|[]]. apply copiedF_info. cbn. rewrite lookup_insert. reflexivity.
      * intros k Hk. assert (k = d_ops s \/ k = S (d_ops s) \/ k = S (S (d_ops s))) as [-> | [-> | ->]] by lia; unfold fails; congruence.
Qed.
Definition apart (l1 l2 : list (str * gen)) : Prop := forall x y, In x l1 -> In y l2 -> spot B (fst x) <> spot B (fst y).
Lemma outcome_fail l1 l2 s s' : apart l1 l2 -> outcome bad B l1 s s' false -> outcome bad B (l1 ++ l2) s s' false.
Proof.
  intros Ha [H1 H2 _ H4]. destruct (H4 eq_refl) as ((n & N1 & N2 & N3 & N4) & x & Hx & Hy). split; [exact H1| |discriminate|].
  - intros pl Hpl. apply H2. intros y Hy'. apply Hpl, in_or_app. auto.
  - intros _. split.
    + exists n. rewrite app_length. repeat split; try assumption; lia.
    + exists x. split; [apply in_or_app; auto|]. intros y Hi Hne. apply in_app_or in Hi as [Hi|Hi]; [auto|].
      right. apply H2. intros z Hz E. exact (Ha z y Hz Hi (eq_sym E)).
Qed.
Lemma outcome_seq l1 l2 s s1 s' ok : apart l1 l2 -> outcome bad B l1 s s1 true -> outcome bad B l2 s1 s' ok -> outcome bad B (l1 ++ l2) s s' ok.
Proof.
  intros Ha [H1 H2 H3 _] [K1 K2 K3 K4]. destruct (H3 eq_refl) as (D1 & D2 & D3).
  assert (Keep : forall x, In x l1 -> copiedF s' (spot B (fst x)) (snd x)).
  { intros x Hx. unfold copiedF. rewrite K2; [exact (D1 x Hx)|]. intros y Hy. exact (Ha x y Hx Hy). }
  split.
  - etrans; eassumption.
  - intros pl Hpl. rewrite K2, H2; [reflexivity| |]; intros x Hx; apply Hpl, in_or_app; auto.
  - intros E. destruct (K3 E) as (E1 & E2 & E3). split; [|split].
    + intros x Hx. apply in_app_or in Hx as [Hx|Hx]; [exact (Keep x Hx)|exact (E1 x Hx)].
    + rewrite app_length. lia.
    + intros n Hn. destruct (Nat.lt_ge_cases n (d_ops s1)); [apply D3; lia|apply E3; lia].
  - intros E. destruct (K4 E) as ((n & N1 & N2 & N3 & N4) & x & Hx & Hy). split.
    + exists n. rewrite app_length. split; [exact N1|]. split; [lia|]. split; [exact N3|]. intros k Hk.
      destruct (Nat.lt_ge_cases k (d_ops s1)); [apply D3; lia|apply N4; lia].
    + exists x. split; [apply in_or_app; auto|]. intros y Hi Hne. apply in_app_or in Hi as [Hi|Hi]; [left; exact (Keep y Hi)|].
      destruct (Hy y Hi Hne) as [Q|Q]; [left; exact Q|right]. rewrite Q. apply H2. intros z Hz Ez. exact (Ha z y Hz Hi (eq_sym Ez)).
Qed.
Lemma outcome_perm l1 l2 s s' ok : Permutation l1 l2 -> outcome bad B l1 s s' ok -> outcome bad B l2 s s' ok.
Proof.
  intros P [H1 H2 H3 H4]. assert (I : forall x, In x l1 <-> In x l2) by (intros x; split; apply Permutation_in; [exact P|symmetry; exact P]).
  pose proof (Permutation_length P) as L. split; [exact H1| | |].
  - intros pl Hpl. apply H2. intros x Hx. apply Hpl, I, Hx.
  - intros E. destruct (H3 E) as (D1 & D2 & D3). split; [intros x Hx; apply D1, I, Hx|]. rewrite <- L. auto.
  - intros E. destruct (H4 E) as (N & x & Hx & Hy). rewrite <- L. split; [exact N|]. exists x. split; [apply I, Hx|]. intros y Hyy. apply Hy, I, Hyy.
Qed.
Definition does (depth : nat) (name : str) (l : list (str * gen)) : Prop := forall s,
  outcome bad B l s (fst (restoreAssetsF bad cwd ord depth dir name s)) (snd (restoreAssetsF bad cwd ord depth dir name s)).
Lemma f_file depth path g : In (path, g) embedded -> does depth path [(path, g)].
Proof.
  intros Hin s. assert (E : assetDir path = None).
  { apply (file_nodir path g). unfold assetOf. cbn in Hin. destruct Hin as [Hin|[Hin|[Hin|[]]]]; injection Hin as <- <-; vm_compute; reflexivity. }
  destruct depth; cbn [restoreAssetsF]; rewrite E; apply restoreF_one; exact Hin.
Qed.
Lemma f_one depth name c l : assetDir name = Some [c] -> does depth (fileJoin [name; c]) l -> does (S depth) name l.
Proof.
  intros E W s. cbn [restoreAssetsF]. rewrite E, (Permutation_length_1_inv (Ho [c])). cbn [fold_left fst snd]. exact (W s).
Qed.
Lemma does_seq d1 n1 l1 d2 n2 l2 s : apart l1 l2 -> does d1 n1 l1 -> does d2 n2 l2 ->
  let r := restoreAssetsF bad cwd ord d1 dir n1 s in
  let r' := if snd r then restoreAssetsF bad cwd ord d2 dir n2 (fst r) else r in outcome bad B (l1 ++ l2) s (fst r') (snd r').
Proof.
  intros Ha W1 W2. cbv zeta. specialize (W1 s). destruct (restoreAssetsF bad cwd ord d1 dir n1 s) as [s1 [|]]; cbn [fst snd] in *.
  - exact (outcome_seq _ _ _ _ _ _ Ha W1 (W2 s1)).
  - apply outcome_fail; assumption.
Qed.
Lemma f_two depth name c1 c2 l1 l2 : assetDir name = Some [c1; c2] -> apart l1 l2 -> does depth (fileJoin [name; c1]) l1 ->
  does depth (fileJoin [name; c2]) l2 -> does (S depth) name (l1 ++ l2).
Proof.
  intros E Ha W1 W2 s. cbn [restoreAssetsF]. rewrite E. destruct (Permutation_length_2_inv (Ho [c1; c2])) as [O|O]; rewrite O; cbn [fold_left fst snd].
  - exact (does_seq _ _ _ _ _ _ s Ha W1 W2).
  - apply (outcome_perm (l2 ++ l1)); [apply Permutation_app_comm|]. apply (does_seq _ _ _ _ _ _ s); [|exact W2|exact W1].
    intros x y Hx Hy K. exact (Ha y x Hy Hx (eq_sym K)).
Qed.
Lemma apart_paths l1 l2 : (forall x, In x (l1 ++ l2) -> In (fst x) paths) -> base.NoDup (List.map fst (l1 ++ l2)) -> apart l1 l2.
Proof.
  intros Hp Hn x y Hx Hy E. apply spot_inj in E; [|apply Hp, in_or_app; auto|apply Hp, in_or_app; auto].
  rewrite map_app in Hn. apply NoDup_app in Hn as (_ & Hn & _). apply (Hn (fst x)); apply elem_of_list_In; [apply in_map; exact Hx|].
  rewrite E. apply in_map. exact Hy.
Qed.
Local Ltac cv := vm_compute; reflexivity.
Local Ltac sep := apply apart_paths; [intros x Hx; cbn in Hx; repeat (destruct Hx as [<-|Hx]; [first [left; reflexivity|right; left; reflexivity|right; right; left; reflexivity]|]); destruct Hx
  |apply (bool_decide_eq_true_1 _); vm_compute; reflexivity].
Lemma f_configs depth : does (S depth) nConfigs ([xB] ++ [xS]).
Proof.
  apply (f_two depth nConfigs nBanner nDefault); [cv|sep| |].
  - replace (fileJoin [nConfigs; nBanner]) with (fst xB) by cv. apply f_file. left. reflexivity.
  - replace (fileJoin [nConfigs; nDefault]) with (fst xS) by cv. apply f_file. right. left. reflexivity.
Qed.
Lemma f_tcc depth : does (S depth) (nTest ++ 47 :: nClient ++ 47 :: nConfigs) [xC].
Proof.
  apply (f_one depth _ nDefault); [cv|]. replace (fileJoin _) with (fst xC) by cv. apply f_file. right. right. left. reflexivity.
Qed.
Lemma f_tc depth : does (S (S depth)) (nTest ++ 47 :: nClient) [xC].
Proof. apply (f_one (S depth) _ nConfigs); [cv|]. replace (fileJoin _) with (nTest ++ 47 :: nClient ++ 47 :: nConfigs) by cv. apply f_tcc. Qed.
Lemma f_t depth : does (S (S (S depth))) nTest [xC].
Proof. apply (f_one (S (S depth)) _ nClient); [cv|]. replace (fileJoin _) with (nTest ++ 47 :: nClient) by cv. apply f_tc. Qed.
Lemma f_root depth : does (S (S (S (S depth)))) [] (([xB] ++ [xS]) ++ [xC]).
Proof.
  apply (f_two (S (S (S depth))) [] nConfigs nTest); [cv|sep| |].
  - replace (fileJoin _) with nConfigs by cv. apply f_configs.
  - replace (fileJoin _) with nTest by cv. apply f_t.
Qed.
End F.
Lemma restoreF_all bad cwd ord dir name s path g : dir <> [] -> (forall l, Permutation l (ord l)) -> ~ In 92 name ->
  In (path, g) embedded -> chosen name path ->
  exists l, outcome bad (place_of cwd dir) l s (fst (restoreAssetsF bad cwd ord 4 dir name s)) (snd (restoreAssetsF bad cwd ord 4 dir name s))
    /\ goodlist name l /\ length l = length (chosen_in name embedded).
Proof.
  intros Hd Ho Hb Hin Hc.
  assert (W : exists l, does bad cwd ord dir 4 name l /\ goodb name l && (length l =? length (chosen_in name embedded))%nat = true).
  { assert (Hn : In name dirs \/ exists g, In (name, g) embedded).
    { destruct Hc as [<-|[rest Hu]]; [right; exists g; exact Hin|]. left. apply (entry_dirs name (first_comp rest)). exists path, rest. rewrite names_paths.
      split; [exact (in_map fst _ _ Hin)|]. auto. }
    destruct Hn as [Hn|[g' Hn]].
    - cbn in Hn. destruct Hn as [<-|[<-|[<-|[<-|[<-|[]]]]]].
      + eexists. split; [exact (f_root bad cwd ord dir Hd Ho 0)|vm_compute; reflexivity].
      + eexists. split; [exact (f_configs bad cwd ord dir Hd Ho 3)|vm_compute; reflexivity].
      + eexists. split; [exact (f_t bad cwd ord dir Hd Ho 1)|vm_compute; reflexivity].
      + eexists. split; [exact (f_tc bad cwd ord dir Hd Ho 2)|vm_compute; reflexivity].
      + eexists. split; [exact (f_tcc bad cwd ord dir Hd Ho 3)|vm_compute; reflexivity].
    - eexists. split; [exact (f_file bad cwd ord dir Hd Ho 4 name g' Hn)|]. cbn in Hn.
      destruct Hn as [Hn|[Hn|[Hn|[]]]]; injection Hn as <- <-; vm_compute; reflexivity. }
  destruct W as (l & W & G). apply andb_true_iff in G as (G1 & G2). exists l. split; [exact (W s)|]. split; [exact (goodb_spec _ _ G1)|].
  apply Nat.eqb_eq, G2.
Qed.
Lemma restoreF_spec bad cwd ord dir name s path g : dir <> [] -> (forall l, Permutation l (ord l)) -> ~ In 92 name ->
  In (path, g) embedded -> chosen name path ->
  let total := (3 * length (chosen_in name embedded))%nat in let B := place_of cwd dir in
  exists s' ok, restoreAssetsF bad cwd ord 4 dir name s = (s', ok)
    /\ (ok = true <-> forall n, (d_ops s <= n < d_ops s + total)%nat -> ~ fails bad n)
    /\ (ok = true -> forall path g, In (path, g) embedded -> chosen name path -> copiedF s' (spot B path) g)
    /\ (ok = true -> d_ops s' = (d_ops s + total)%nat)
    /\ (ok = false -> exists n, d_ops s' = S n /\ fails bad n /\ forall k, (d_ops s <= k < n)%nat -> ~ fails bad k)
    /\ (ok = false -> exists path, In path paths /\ chosen name path /\ forall path' g, In (path', g) embedded -> chosen name path' -> path' <> path ->
          copiedF s' (spot B path') g \/ d_files s' !! spot B path' = d_files s !! spot B path')
    /\ (forall pl, (forall path, In path paths -> chosen name path -> pl <> spot B path) -> d_files s' !! pl = d_files s !! pl).
Proof.
  intros Hd Ho Hb Hin Hc. cbv zeta. destruct (restoreF_all bad cwd ord dir name s path g Hd Ho Hb Hin Hc) as (l & O & (Gn & Gi) & L).
  destruct (restoreAssetsF bad cwd ord 4 dir name s) as [s' ok]. cbn [fst snd] in O. exists s', ok. split; [reflexivity|].
  destruct O as [H1 H2 H3 H4]. rewrite <- L. split; [|split; [|split; [|split; [|split]]]].
  - destruct ok.
    + destruct (H3 eq_refl) as (D1 & D2 & D3). split; [|reflexivity]. intros _ n Hn. apply D3. rewrite D2. exact Hn.
    + destruct (H4 eq_refl) as ((n & N1 & N2 & N3 & N4) & _). split; [discriminate|]. intros K. destruct (K n N2 N3).
  - intros E p g' Hp Hch. destruct (H3 E) as (D1 & _). apply (D1 (p, g')). apply Gi. auto.
  - intros E. apply H3, E.
  - intros E. destruct (H4 E) as ((n & N1 & N2 & N3 & N4) & _). eauto.
  - intros E. destruct (H4 E) as (_ & x & Hx & Hy). apply Gi in Hx as (Hx1 & Hx2). exists (fst x). split; [exact (in_map fst _ _ Hx1)|].
    split; [exact Hx2|]. intros p g' Hp Hch Hne. apply (Hy (p, g')); [apply Gi; auto|exact Hne].
  - intros pl Hpl. apply H2. intros x Hx. apply Gi in Hx. apply Hpl; [exact (in_map fst _ _ (proj1 Hx))|exact (proj2 Hx)].
Qed.

(** * without failing operations it is the other model *)
Definition looks (s : fsys) (t : disk) : Prop := d_dirs t = d_dirs (diskOf s) /\ d_files t = d_files (diskOf s).
Definition alike (r : fsys * bool) (r' : disk * bool) : Prop := looks (fst r) (fst r') /\ snd r = snd r'.
Lemma same_one cwd dir name s t : looks s t -> alike (restoreAsset cwd dir name s) (restoreAssetF (fun _ => None) cwd dir name t).
Proof.
  intros (Ld & Lf). unfold restoreAsset, restoreAssetF. destruct (assetOf name) as [g|]; [|repeat split; assumption].
  unfold mkdirAllF, mkdirAll, writeFile, writeFileF. cbn [negb d_dirs d_files fs_dirs fs_files]. rewrite Ld. cbn [diskOf d_dirs].
  case_bool_decide; cbn [negb].
  - unfold chtimes, chtimesF. cbn [d_dirs d_files fs_dirs fs_files]. rewrite !lookup_insert. split; [|reflexivity]. split; [reflexivity|].
    cbn [fst d_files diskOf fs_files]. rewrite !insert_insert, fmap_insert, Lf. reflexivity.
  - split; [|reflexivity]. split; [reflexivity|exact Lf].
Qed.
Lemma same_all cwd ord dir : forall depth name s t, looks s t ->
  alike (restoreAssets cwd ord depth dir name s) (restoreAssetsF (fun _ => None) cwd ord depth dir name t).
Proof.
  induction depth as [|depth IH]; intros name s t L; cbn [restoreAssets restoreAssetsF]; (destruct (assetDir name) as [cs|]; [|apply same_one; exact L]).
  { split; [exact L|reflexivity]. }
  assert (G : forall l r r', alike r r' ->
    alike (fold_left (fun (r : fsys * bool) child => if snd r then restoreAssets cwd ord depth dir (fileJoin [name; child]) (fst r) else r) l r)
          (fold_left (fun (r : disk * bool) child => if snd r then restoreAssetsF (fun _ => None) cwd ord depth dir (fileJoin [name; child]) (fst r) else r) l r')).
  { induction l as [|c l IHl]; intros r r' A; [exact A|]. cbn [fold_left]. apply IHl. destruct A as (A1 & A2). rewrite <- A2.
    destruct (snd r) eqn:E; [apply IH; exact A1|]. split; [exact A1|congruence]. }
  apply G. split; [exact L|reflexivity].
Qed.
Lemma same_restore cwd ord depth dir name s : let r := restoreAssets cwd ord depth dir name s in
  let r' := restoreAssetsF (fun _ => None) cwd ord depth dir name (diskOf s) in
  snd r' = snd r /\ d_dirs (fst r') = d_dirs (diskOf (fst r)) /\ d_files (fst r') = d_files (diskOf (fst r)).
Proof.
  cbv zeta. destruct (same_all cwd ord dir depth name s (diskOf s)) as ((H1 & H2) & H3); [split; reflexivity|]. auto.
Qed.
(** a name that stands for nothing embedded *)
Lemma noneF bad cwd ord dir name s : (forall d path, stands_for name d -> In path paths -> ~ chosen d path) ->
  restoreAssetsF bad cwd ord 4 dir name s = (s, false) /\ restoreAssetF bad cwd dir name s = (s, false).
Proof.
  intros Hn. specialize (fun path => Hn (canon name) path (canon_stands name)).
  assert (A : assetOf name = None).
  { destruct (assetOf name) as [g|] eqn:E; [exfalso|reflexivity]. unfold assetOf in E. apply assoc_in in E.
    rewrite bindata_embedded in E. apply (Hn (canon name)); [exact (in_map fst _ _ E)|left; reflexivity]. }
  assert (D : assetDir name = None).
  { apply asset_nodir. intros c (path & rest & Hp & Hu & _). rewrite names_paths in Hp. apply (Hn path Hp). right. eauto. }
  assert (R : restoreAssetF bad cwd dir name s = (s, false)) by (unfold restoreAssetF; rewrite A; reflexivity).
  split; [|exact R]. cbn [restoreAssetsF]. rewrite D. exact R.
Qed.
