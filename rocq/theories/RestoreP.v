(** Proofs about the restoring of embedded files (C147) *)
From Coq Require Import String.
From stdpp Require Import gmap.
From Verif Require Import Base AssetM SpecAsset AssetP LogFileM SpecLogFile LogFileP RestoreM SpecRestore.
Local Open Scope N_scope.

Lemma joined_split s : joined (split s) = s.
Proof. exact (join_split s). Qed.
Lemma joined_cons d ps : ps <> [] -> joined (d :: ps) = d ++ 47 :: joined ps.
Proof. destruct ps; [congruence|reflexivity]. Qed.
Lemma path_place cwd dir name : dir <> [] -> place_of cwd (filePath dir name) = spot (place_of cwd dir) (canon name).
Proof.
  intros Hd. unfold filePath, spot. destruct dir as [|c d]; [congruence|].
  change (fileJoin ((c :: d) :: split (canon name))) with (pathClean (joined ((c :: d) :: split (canon name)))).
  rewrite joined_cons; [|apply split_ne]. rewrite joined_split, clean_place, !place_rooted, elems_app, names_eq.
  unfold follow. rewrite fold_left_app. reflexivity.
Qed.
Lemma copied_info s pl g : fs_files s !! pl = Some (g, fst (infoOf g), snd (infoOf g)) -> copied s pl g.
Proof. unfold copied. intros ->. destruct g; reflexivity. Qed.
Definition put (g : gen) (pl : list str) (m : gmap (list str) (gen * N * N)) := <[pl := (g, fst (infoOf g), snd (infoOf g))]> m.
Lemma above_in pl : pl ∈ above pl.
Proof. destruct pl; cbn; set_solver. Qed.
Lemma restore_one cwd dir path g s : dir <> [] -> In (path, g) embedded ->
  exists ds, restoreAsset cwd dir path s = (mkFs ds (put g (spot (place_of cwd dir) path) (fs_files s)), true).
Proof.
  intros Hd Hin. unfold restoreAsset. rewrite !(path_place cwd dir _ Hd).
  assert (E : assetOf path = Some g /\ canon path = path /\ exists n, spot (place_of cwd dir) path = n :: spot (place_of cwd dir) (canon (fileDir path))).
  { cbn in Hin. destruct Hin as [Hin|[Hin|[Hin|[]]]]; injection Hin as <- <-; (split; [vm_compute; reflexivity|]); (split; [vm_compute; reflexivity|]);
      eexists; cbv -[place_of]; reflexivity. }
  destruct E as (-> & -> & n & Ep). unfold writeFile. cbn [fs_dirs mkdirAll]. rewrite bool_decide_eq_true_2.
  - cbn [negb]. unfold chtimes. cbn [fs_files mkdirAll fs_dirs]. rewrite lookup_insert. eexists. rewrite insert_insert. reflexivity.
  - rewrite Ep. cbn [tl]. apply elem_of_union_r. apply above_in.
Qed.
Definition puts (base : list str) (l : list (str * gen)) (m : gmap (list str) (gen * N * N)) : gmap (list str) (gen * N * N) :=
  fold_left (fun m x => put (snd x) (spot base (fst x)) m) l m.
Definition xB : str * gen := (text "configs/banner.txt", GBanner).
Definition xS : str * gen := (text "configs/default.yaml", GServer).
Definition xC : str * gen := (text "test/client/configs/default.yaml", GClient).
Section R.
Context (cwd : list str) (ord : list str -> list str) (dir : str).
Hypothesis Hd : dir <> [].
Hypothesis Ho : forall l, Permutation l (ord l).
Let B := place_of cwd dir.
(** restoring [name] writes the files [ls] in one of the given orders *)
Definition writes (depth : nat) (name : str) (lss : list (list (str * gen))) : Prop :=
  forall s, exists ds l, In l lss /\ restoreAssets cwd ord depth dir name s = (mkFs ds (puts B l (fs_files s)), true).
Lemma w_file depth path g : In (path, g) embedded -> writes depth path [[(path, g)]].
Proof.
  intros Hin s. assert (E : assetDir path = None).
  { apply (file_nodir path g). unfold assetOf. cbn in Hin. destruct Hin as [Hin|[Hin|[Hin|[]]]]; injection Hin as <- <-; vm_compute; reflexivity. }
  destruct (restore_one cwd dir path g s Hd Hin) as (ds & R). exists ds, [(path, g)]. split; [left; reflexivity|].
  destruct depth; cbn [restoreAssets]; rewrite E; exact R.
Qed.
Lemma w_one depth name c lss : assetDir name = Some [c] -> writes depth (fileJoin [name; c]) lss -> writes (S depth) name lss.
Proof.
  intros E W s. cbn [restoreAssets]. rewrite E, (Permutation_length_1_inv (Ho [c])). cbn [fold_left fst snd]. exact (W s).
Qed.
Lemma puts_app l1 l2 m : puts B (l1 ++ l2) m = puts B l2 (puts B l1 m).
Proof. unfold puts. apply fold_left_app. Qed.
Lemma w_two depth name c1 c2 lss1 lss2 : assetDir name = Some [c1; c2] -> writes depth (fileJoin [name; c1]) lss1 ->
  writes depth (fileJoin [name; c2]) lss2 ->
  writes (S depth) name (flat_map (fun a => flat_map (fun b => [a ++ b; b ++ a]) lss2) lss1).
Proof.
  intros E W1 W2 s. cbn [restoreAssets]. rewrite E. destruct (Permutation_length_2_inv (Ho [c1; c2])) as [O|O]; rewrite O; cbn [fold_left fst snd].
  - destruct (W1 s) as (d1 & l1 & I1 & ->). cbn [fst snd]. destruct (W2 (mkFs d1 (puts B l1 (fs_files s)))) as (d2 & l2 & I2 & ->).
    exists d2, (l1 ++ l2). cbn [fs_files]. rewrite puts_app. split; [|reflexivity]. apply in_flat_map. exists l1. split; [exact I1|].
    apply in_flat_map. exists l2. split; [exact I2|left; reflexivity].
  - destruct (W2 s) as (d2 & l2 & I2 & ->). cbn [fst snd]. destruct (W1 (mkFs d2 (puts B l2 (fs_files s)))) as (d1 & l1 & I1 & ->).
    exists d1, (l2 ++ l1). cbn [fs_files]. rewrite puts_app. split; [|reflexivity]. apply in_flat_map. exists l1. split; [exact I1|].
    apply in_flat_map. exists l2. split; [exact I2|right; left; reflexivity].
Qed.
Local Ltac cv := vm_compute; reflexivity.
Lemma w_configs depth : writes (S depth) nConfigs [[xB; xS]; [xS; xB]].
Proof.
  apply (w_two depth nConfigs nBanner nDefault [[xB]] [[xS]]); [cv| |].
  - replace (fileJoin [nConfigs; nBanner]) with (fst xB) by cv. apply w_file. left. reflexivity.
  - replace (fileJoin [nConfigs; nDefault]) with (fst xS) by cv. apply w_file. right. left. reflexivity.
Qed.
Lemma w_tcc depth : writes (S depth) (nTest ++ 47 :: nClient ++ 47 :: nConfigs) [[xC]].
Proof.
  apply (w_one depth _ nDefault); [cv|]. replace (fileJoin _) with (fst xC) by cv. apply w_file. right. right. left. reflexivity.
Qed.
Lemma w_tc depth : writes (S (S depth)) (nTest ++ 47 :: nClient) [[xC]].
Proof. apply (w_one (S depth) _ nConfigs); [cv|]. replace (fileJoin _) with (nTest ++ 47 :: nClient ++ 47 :: nConfigs) by cv. apply w_tcc. Qed.
Lemma w_t depth : writes (S (S (S depth))) nTest [[xC]].
Proof. apply (w_one (S (S depth)) _ nClient); [cv|]. replace (fileJoin _) with (nTest ++ 47 :: nClient) by cv. apply w_tc. Qed.
Lemma w_root depth : writes (S (S (S (S depth)))) [] [[xB; xS; xC]; [xC; xB; xS]; [xS; xB; xC]; [xC; xS; xB]].
Proof.
  apply (w_two (S (S (S depth))) [] nConfigs nTest [[xB; xS]; [xS; xB]] [[xC]]); [cv| |].
  - replace (fileJoin _) with nConfigs by cv. apply w_configs.
  - replace (fileJoin _) with nTest by cv. apply w_t.
Qed.
End R.

Lemma spot_inj base p q : In p paths -> In q paths -> spot base p = spot base q -> p = q.
Proof.
  assert (H : forall p, In p paths -> spot base p = spot [] p ++ base).
  { intros r Hr. cbn in Hr. destruct Hr as [<-|[<-|[<-|[]]]]; cbv -[app]; reflexivity. }
  intros Hp Hq. rewrite (H p Hp), (H q Hq). intros E. apply app_inv_tail in E. clear H.
  cbn in Hp, Hq. destruct Hp as [<-|[<-|[<-|[]]]], Hq as [<-|[<-|[<-|[]]]]; try reflexivity; vm_compute in E; discriminate E.
Qed.
Lemma puts_other base l : forall m pl, (forall x, In x l -> pl <> spot base (fst x)) -> puts base l m !! pl = m !! pl.
Proof.
  induction l as [|x l IH]; intros m pl H; [reflexivity|]. cbn [puts fold_left]. fold (puts base l (put (snd x) (spot base (fst x)) m)).
  rewrite IH; [|intros y Hy; apply H; right; exact Hy]. unfold put. apply lookup_insert_ne. intros E. apply (H x (or_introl eq_refl)). auto.
Qed.
Lemma puts_in base l : forall m x, base.NoDup (List.map fst l) -> (forall y, In y l -> In (fst y) paths) -> In x l ->
  puts base l m !! spot base (fst x) = Some (snd x, fst (infoOf (snd x)), snd (infoOf (snd x))).
Proof.
  induction l as [|y l IH]; intros m x Hn Hp Hx; [destruct Hx|]. cbn [puts fold_left]. fold (puts base l (put (snd y) (spot base (fst y)) m)).
  cbn in Hn. apply list.NoDup_cons in Hn. destruct Hn as [Hn1 Hn2]. destruct Hx as [->|Hx].
  - rewrite puts_other; [unfold put; apply lookup_insert|]. intros z Hz E. apply spot_inj in E; [|apply Hp; left; reflexivity|apply Hp; right; exact Hz].
    apply Hn1. apply elem_of_list_In. rewrite E. apply in_map. exact Hz.
  - apply IH; [exact Hn2|intros z Hz; apply Hp; right; exact Hz|exact Hx].
Qed.
Definition goodlist (name : str) (l : list (str * gen)) : Prop :=
  base.NoDup (List.map fst l) /\ (forall x, In x l <-> In x embedded /\ chosen name (fst x)).
Definition chosenb (name path : str) : bool := bool_decide (path = name) || match under name path with Some _ => true | None => false end.
Lemma chosenb_spec name path : chosenb name path = true <-> chosen name path.
Proof.
  unfold chosenb, chosen. rewrite orb_true_iff, bool_decide_eq_true. destruct (under name path); split; intros [H|H]; auto; try discriminate H.
  - right. eexists. reflexivity.
  - destruct H as [r H]. discriminate H.
Qed.
Definition goodb (name : str) (l : list (str * gen)) : bool :=
  bool_decide (base.NoDup (List.map fst l)) && forallb (fun x => bool_decide (x ∈ embedded) && chosenb name (fst x)) l
  && forallb (fun x => implb (chosenb name (fst x)) (bool_decide (x ∈ l))) embedded.
Lemma goodb_spec name l : goodb name l = true -> goodlist name l.
Proof.
  unfold goodb. rewrite !andb_true_iff, !forallb_forall, bool_decide_eq_true. intros [[H1 H2] H3]. split; [exact H1|]. intros x. split.
  - intros Hx. specialize (H2 x Hx). apply andb_true_iff in H2. destruct H2 as [H2 H4]. apply bool_decide_eq_true, elem_of_list_In in H2.
    split; [exact H2|]. apply chosenb_spec. exact H4.
  - intros [Hx Hc]. specialize (H3 x Hx). apply chosenb_spec in Hc. rewrite Hc in H3. cbn in H3. apply bool_decide_eq_true, elem_of_list_In in H3. exact H3.
Qed.
Lemma canon_id name : ~ In 92 name -> canon name = name.
Proof.
  induction name as [|c t IH]; [reflexivity|]. intros H. unfold canon in *. cbn [List.map]. rewrite IH; [|intros K; apply H; right; exact K].
  destruct (N.eqb_spec c 92) as [->|]; [destruct H; left; reflexivity|reflexivity].
Qed.
Lemma restore_all cwd ord dir name s path g : dir <> [] -> (forall l, Permutation l (ord l)) -> ~ In 92 name ->
  In (path, g) embedded -> chosen name path ->
  exists s', restoreAssets cwd ord 4 dir name s = (s', true)
    /\ (forall path g, In (path, g) embedded -> chosen name path -> copied s' (spot (place_of cwd dir) path) g)
    /\ (forall pl, (forall path, In path paths -> chosen name path -> pl <> spot (place_of cwd dir) path) -> fs_files s' !! pl = fs_files s !! pl).
Proof.
  intros Hd Ho Hb Hin Hc.
  assert (W : exists lss, writes cwd ord dir 4 name lss /\ forallb (goodb name) lss = true).
  { assert (Hn : In name dirs \/ exists g, In (name, g) embedded).
    { destruct Hc as [<-|[rest Hu]]; [right; exists g; exact Hin|]. left. apply (entry_dirs name (first_comp rest)). exists path, rest. rewrite names_paths.
      split; [exact (in_map fst _ _ Hin)|]. auto. }
    destruct Hn as [Hn|[g' Hn]].
    - cbn in Hn. destruct Hn as [<-|[<-|[<-|[<-|[<-|[]]]]]].
      + eexists. split; [exact (w_root cwd ord dir Hd Ho 0)|vm_compute; reflexivity].
      + eexists. split; [exact (w_configs cwd ord dir Hd Ho 3)|vm_compute; reflexivity].
      + eexists. split; [exact (w_t cwd ord dir Hd Ho 1)|vm_compute; reflexivity].
      + eexists. split; [exact (w_tc cwd ord dir Hd Ho 2)|vm_compute; reflexivity].
      + eexists. split; [exact (w_tcc cwd ord dir Hd Ho 3)|vm_compute; reflexivity].
    - eexists. split; [exact (w_file cwd ord dir Hd 4 name g' Hn)|]. cbn in Hn.
      destruct Hn as [Hn|[Hn|[Hn|[]]]]; injection Hn as <- <-; vm_compute; reflexivity. }
  destruct W as (lss & W & G). destruct (W s) as (ds & l & Hl & R). rewrite forallb_forall in G. destruct (goodb_spec _ _ (G l Hl)) as [Gn Gi].
  eexists. split; [exact R|]. cbn [fs_files]. split.
  - intros p g' Hp Hch. apply copied_info. apply (puts_in (place_of cwd dir) l (fs_files s) (p, g') Gn).
    + intros y Hy. apply Gi in Hy. exact (in_map fst _ _ (proj1 Hy)).
    + apply Gi. auto.
  - intros pl Hpl. apply puts_other. intros x Hx. apply Gi in Hx. apply Hpl; [exact (in_map fst _ _ (proj1 Hx))|exact (proj2 Hx)].
Qed.
Lemma restore_none cwd ord dir name s : ~ In 92 name -> (forall path, In path paths -> ~ chosen name path) ->
  restoreAssets cwd ord 4 dir name s = (s, false) /\ restoreAsset cwd dir name s = (s, false).
Proof.
  intros Hb Hn. assert (A : assetOf name = None).
  { destruct (assetOf name) as [g|] eqn:E; [exfalso|reflexivity]. unfold assetOf in E. rewrite (canon_id name Hb) in E. apply assoc_in in E.
    rewrite bindata_embedded in E. apply (Hn name); [exact (in_map fst _ _ E)|left; reflexivity]. }
  assert (D : assetDir name = None).
  { apply asset_nodir. rewrite (canon_id name Hb). intros c (path & rest & Hp & Hu & _). rewrite names_paths in Hp. apply (Hn path Hp). right. eauto. }
  assert (R : restoreAsset cwd dir name s = (s, false)) by (unfold restoreAsset; rewrite A; reflexivity).
  split; [|exact R]. cbn [restoreAssets]. rewrite D. exact R.
Qed.
(** with backslashes the directory of the file is not made *)
Lemma restore_backslash cwd dir fs : dir <> [] -> fs_dirs fs = above (place_of cwd dir) ->
  snd (restoreAsset cwd dir (text "configs\banner.txt") fs) = false.
Proof.
  intros Hd Hf. unfold restoreAsset. rewrite !(path_place cwd dir _ Hd).
  replace (assetOf (text "configs\banner.txt")) with (Some GBanner) by (vm_compute; reflexivity).
  replace (canon (text "configs\banner.txt")) with (text "configs/banner.txt") by (vm_compute; reflexivity).
  replace (canon (fileDir (text "configs\banner.txt"))) with [46] by (vm_compute; reflexivity).
  change (spot (place_of cwd dir) [46]) with (place_of cwd dir).
  replace (spot (place_of cwd dir) (text "configs/banner.txt")) with (nBanner :: nConfigs :: place_of cwd dir) by (cbv -[place_of]; reflexivity).
  unfold writeFile. cbn [fs_dirs mkdirAll tl]. rewrite Hf. rewrite bool_decide_eq_false_2; [reflexivity|].
  assert (H : forall pl x, x ∈ above pl -> (length x <= length pl)%nat).
  { induction pl as [|n t IH]; intros x Hx; cbn [above] in Hx; apply elem_of_union in Hx; destruct Hx as [Hx|Hx].
    - apply elem_of_singleton in Hx. subst. lia.
    - set_solver.
    - apply elem_of_singleton in Hx. subst. lia.
    - specialize (IH x Hx). cbn. lia. }
  intros K. apply elem_of_union in K. destruct K as [K|K]; apply H in K; cbn in K; lia.
Qed.
