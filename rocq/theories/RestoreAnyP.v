(** Restoring embedded files under names with both kinds of slash (C147) *)
From Coq Require Import String.
From stdpp Require Import gmap.
From Verif Require Import Base AssetM SpecAsset AssetP LogFileM SpecLogFile LogFileP RestoreM SpecRestore RestoreP.
Local Open Scope N_scope.

Fixpoint variants (p : str) : list str :=
  match p with
  | [] => [[]]
  | c :: t => if c =? 47 then List.map (cons 47) (variants t) ++ List.map (cons 92) (variants t) else List.map (cons c) (variants t)
  end.
Lemma stands_canon name d : stands_for name d -> canon name = d.
Proof.
  intros [H K]. unfold same_path in H. induction H as [|x y name d Hxy H IH]; [reflexivity|]. inversion K as [|? ? Hy K']; subst.
  unfold canon in *. cbn [List.map]. rewrite (IH K'). destruct Hxy as [-> |[-> ->]]; [|reflexivity]. destruct (N.eqb_spec y 92); [congruence|reflexivity].
Qed.
Lemma canon_stands name : stands_for name (canon name).
Proof.
  split.
  - unfold same_path. induction name as [|c t IH]; [constructor|]. cbn [canon List.map]. constructor; [|exact IH].
    destruct (N.eqb_spec c 92) as [->|]; auto.
  - induction name as [|c t IH]; constructor; [|exact IH]. destruct (N.eqb_spec c 92) as [->|]; [discriminate|assumption].
Qed.
Lemma canon_variants name : In name (variants (canon name)).
Proof.
  induction name as [|c t IH]; [left; reflexivity|]. cbn [canon List.map variants]. fold (canon t). destruct (N.eqb_spec c 92) as [->|Hc].
  - cbn [N.eqb Pos.eqb]. apply in_or_app. right. apply in_map. exact IH.
  - destruct (N.eqb_spec c 47) as [->|]; [apply in_or_app; left|]; apply in_map; exact IH.
Qed.
(** one file *)
Lemma asset_any name g : In (canon name, g) embedded -> assetOf name = Some g.
Proof.
  intros Hin. unfold assetOf. cbn in Hin. destruct Hin as [Hin|[Hin|[Hin|[]]]]; injection Hin as Hin <-; rewrite <- Hin; vm_compute; reflexivity.
Qed.
Lemma spot_dir base path : In path paths -> exists n, spot base path = n :: spot base (fileDir path).
Proof. intros H. cbn in H. destruct H as [<-|[<-|[<-|[]]]]; eexists; cbv; reflexivity. Qed.
Lemma restore_file cwd dir name g s : dir <> [] -> In (canon name, g) embedded -> let pl := spot (place_of cwd dir) (canon name) in
  tl pl ∈ fs_dirs s \/ canon (fileDir name) = fileDir (canon name) ->
  exists ds, restoreAsset cwd dir name s = (mkFs ds (put g pl (fs_files s)), true).
Proof.
  intros Hd Hin pl H. unfold restoreAsset. rewrite !(path_place cwd dir _ Hd), (asset_any name g Hin).
  unfold writeFile. cbn [fs_dirs mkdirAll]. rewrite bool_decide_eq_true_2.
  - cbn [negb]. unfold chtimes. cbn [fs_files mkdirAll fs_dirs]. rewrite lookup_insert. eexists. rewrite insert_insert. reflexivity.
  - destruct H as [H|H]; [apply elem_of_union_l; exact H|]. rewrite H. apply elem_of_union_r.
    destruct (spot_dir (place_of cwd dir) (canon name) (in_map fst _ _ Hin)) as (n & Ep). rewrite Ep. apply above_in.
Qed.
Lemma above_short pl x : x ∈ above pl -> (length x <= length pl)%nat.
Proof.
  revert x. induction pl as [|n t IH]; intros x Hx; cbn [above] in Hx; apply elem_of_union in Hx; destruct Hx as [Hx|Hx].
  - apply elem_of_singleton in Hx. subst. lia.
  - set_solver.
  - apply elem_of_singleton in Hx. subst. lia.
  - specialize (IH x Hx). cbn. lia.
Qed.
Definition short (name : str) : bool := (S (length (spot [] (canon (fileDir name)))) <? length (spot [] (canon name)))%nat.
Definition sepb (name : str) : bool :=
  match last_sep name with Some c => if c =? 47 then bool_decide (canon (fileDir name) = fileDir (canon name)) else (c =? 92) && short name | None => false end.
Lemma sep_all : forallb (fun p => forallb sepb (variants p)) paths = true.
Proof. vm_compute. reflexivity. Qed.
Lemma spot_length base p : In p (List.map canon (List.map fileDir (flat_map variants paths)) ++ paths) -> length (spot base p) = (length (spot [] p) + length base)%nat.
Proof.
  assert (H : forall ps, In ps (List.map names (List.map canon (List.map fileDir (flat_map variants paths)) ++ paths)) ->
    length (follow base ps) = (length (follow [] ps) + length base)%nat).
  { intros ps Hps. vm_compute in Hps. repeat (destruct Hps as [<-|Hps]; [cbv -[length Nat.add]; cbn [length]; lia|]). destruct Hps. }
  intros Hp. apply H, in_map, Hp.
Qed.
Lemma restore_lost cwd dir name g s : dir <> [] -> In (canon name, g) embedded -> let pl := spot (place_of cwd dir) (canon name) in
  tl pl ∉ fs_dirs s -> short name = true -> exists ds, restoreAsset cwd dir name s = (mkFs ds (fs_files s), false).
Proof.
  intros Hd Hin pl H Hs. unfold restoreAsset. rewrite !(path_place cwd dir _ Hd), (asset_any name g Hin).
  unfold writeFile. cbn [fs_dirs mkdirAll]. rewrite bool_decide_eq_false_2; [eexists; reflexivity|].
  intros K. apply elem_of_union in K as [K|K]; [exact (H K)|]. apply above_short in K. unfold short in Hs. apply Nat.ltb_lt in Hs.
  assert (Hp : In (canon name) paths) by exact (in_map fst _ _ Hin).
  rewrite (spot_length _ (canon (fileDir name))) in K.
  2:{ apply in_or_app. left. apply in_map, in_map, in_flat_map. exists (canon name). split; [exact Hp|apply canon_variants]. }
  pose proof (spot_length (place_of cwd dir) (canon name) ltac:(apply in_or_app; right; exact Hp)) as L.
  destruct (spot (place_of cwd dir) (canon name)) as [|n t] eqn:Ep; cbn [tl length] in *; lia.
Qed.
Lemma nodir_any name g : In (canon name, g) embedded -> assetDir name = None.
Proof. intros Hin. apply (file_nodir name g), asset_any, Hin. Qed.
Lemma restores_file cwd ord dir name g s : In (canon name, g) embedded -> restoreAssets cwd ord 4 dir name s = restoreAsset cwd dir name s.
Proof. intros Hin. cbn [restoreAssets]. rewrite (nodir_any name g Hin). reflexivity. Qed.
Lemma one_file cwd ord dir name path g s : dir <> [] -> stands_for name path -> In (path, g) embedded ->
  let pl := spot (place_of cwd dir) path in
  restoreAssets cwd ord 4 dir name s = restoreAsset cwd dir name s
  /\ exists s' ok, restoreAsset cwd dir name s = (s', ok)
     /\ (ok = true <-> last_sep name = Some 47 \/ tl pl ∈ fs_dirs s)
     /\ (ok = true -> copied s' pl g) /\ (ok = false -> fs_files s' = fs_files s)
     /\ forall pl', pl' <> pl -> fs_files s' !! pl' = fs_files s !! pl'.
Proof.
  intros Hd Hst Hin pl. pose proof (stands_canon _ _ Hst) as E. subst path. split; [exact (restores_file cwd ord dir name g s Hin)|].
  pose proof sep_all as HS. rewrite forallb_forall in HS. specialize (HS (canon name) (in_map fst _ _ Hin)). rewrite forallb_forall in HS.
  specialize (HS name (canon_variants name)). unfold sepb in HS. destruct (last_sep name) as [c|] eqn:Es; [|discriminate].
  assert (Good : tl pl ∈ fs_dirs s \/ canon (fileDir name) = fileDir (canon name) -> c = 47 \/ tl pl ∈ fs_dirs s ->
    exists s' ok, restoreAsset cwd dir name s = (s', ok) /\ (ok = true <-> Some c = Some 47 \/ tl pl ∈ fs_dirs s)
     /\ (ok = true -> copied s' pl g) /\ (ok = false -> fs_files s' = fs_files s) /\ forall pl', pl' <> pl -> fs_files s' !! pl' = fs_files s !! pl').
  { intros H Hc. destruct (restore_file cwd dir name g s Hd Hin H) as (ds & R). eexists _, true. split; [exact R|]. split.
    - split; [intros _|reflexivity]. destruct Hc as [-> |Hc]; auto.
    - cbn [fs_files]. split; [intros _; apply copied_info; apply lookup_insert|]. split; [discriminate|]. intros pl' Hne. apply lookup_insert_ne. intros X. exact (Hne (eq_sym X)). }
  destruct (N.eqb_spec c 47) as [->|Hc].
  - apply bool_decide_eq_true in HS. apply Good; auto.
  - apply andb_prop in HS as (Hc' & HS). destruct (decide (tl pl ∈ fs_dirs s)) as [Hd'|Hd']; [apply Good; auto|].
    destruct (restore_lost cwd dir name g s Hd Hin Hd' HS) as (ds & R). eexists _, false. split; [exact R|]. split.
    + split; [discriminate|]. intros [[= ->]|K]; [congruence|contradiction].
    + split; [discriminate|]. split; reflexivity.
Qed.
(** directories *)
Section R.
Context (cwd : list str) (ord : list str -> list str) (dir : str).
Context (Hd : dir <> []) (Ho : forall l, Permutation l (ord l)).
Lemma v_file depth name g path : In (path, g) embedded -> canon name = path -> canon (fileDir name) = fileDir (canon name) ->
  writes cwd ord dir depth name [[(path, g)]].
Proof.
  intros Hin <- Hs s. destruct (restore_file cwd dir name g s Hd Hin (or_intror Hs)) as (ds & R). exists ds, [(canon name, g)]. split; [left; reflexivity|].
  destruct depth; cbn [restoreAssets]; rewrite (nodir_any name g Hin); exact R.
Qed.
Local Ltac cv := vm_compute; reflexivity.
Local Ltac isin := match goal with |- In ?x ?l => let v := eval vm_compute in l in change (In x v); let y := eval vm_compute in x in change x with y; cbn [In]; tauto end.
Lemma v_tcc depth name : In name (variants (nTest ++ 47 :: nClient ++ 47 :: nConfigs)) -> writes cwd ord dir (S depth) name [[xC]].
Proof.
  intros H. vm_compute in H. destruct H as [<-|[<-|[<-|[<-|[]]]]]; (apply (w_one cwd ord dir Ho depth _ nDefault); [cv|]; apply v_file; [right; right; left; reflexivity|cv|cv]).
Qed.
Lemma v_tc depth name : In name (variants (nTest ++ 47 :: nClient)) -> writes cwd ord dir (S (S depth)) name [[xC]].
Proof.
  intros H. vm_compute in H. destruct H as [<-|[<-|[]]]; (apply (w_one cwd ord dir Ho (S depth) _ nConfigs); [cv|]; apply v_tcc; isin).
Qed.
Lemma dir_variants name : In (canon name) dirs -> exists lss, writes cwd ord dir 4 name lss /\ forallb (goodb (canon name)) lss = true.
Proof.
  intros Hn. pose proof (canon_variants name) as V. cbn in Hn. destruct Hn as [Hn|[Hn|[Hn|[Hn|[Hn|[]]]]]]; rewrite <- Hn in V |- *.
  - vm_compute in V. destruct V as [<-|[]]. eexists. split; [exact (w_root cwd ord dir Hd Ho 0)|cv].
  - vm_compute in V. destruct V as [<-|[]]. eexists. split; [exact (w_configs cwd ord dir Hd Ho 3)|cv].
  - vm_compute in V. destruct V as [<-|[]]. eexists. split; [exact (w_t cwd ord dir Hd Ho 1)|cv].
  - eexists. split; [exact (v_tc 2 name V)|cv].
  - eexists. split; [exact (v_tcc 3 name V)|cv].
Qed.
End R.
Lemma one_dir cwd ord dir name d s : dir <> [] -> (forall l, Permutation l (ord l)) -> stands_for name d ->
  (exists path rest, In path paths /\ under d path = Some rest) ->
  exists s', restoreAssets cwd ord 4 dir name s = (s', true)
    /\ (forall path g, In (path, g) embedded -> chosen d path -> copied s' (spot (place_of cwd dir) path) g)
    /\ (forall pl, (forall path, In path paths -> chosen d path -> pl <> spot (place_of cwd dir) path) -> fs_files s' !! pl = fs_files s !! pl).
Proof.
  intros Hd Ho Hst (path & rest & Hp & Hu). pose proof (stands_canon _ _ Hst) as E. subst d.
  assert (Hn : In (canon name) dirs). { apply (entry_dirs (canon name) (first_comp rest)). exists path, rest. rewrite names_paths. auto. }
  destruct (dir_variants cwd ord dir Hd Ho name Hn) as (lss & W & G).
  destruct (W s) as (ds & l & Hl & R). rewrite forallb_forall in G. destruct (goodb_spec _ _ (G l Hl)) as [Gn Gi].
  eexists. split; [exact R|]. cbn [fs_files]. split.
  - intros p g' Hp' Hch. apply copied_info. apply (puts_in (place_of cwd dir) l (fs_files s) (p, g') Gn).
    + intros y Hy. apply Gi in Hy. exact (in_map fst _ _ (proj1 Hy)).
    + apply Gi. auto.
  - intros pl Hpl. apply puts_other. intros x Hx. apply Gi in Hx. apply Hpl; [exact (in_map fst _ _ (proj1 Hx))|exact (proj2 Hx)].
Qed.
Lemma none_any cwd ord dir name s : (forall d path, stands_for name d -> In path paths -> ~ chosen d path) ->
  restoreAssets cwd ord 4 dir name s = (s, false) /\ restoreAsset cwd dir name s = (s, false).
Proof.
  intros Hn. specialize (fun path => Hn (canon name) path (canon_stands name)).
  assert (A : assetOf name = None).
  { destruct (assetOf name) as [g|] eqn:E; [exfalso|reflexivity]. unfold assetOf in E. apply assoc_in in E.
    rewrite bindata_embedded in E. apply (Hn (canon name)); [exact (in_map fst _ _ E)|left; reflexivity]. }
  assert (D : assetDir name = None).
  { apply asset_nodir. intros c (path & rest & Hp & Hu & _). rewrite names_paths in Hp. apply (Hn path Hp). right. eauto. }
  assert (R : restoreAsset cwd dir name s = (s, false)) by (unfold restoreAsset; rewrite A; reflexivity).
  split; [|exact R]. cbn [restoreAssets]. rewrite D. exact R.
Qed.
