(** Proofs of C123: the embedded files *)
From stdpp Require Import gmap.
From Verif Require Import Base AssetM SpecAsset.
Local Open Scope N_scope.

Lemma assoc_in {A} k (a : A) l : assoc k l = Some a -> In (k, a) l.
Proof.
  induction l as [|[k' a'] t IH]; cbn; [discriminate|]. case_bool_decide as H.
  - intros E. injection E as ->. subst. auto.
  - auto.
Qed.
Lemma assoc_of {A} k (a : A) l : base.NoDup (List.map fst l) -> In (k, a) l -> assoc k l = Some a.
Proof.
  induction l as [|[k' a'] t IH]; cbn; [tauto|]. intros Hn [H|H].
  - injection H as -> ->. rewrite bool_decide_eq_true_2; [reflexivity|reflexivity].
  - apply list.NoDup_cons in Hn. destruct Hn as [Hn1 Hn2]. case_bool_decide as E; [|auto]. subst. exfalso. apply Hn1.
    apply elem_of_list_In. apply (in_map fst) in H. exact H.
Qed.

Lemma canon_same name path : Forall (fun c => c <> 92) path -> canon name = path <-> same_path name path.
Proof.
  intros H. unfold canon, same_path. split.
  - intros <-. clear H. induction name as [|c t IH]; cbn; constructor; [|exact IH].
    destruct (N.eqb_spec c 92); auto.
  - intros H2. induction H2 as [|c d s t Hc Ht IH]; [reflexivity|]. cbn. apply Forall_cons_iff in H. destruct H as [Hd Hp].
    rewrite (IH Hp). f_equal. destruct Hc as [->|[-> ->]]; [|reflexivity]. destruct (N.eqb_spec d 92); congruence.
Qed.
Lemma bindata_plain : Forall (fun x => Forall (fun c => c <> 92) (fst x)) bindata.
Proof.
  assert (H : forallb (fun x => forallb (fun c => negb (c =? 92)) (fst x)) bindata = true) by (vm_compute; reflexivity).
  apply List.Forall_forall. intros x Hx. apply List.Forall_forall. intros c Hc ->. rewrite forallb_forall in H.
  specialize (H x Hx). rewrite forallb_forall in H. specialize (H 92 Hc). discriminate H.
Qed.
Lemma names_nodup : base.NoDup (List.map fst bindata).
Proof. apply (bool_decide_unpack _). vm_compute. exact I. Qed.
Lemma asset_found name g : assetOf name = Some g <-> exists path, In (path, g) bindata /\ same_path name path.
Proof.
  unfold assetOf. split.
  - intros H. exists (canon name). apply assoc_in in H. split; [exact H|]. apply canon_same; [|reflexivity].
    exact (proj1 (List.Forall_forall _ _) bindata_plain _ H).
  - intros (path & Hin & Hs). apply canon_same in Hs; [|exact (proj1 (List.Forall_forall _ _) bindata_plain _ Hin)].
    subst path. apply assoc_of; [exact names_nodup|exact Hin].
Qed.

Lemma bindata_embedded : bindata = embedded.
Proof. vm_compute. reflexivity. Qed.
Lemma names_paths : assetNames = paths.
Proof. vm_compute. reflexivity. Qed.
(** * directories *)
Fixpoint join (ps : list str) : str :=
  match ps with [] => [] | [p] => p | p :: ps => p ++ 47 :: join ps end.
Lemma split_ne s : split s <> [].
Proof. destruct s as [|c t]; cbn; [discriminate|]. destruct (c =? 47); [discriminate|]. destruct (split t); discriminate. Qed.
Lemma join_split s : join (split s) = s.
Proof.
  induction s as [|c t IH]; [reflexivity|]. cbn [split]. destruct (N.eqb_spec c 47) as [->|Hc].
  - destruct (split t) as [|p ps] eqn:E; [destruct (split_ne t E)|]. change (47 :: join (p :: ps) = 47 :: t). rewrite IH. reflexivity.
  - destruct (split t) as [|p ps] eqn:E; [destruct (split_ne t E)|]. rewrite <- IH. destruct ps; reflexivity.
Qed.
(** the paths of all nodes of a tree *)
Fixpoint nodes (t : bintree) : list (list str * bintree) :=
  let 'Tree _ cs := t in
  ([], t) :: (fix go l := match l with [] => [] | (n, t') :: l' => List.map (fun x => (n :: fst x, snd x)) (nodes t') ++ go l' end) cs.
Lemma walk_nodes ps : forall t t', walk t ps = Some t' -> In (ps, t') (nodes t).
Proof.
  induction ps as [|p ps IH]; intros t t' H.
  - injection H as <-. destruct t. left. reflexivity.
  - cbn in H. destruct t as [f cs]. cbn in H. destruct (assoc p cs) as [t1|] eqn:E; [|discriminate H]. right.
    specialize (IH t1 t' H). clear H. induction cs as [|[n c] cs IHc]; [discriminate E|]. cbn in E. apply in_or_app.
    case_bool_decide as Hn.
    + injection E as ->. subst n. left. apply (in_map (fun x => (p :: fst x, snd x))) in IH. exact IH.
    + right. exact (IHc E).
Qed.
Definition dirC (s : str) : option (list str) :=
  match (match s with [] => Some bintreeRoot | _ => walk bintreeRoot (split s) end) with
  | None => None
  | Some t => match bt_func t with Some _ => None | None => Some (List.map fst (bt_children t)) end
  end.
Lemma dir_canon name : assetDir name = dirC (canon name).
Proof. unfold assetDir, dirC. destruct name; reflexivity. Qed.
Definition dirs : list str :=
  [ []; nConfigs; nTest; nTest ++ 47 :: nClient; nTest ++ 47 :: nClient ++ 47 :: nConfigs ].
Lemma dirC_some s l : dirC s = Some l -> In s dirs.
Proof.
  unfold dirC. destruct s as [|c t]; [intros _; left; reflexivity|]. remember (c :: t) as s eqn:Hs.
  destruct (walk bintreeRoot (split s)) as [n|] eqn:E; [|discriminate]. apply walk_nodes in E.
  pose proof (join_split s) as J. intros Hf. cbn in E.
  repeat (destruct E as [E|E]; [injection E as Ep En; rewrite <- Ep in J; rewrite <- En in Hf; cbn in Hf; try discriminate Hf;
    rewrite <- J; cbn; auto 10|]); destruct E.
Qed.

Fixpoint cuts (path : str) : list str :=
  match path with [] => [] | c :: t => (if c =? 47 then [[]] else []) ++ List.map (cons c) (cuts t) end.
Lemma cuts_in d r : In d (cuts (d ++ 47 :: r)).
Proof.
  induction d as [|c d IH]; cbn; [left; reflexivity|]. apply in_or_app. right. apply in_map. exact IH.
Qed.
Lemma under_cuts d path rest : under d path = Some rest -> d = [] \/ In d (cuts path).
Proof.
  destruct d as [|c d]; [auto|]. remember (c :: d) as e eqn:He. unfold under. rewrite He. rewrite <- He.
  case_bool_decide as H; [|discriminate]. intros _. right.
  rewrite <- (firstn_skipn (S (length e)) path), H, <- app_assoc. apply cuts_in.
Qed.
Lemma entry_dirs d c : entry_of assetNames d c -> In d dirs.
Proof.
  intros (path & rest & Hin & Hu & _). destruct (under_cuts _ _ _ Hu) as [->|Hc]; [left; reflexivity|].
  vm_compute in Hin. destruct Hin as [<-|[<-|[<-|[]]]]; vm_compute in Hc;
    repeat (destruct Hc as [<-|Hc]; [vm_compute; auto 10|]); destruct Hc.
Qed.
Definition entries (paths : list str) (d : str) : list str :=
  flat_map (fun p => match under d p with Some r => [first_comp r] | None => [] end) paths.
Lemma entries_iff paths d c : In c (entries paths d) <-> entry_of paths d c.
Proof.
  unfold entries, entry_of. rewrite in_flat_map. split.
  - intros (p & Hp & Hc). destruct (under d p) as [r|] eqn:E; [|destruct Hc]. destruct Hc as [<-|[]]. exists p, r. auto.
  - intros (p & r & Hp & Hu & <-). exists p. split; [exact Hp|]. rewrite Hu. left. reflexivity.
Qed.
Lemma dirs_check : forallb (fun d => match dirC d with
    | Some l => forallb (fun c => bool_decide (c ∈ entries assetNames d)) l && forallb (fun c => bool_decide (c ∈ l)) (entries assetNames d)
                && bool_decide (base.NoDup l)
    | None => false end) dirs = true.
Proof. vm_compute. reflexivity. Qed.
Lemma dir_entries d : In d dirs -> exists l, dirC d = Some l /\ base.NoDup l /\ (forall c, In c l <-> entry_of assetNames d c) /\ l <> [].
Proof.
  intros H. pose proof dirs_check as K. rewrite forallb_forall in K. specialize (K d H).
  assert (Hne : entries assetNames d <> []) by (vm_compute in H; repeat (destruct H as [<-|H]; [vm_compute; discriminate|]); destruct H).
  destruct (dirC d) as [l|]; [|discriminate K]. apply andb_true_iff in K. destruct K as [K K3]. apply andb_true_iff in K. destruct K as [K1 K2].
  rewrite forallb_forall in K1, K2. exists l. split; [reflexivity|]. apply bool_decide_eq_true in K3. split; [exact K3|].
  assert (Hi : forall c, In c l <-> entry_of assetNames d c).
  { intros c. rewrite <- entries_iff. split; intros Hc.
    - specialize (K1 c Hc). apply bool_decide_eq_true in K1. apply elem_of_list_In. exact K1.
    - specialize (K2 c Hc). apply bool_decide_eq_true in K2. apply elem_of_list_In. exact K2. }
  split; [exact Hi|]. intros ->. destruct (entries assetNames d) as [|c t] eqn:E; [congruence|].
  apply (proj2 (Hi c)). apply entries_iff. rewrite E. left. reflexivity.
Qed.
Lemma asset_dir name l : assetDir name = Some l -> base.NoDup l /\ l <> [] /\ forall c, In c l <-> entry_of assetNames (canon name) c.
Proof.
  rewrite dir_canon. intros H. destruct (dir_entries _ (dirC_some _ _ H)) as (l' & E & Hn & Hi & Hne).
  rewrite E in H. injection H as <-. auto.
Qed.
Lemma asset_nodir name : assetDir name = None <-> forall c, ~ entry_of assetNames (canon name) c.
Proof.
  rewrite dir_canon. split.
  - intros H c Hc. destruct (dir_entries _ (entry_dirs _ _ Hc)) as (l & E & _). congruence.
  - intros H. destruct (dirC (canon name)) as [l|] eqn:E; [exfalso|reflexivity].
    destruct (dir_entries _ (dirC_some _ _ E)) as (l' & E' & _ & Hi & Hne). destruct l' as [|c t]; [congruence|].
    apply (H c). apply Hi. left. reflexivity.
Qed.
(** a name is not both a file and a directory *)
Lemma file_nodir name g : assetOf name = Some g -> assetDir name = None.
Proof.
  unfold assetOf. rewrite dir_canon. generalize (canon name). intros s H. apply assoc_in in H. vm_compute in H.
  destruct H as [H|[H|[H|[]]]]; injection H as <- _; reflexivity.
Qed.
