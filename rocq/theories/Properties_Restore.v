(** Restoring the embedded files (C147) *)
From Coq Require Import String.
From stdpp Require Import gmap.
From Verif Require Import Base AssetM SpecAsset LogFileM SpecLogFile RestoreM SpecRestore RestoreP RestoreAnyP.
Local Open Scope N_scope.

(** C147: restoring a file or a directory of embedded files, named with slashes, succeeds whatever the order in which maps
    are gone through; it makes a copy of each of its files at its path in the given directory and leaves all others alone. *)
Theorem C147_restored_partial : forall cwd ord dir name s path g, dir <> [] -> (forall l, Permutation l (ord l)) -> ~ In 92 name ->
  In (path, g) embedded -> chosen name path ->
  exists s', restoreAssets cwd ord 4 dir name s = (s', true)
    /\ (forall path g, In (path, g) embedded -> chosen name path -> copied s' (spot (place_of cwd dir) path) g)
    /\ (forall pl, (forall path, In path paths -> chosen name path -> pl <> spot (place_of cwd dir) path) -> fs_files s' !! pl = fs_files s !! pl).
Proof. exact restore_all. Qed.
Print Assumptions C147_restored_partial.
(** Any other name is an error, and nothing is made. *)
Theorem C147_unknown : forall cwd ord dir name s, ~ In 92 name -> (forall path, In path paths -> ~ chosen name path) ->
  restoreAssets cwd ord 4 dir name s = (s, false) /\ restoreAsset cwd dir name s = (s, false).
Proof. exact restore_none. Qed.
Print Assumptions C147_unknown.
(** With a backslash, which Asset accepts, the directory of the file is not made, and in a directory that has none the
    file cannot be written. *)
Theorem C147_refuted : forall cwd dir fs, dir <> [] -> fs_dirs fs = above (place_of cwd dir) ->
  snd (restoreAsset cwd dir (text "configs\banner.txt") fs) = false.
Proof. exact restore_backslash. Qed.
Print Assumptions C147_refuted.
(** Directories may be named with either kind of slash. *)
Theorem C147_directories : forall cwd ord dir name d s, dir <> [] -> (forall l, Permutation l (ord l)) -> stands_for name d ->
  (exists path rest, In path paths /\ under d path = Some rest) ->
  exists s', restoreAssets cwd ord 4 dir name s = (s', true)
    /\ (forall path g, In (path, g) embedded -> chosen d path -> copied s' (spot (place_of cwd dir) path) g)
    /\ (forall pl, (forall path, In path paths -> chosen d path -> pl <> spot (place_of cwd dir) path) -> fs_files s' !! pl = fs_files s !! pl).
Proof. exact one_dir. Qed.
Print Assumptions C147_directories.
(** A file named with any slashes is restored exactly when the last one is not a backslash or its directory is there;
    otherwise no file is made. *)
Theorem C147_files_partial : forall cwd ord dir name path g s, dir <> [] -> stands_for name path -> In (path, g) embedded ->
  let pl := spot (place_of cwd dir) path in
  restoreAssets cwd ord 4 dir name s = restoreAsset cwd dir name s
  /\ exists s' ok, restoreAsset cwd dir name s = (s', ok)
     /\ (ok = true <-> last_sep name = Some 47 \/ tl pl ∈ fs_dirs s)
     /\ (ok = true -> copied s' pl g) /\ (ok = false -> fs_files s' = fs_files s)
     /\ forall pl', pl' <> pl -> fs_files s' !! pl' = fs_files s !! pl'.
Proof. exact one_file. Qed.
Print Assumptions C147_files_partial.
(** Any other name, with any slashes, is an error, and nothing is made. *)
Theorem C147_unknown_any : forall cwd ord dir name s, (forall d path, stands_for name d -> In path paths -> ~ chosen d path) ->
  restoreAssets cwd ord 4 dir name s = (s, false) /\ restoreAsset cwd dir name s = (s, false).
Proof. exact none_any. Qed.
Print Assumptions C147_unknown_any.
Definition fs147 : fsys := mkFs (above (place_of [] (text "/tmp/x"))) ∅.
Example C147_ex : text "/tmp/x" <> [] /\ (forall l : list str, Permutation l (rev l)) /\ ~ In 92 (text "configs")
  /\ In (text "configs/banner.txt", GBanner) embedded /\ chosen (text "configs") (text "configs/banner.txt")
  /\ spot (place_of [] (text "/tmp/x")) (text "configs/banner.txt") = [text "banner.txt"; text "configs"; text "x"; text "tmp"]
  /\ fs_dirs fs147 = above (place_of [] (text "/tmp/x"))
  /\ snd (restoreAsset [] (text "/tmp/x") (text "configs/banner.txt") fs147) = true
  /\ (forall path, In path paths -> ~ chosen (text "config") path).
Proof.
  split; [discriminate|]. split; [apply Permutation_rev|]. split; [vm_compute; intuition discriminate|]. split; [left; reflexivity|].
  split; [right; eexists; vm_compute; reflexivity|]. split; [vm_compute; reflexivity|]. split; [reflexivity|]. split; [vm_compute; reflexivity|].
  intros path Hp [->|[r Hr]]; cbn in Hp.
  - destruct Hp as [Hp|[Hp|[Hp|[]]]]; vm_compute in Hp; discriminate Hp.
  - destruct Hp as [<-|[<-|[<-|[]]]]; vm_compute in Hr; discriminate Hr.
Qed.
Local Ltac stands := split; [repeat (constructor; [first [left; reflexivity|right; split; reflexivity]|]); constructor|repeat (constructor; [discriminate|]); constructor].
Example C147_any_ex : stands_for (text "test\client") (text "test/client") /\ In (text "test/client/configs/default.yaml") paths
  /\ under (text "test/client") (text "test/client/configs/default.yaml") = Some (text "configs/default.yaml")
  /\ snd (restoreAssets [] (fun l => rev l) 4 (text "/tmp/x") (text "test\client") fs147) = true
  /\ stands_for (text "test\client/configs\default.yaml") (text "test/client/configs/default.yaml")
  /\ last_sep (text "test\client/configs\default.yaml") = Some 92
  /\ snd (restoreAsset [] (text "/tmp/x") (text "test\client/configs\default.yaml") fs147) = false
  /\ (forall d path, stands_for (text "configs\") d -> In path paths -> ~ chosen d path).
Proof.
  split; [stands|]. split; [right; right; left; reflexivity|]. split; [vm_compute; reflexivity|]. split; [vm_compute; reflexivity|].
  split; [stands|]. split; [vm_compute; reflexivity|]. split; [vm_compute; reflexivity|].
  intros d path Hs Hp. rewrite <- (stands_canon _ _ Hs). intros [->|[r Hr]]; cbn in Hp.
  - destruct Hp as [Hp|[Hp|[Hp|[]]]]; vm_compute in Hp; discriminate Hp.
  - destruct Hp as [<-|[<-|[<-|[]]]]; vm_compute in Hr; discriminate Hr.
Qed.
