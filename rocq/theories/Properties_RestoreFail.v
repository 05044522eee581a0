(** Restoring the embedded files when operations of the system fail (C147) *)
From Coq Require Import String.
From stdpp Require Import gmap.
From Verif Require Import Base AssetM SpecAsset LogFileM SpecLogFile RestoreM SpecRestore RestoreP RestoreAnyP RestoreFailM SpecRestoreFail RestoreFailP RestoreFailAnyP
  Properties_Restore.
Local Open Scope N_scope.

(** Whichever operations fail and whatever they leave: restoring a file or a directory named with slashes succeeds exactly when
    none of its three operations for each file fails, and then there is a copy of each file.  Otherwise it stops at the first that
    fails: all files but one are copies or as before.  No others change. *)
Theorem C147_faults_partial : forall bad cwd ord dir name s path g, dir <> [] -> (forall l, Permutation l (ord l)) -> ~ In 92 name ->
  In (path, g) embedded -> chosen name path ->
  let total := (3 * length (chosen_in name embedded))%nat in let B := place_of cwd dir in
  exists s' ok, restoreAssetsF bad cwd ord 4 dir name s = (s', ok)
    /\ (ok = true <-> forall n, (d_ops s <= n < d_ops s + total)%nat -> ~ fails bad n)
    /\ (ok = true -> forall path g, In (path, g) embedded -> chosen name path -> copiedF s' (spot B path) g)
    /\ (ok = true -> d_ops s' = (d_ops s + total)%nat)
    /\ (ok = false -> exists n, d_ops s' = S n /\ fails bad n /\ forall k, (d_ops s <= k < n)%nat -> ~ fails bad k)
    /\ (ok = false -> exists path, In path paths /\ chosen name path /\ forall path' g, In (path', g) embedded -> chosen name path' -> path' <> path ->
          copiedF s' (spot B path') g \/ d_files s' !! spot B path' = d_files s !! spot B path')
    /\ (forall pl, (forall path, In path paths -> chosen name path -> pl <> spot B path) -> d_files s' !! pl = d_files s !! pl).
Proof. exact restoreF_spec. Qed.
Print Assumptions C147_faults_partial.
(** For names with any slashes: what does not belong to the name is left alone, and when no error is returned all that belongs
    to it has been copied. *)
Theorem C147_faults_any : forall bad cwd ord dir name d s path g, dir <> [] -> (forall l, Permutation l (ord l)) -> stands_for name d ->
  In (path, g) embedded -> chosen d path -> let B := place_of cwd dir in
  exists s' ok, restoreAssetsF bad cwd ord 4 dir name s = (s', ok)
    /\ (ok = true -> forall path g, In (path, g) embedded -> chosen d path -> copiedF s' (spot B path) g)
    /\ (forall pl, (forall path, In path paths -> chosen d path -> pl <> spot B path) -> d_files s' !! pl = d_files s !! pl).
Proof. exact restoreF_any. Qed.
Print Assumptions C147_faults_any.
(** A name that stands for nothing embedded is an error before any operation. *)
Theorem C147_faults_unknown : forall bad cwd ord dir name s, (forall d path, stands_for name d -> In path paths -> ~ chosen d path) ->
  restoreAssetsF bad cwd ord 4 dir name s = (s, false) /\ restoreAssetF bad cwd dir name s = (s, false).
Proof. exact noneF. Qed.
Print Assumptions C147_faults_unknown.
(** When no operation fails it is the other model, for every name. *)
Theorem C147_no_faults : forall cwd ord depth dir name s, let r := restoreAssets cwd ord depth dir name s in
  let r' := restoreAssetsF (fun _ => None) cwd ord depth dir name (diskOf s) in
  snd r' = snd r /\ d_dirs (fst r') = d_dirs (diskOf (fst r)) /\ d_files (fst r') = d_files (diskOf (fst r)).
Proof. exact same_restore. Qed.
Print Assumptions C147_no_faults.
(** the disk is full when the second file is written: the first one is there, the second one has been cut short *)
Definition full147 (n : nat) : option fault := if (n =? 4)%nat then Some (mkFault 0 (Some (None, 420, 1700000000))) else None.
Example C147_faults_ex : chosen_in (text "configs") embedded = [xB; xS] /\ fails full147 4
  /\ (forall k, (0 <= k < 4)%nat -> ~ fails full147 k)
  /\ (let r := restoreAssetsF full147 [] (fun l => l) 4 (text "/tmp/x") (text "configs") (diskOf fs147) in
      snd r = false /\ d_ops (fst r) = 5%nat /\ copiedF (fst r) (spot (place_of [] (text "/tmp/x")) (text "configs/banner.txt")) GBanner
      /\ d_files (fst r) !! spot (place_of [] (text "/tmp/x")) (text "configs/default.yaml") = Some (None, 420, 1700000000))
  /\ snd (restoreAssetsF (fun _ => None) [] (fun l => l) 4 (text "/tmp/x") (text "configs") (diskOf fs147)) = true.
Proof.
  split; [vm_compute; reflexivity|]. split; [discriminate|]. split.
  { intros k Hk. unfold fails, full147. destruct (Nat.eqb_spec k 4); [lia|auto]. }
  split; [vm_compute; repeat split|vm_compute; reflexivity].
Qed.
