(** Model of RestoreAsset and RestoreAssets of internal/config/asset.go on a file system whose operations may fail *)
From stdpp Require Import gmap.
From Verif Require Import Base AssetM LogFileM SpecLogFile RestoreM.
Local Open Scope N_scope.

(** What an operation that fails leaves.  MkdirAll may have made some of the directories, from the outermost on: all but the
    [fl_short] innermost ones.  WriteFile may have left a file with other contents, some mode and some time. *)
Record fault : Type := mkFault { fl_short : nat; fl_left : option (option gen * N * N) }.
(** directories and files as in RestoreM.v; the contents None are not those of an embedded file.  [d_ops]: how many operations
    there have been *)
Record disk : Type := mkDisk { d_dirs : gset (list str); d_files : gmap (list str) (option gen * N * N); d_ops : nat }.

Section Fail.
(** [bad n]: how operation number [n] fails, if it does, for a reason other than a missing directory *)
Context (bad : nat -> option fault).
Definition mkdirAllF (pl : list str) (s : disk) : disk * bool :=
  match bad (d_ops s) with
  | None => (mkDisk (d_dirs s ∪ above pl) (d_files s) (S (d_ops s)), true)
  | Some f => (mkDisk (d_dirs s ∪ match drop (fl_short f) pl with [] => ∅ | q => above q end) (d_files s) (S (d_ops s)), false)
  end.
Definition writeFileF (pl : list str) (g : gen) (mode : N) (s : disk) : disk * bool :=
  match bad (d_ops s) with
  | None =>
      if bool_decide (tl pl ∈ d_dirs s) then (mkDisk (d_dirs s) (<[pl := (Some g, mode, 0)]> (d_files s)) (S (d_ops s)), true)
      else (mkDisk (d_dirs s) (d_files s) (S (d_ops s)), false)
  | Some f => (mkDisk (d_dirs s) (match fl_left f with Some x => <[pl := x]> (d_files s) | None => d_files s end) (S (d_ops s)), false)
  end.
Definition chtimesF (pl : list str) (t : N) (s : disk) : disk * bool :=
  match bad (d_ops s), d_files s !! pl with
  | None, Some (g, mode, _) => (mkDisk (d_dirs s) (<[pl := (g, mode, t)]> (d_files s)) (S (d_ops s)), true)
  | _, _ => (mkDisk (d_dirs s) (d_files s) (S (d_ops s)), false)
  end.

(** the working directory, and the order in which a range over a map gives its keys *)
Context (cwd : list str) (ord : list str -> list str).
(** asset.go:254-276: the function returns at the first error *)
Definition restoreAssetF (dir name : str) (s : disk) : disk * bool :=
  match assetOf name with
  | None => (s, false)
  | Some g =>
      let '(s, ok) := mkdirAllF (place_of cwd (filePath dir (fileDir name))) s in
      if negb ok then (s, false) else
      let '(s, ok) := writeFileF (place_of cwd (filePath dir name)) g (fst (infoOf g)) s in
      if negb ok then (s, false) else chtimesF (place_of cwd (filePath dir name)) (snd (infoOf g)) s
  end.
(** asset.go:279-293 *)
Fixpoint restoreAssetsF (depth : nat) (dir name : str) (s : disk) : disk * bool :=
  match assetDir name with
  | None => restoreAssetF dir name s
  | Some children =>
      match depth with
      | O => (s, false)
      | S depth =>
          fold_left (fun (r : disk * bool) child => if snd r then restoreAssetsF depth dir (fileJoin [name; child]) (fst r) else r)
                    (ord children) (s, true)
      end
  end.
End Fail.
(** a file system as a disk on which nothing has been done *)
Definition diskOf (s : fsys) : disk := mkDisk (fs_dirs s) ((fun x => (Some (fst (fst x)), snd (fst x), snd x)) <$> fs_files s) 0.
