(** Model of RestoreAsset and RestoreAssets of internal/config/asset.go, on a file system without links in which
    directories can always be made *)
From stdpp Require Import gmap.
From Verif Require Import Base AssetM LogFileM SpecLogFile.
Local Open Scope N_scope.

(** A place is the list of names that lead to it, innermost first (SpecLogFile.v).  [fs_dirs]: the directories; [fs_files]:
    contents, mode and modification time of the files *)
Record fsys : Type := mkFs { fs_dirs : gset (list str); fs_files : gmap (list str) (gen * N * N) }.
(** os.MkdirAll: the directory and all above it *)
Fixpoint above (pl : list str) : gset (list str) := {[ pl ]} ∪ match pl with [] => ∅ | _ :: t => above t end.
Definition mkdirAll (pl : list str) (s : fsys) : fsys := mkFs (fs_dirs s ∪ above pl) (fs_files s).
(** ioutil.WriteFile: fails when the directory of the file does not exist.  os.Chtimes sets the time. *)
Definition writeFile (pl : list str) (g : gen) (mode : N) (s : fsys) : fsys * bool :=
  if bool_decide (tl pl ∈ fs_dirs s) then (mkFs (fs_dirs s) (<[pl := (g, mode, 0)]> (fs_files s)), true) else (s, false).
Definition chtimes (pl : list str) (t : N) (s : fsys) : fsys * bool :=
  match fs_files s !! pl with
  | Some (g, mode, _) => (mkFs (fs_dirs s) (<[pl := (g, mode, t)]> (fs_files s)), true)
  | None => (s, false)
  end.

(** the mode and the time in the bindataFileInfo of a generator, asset.go:97, 117 and 137 *)
Definition infoOf (g : gen) : N * N :=
  match g with GBanner => (420, 1678162039) | GServer => (420, 1678936086) | GClient => (420, 1688644570) end.
(** filepath.Dir: Clean of the path up to its last slash *)
Fixpoint uptoSlash (p : str) : str :=
  match p with
  | [] => []
  | c :: t => match uptoSlash t with [] => if c =? 47 then [c] else [] | u => c :: u end
  end.
Definition fileDir (p : str) : str := pathClean (uptoSlash p).
(** filepath.Join: Clean of all elements from the first that is not empty *)
Fixpoint fileJoin (ps : list str) : str :=
  match ps with [] => [] | [] :: t => fileJoin t | _ => pathClean (joined ps) end.
(** asset.go:295-298 _filePath *)
Definition filePath (dir name : str) : str := fileJoin (dir :: split (canon name)).

Section Restore.
(** the working directory, and the order in which a range over a map gives its keys *)
Context (cwd : list str) (ord : list str -> list str).
(** asset.go:254-276 *)
Definition restoreAsset (dir name : str) (s : fsys) : fsys * bool :=
  match assetOf name with
  | None => (s, false)
  | Some g =>
      let s := mkdirAll (place_of cwd (filePath dir (fileDir name))) s in
      let '(s, ok) := writeFile (place_of cwd (filePath dir name)) g (fst (infoOf g)) s in
      if negb ok then (s, false) else chtimes (place_of cwd (filePath dir name)) (snd (infoOf g)) s
  end.
(** asset.go:279-293; [depth]: how deep it may call itself, which is four for the tree there is *)
Fixpoint restoreAssets (depth : nat) (dir name : str) (s : fsys) : fsys * bool :=
  match assetDir name with
  | None => restoreAsset dir name s
  | Some children =>
      match depth with
      | O => (s, false)
      | S depth =>
          fold_left (fun (r : fsys * bool) child => if snd r then restoreAssets depth dir (fileJoin [name; child]) (fst r) else r)
                    (ord children) (s, true)
      end
  end.
End Restore.
