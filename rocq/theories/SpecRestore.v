(** What is said about the restoring of embedded files *)
From stdpp Require Import gmap.
From Verif Require Import Base AssetM SpecAsset SpecLogFile RestoreM.
Local Open Scope N_scope.

(** [name] is the path of a file or of a directory above it *)
Definition chosen (name path : str) : Prop := path = name \/ exists rest, under name path = Some rest.
(** the place of a file when the files are restored in a directory *)
Definition spot (base : list str) (path : str) : list str := follow base (names path).
(** when the embedded files were last changed: 2023-03-07 04:07:19, 2023-03-16 03:08:06 and 2023-07-06 11:56:10 UTC *)
Definition changed (g : gen) : N := match g with GBanner => 1678162039 | GServer => 1678936086 | GClient => 1688644570 end.
(** the file at [pl] is a copy of the embedded file [g], with the permissions rw-r--r-- and its time *)
Definition copied (s : fsys) (pl : list str) (g : gen) : Prop := fs_files s !! pl = Some (g, 6 * 64 + 4 * 8 + 4, changed g).
(** the last slash or backslash of a name *)
Definition last_sep (name : str) : option N := head (rev (List.filter (fun c => (c =? 47) || (c =? 92)) name)).
