(** Specification vocabulary for the embedded files (C123) *)
From Coq Require Import String Ascii.
From stdpp Require Import gmap.
From Verif Require Import Base AssetM.
Local Open Scope N_scope.

(** the files of the repository that are embedded *)
Definition text (s : string) : str := List.map N_of_ascii (list_ascii_of_string s).
Definition embedded : list (str * gen) :=
  [ (text "configs/banner.txt", GBanner); (text "configs/default.yaml", GServer);
    (text "test/client/configs/default.yaml", GClient) ].
Definition paths : list str := List.map fst embedded.
(** a path is below a directory when it is the directory's path, a slash and more; [""] is the root *)
Definition under (dir path : str) : option str :=
  match dir with
  | [] => Some path
  | _ => if bool_decide (firstn (S (length dir)) path = dir ++ [47]) then Some (skipn (S (length dir)) path) else None
  end.
(** the first component of a path *)
Fixpoint first_comp (path : str) : str :=
  match path with [] => [] | c :: t => if c =? 47 then [] else c :: first_comp t end.
(** [child] is the name of an entry of the directory [dir] when these paths exist *)
Definition entry_of (paths : list str) (dir child : str) : Prop :=
  exists path rest, In path paths /\ under dir path = Some rest /\ first_comp rest = child.
(** both kinds of slash are the same *)
Definition same_path (a b : str) : Prop := Forall2 (fun x y => x = y \/ x = 92 /\ y = 47) a b.
(** [dir] is the path that [name] stands for *)
Definition stands_for (name dir : str) : Prop := same_path name dir /\ Forall (fun c => c <> 92) dir.
