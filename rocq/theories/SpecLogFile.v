(** What is said about the log file *)
From Coq Require Import String.
From stdpp Require Import gmap.
From Verif Require Import Base.
Local Open Scope N_scope.

(** the names in a path; [cur]: the name that has been begun *)
Fixpoint names_from (cur p : str) : list str :=
  match p with
  | [] => [cur]
  | c :: t => if c =? 47 then cur :: names_from [] t else names_from (cur ++ [c]) t
  end.
Definition names (p : str) : list str := names_from [] p.
(** A place in the tree of directories, without links: the names that lead to it, innermost first.  Where one gets from a
    place by a name ... *)
Definition go (place : list str) (name : str) : list str :=
  if bool_decide (name = []) || bool_decide (name = [46]) then place
  else if bool_decide (name = [46; 46]) then tl place
  else name :: place.
(** ... by names, and by a path *)
Definition follow (place : list str) (ns : list str) : list str := fold_left go ns place.
Definition place_of (cwd : list str) (p : str) : list str :=
  follow (match p with c :: _ => if c =? 47 then [] else cwd | [] => cwd end) (names p).
(** a name of a file: not empty, no dots alone, no slash *)
Definition plain_name (n : str) : Prop := n <> [] /\ n <> [46] /\ n <> [46; 46] /\ ~ In 47 n.
(** the level column of a line of the log: Debug is 0, Fatal 4 *)
Definition column (lv : N) : String.string :=
  match lv with
  | 0 => "| DEBUG |" | 1 => "| INFO  |" | 2 => "| WARN  |" | 3 => "| ERROR |" | 4 => "| FATAL |" | _ => "| PANIC |"
  end%string.
