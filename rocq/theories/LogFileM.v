(** Model of the log file of pkg/logger/logger.go (newRollingFile), of the rest of ParseLogConf in internal/config/config.go
    and of the level column of newConsoleWriter *)
From Coq Require Import String.
From stdpp Require Import gmap.
From Verif Require Import Base ServerM.
Local Open Scope N_scope.

(** config.go:33-43 logConf *)
Record logconf : Type := mkLogConf {
  y_console : bool; y_file : bool; y_json : bool; y_level : string;
  y_dir : str; y_name : str; y_size : Z; y_backups : Z; y_age : Z }.
(** logger.go:22-50 Config *)
Record logset : Type := mkLogSet {
  z_console : bool; z_json : bool; z_file : bool; z_level : N;
  z_dir : str; z_name : str; z_size : Z; z_backups : Z; z_age : Z }.
(** config.go:175-203 ParseLogConf *)
Definition parseLog (c : logconf) : logset :=
  mkLogSet (y_console c) (y_json c) (y_file c) (parseLevel (y_level c))
           (y_dir c) (y_name c) (y_size c) (y_backups c) (y_age c).

(** the standard library's path.Clean on the elements of a path; [out]: what has been kept, last element first *)
Fixpoint elems (p : str) : list str :=
  match p with
  | [] => [[]]
  | c :: t => if c =? 47 then [] :: elems t
              else match elems t with x :: xs => (c :: x) :: xs | [] => [[c]] end
  end.
Definition dot : str := [46].
Definition dotdot : str := [46; 46].
Fixpoint cleanElems (rooted : bool) (out ps : list str) : list str :=
  match ps with
  | [] => rev out
  | p :: ps =>
      if bool_decide (p = []) || bool_decide (p = dot) then cleanElems rooted out ps
      else if bool_decide (p = dotdot) then
        match out with
        | x :: out' => if bool_decide (x = dotdot) then cleanElems rooted (dotdot :: out) ps else cleanElems rooted out' ps
        | [] => cleanElems rooted (if rooted then [] else [dotdot]) ps
        end
      else cleanElems rooted (p :: out) ps
  end.
Fixpoint joined (ps : list str) : str :=
  match ps with [] => [] | [p] => p | p :: ps => p ++ 47 :: joined ps end.
Definition isRooted (p : str) : bool := match p with c :: _ => c =? 47 | [] => false end.
Definition pathClean (p : str) : str :=
  let ps := cleanElems (isRooted p) [] (elems p) in
  if isRooted p then 47 :: joined ps
  else match ps with [] => dot | _ => joined ps end.
(** path.Join of two elements: empty ones are left out *)
Definition pathJoin (a b : str) : str :=
  match a, b with
  | [], [] => []
  | [], _ => pathClean b
  | _, [] => pathClean a
  | _, _ => pathClean (a ++ 47 :: b)
  end.

(** logger.go:125-139 newRollingFile, once MkdirAll has succeeded; the fields of lumberjack.Logger that are set *)
Record rolling : Type := mkRolling { ro_file : str; ro_backups : Z; ro_size : Z; ro_age : Z; ro_local : bool }.
Definition rollingFile (c : logset) : rolling :=
  mkRolling (pathJoin (z_dir c) (z_name c)) (z_backups c) (z_size c) (z_age c) true.

(** logger.go:109-111 FormatLevel of a level that is given, ASCII only: fmt's %-6s pads on the right to six *)
Definition toUpper (c : N) : N := if (97 <=? c) && (c <=? 122) then c - 32 else c.
Definition pad6 (s : str) : str := s ++ repeat 32 (6 - length s).
Definition formatLevel (lv : str) : str := List.map toUpper ([124; 32] ++ pad6 lv ++ [124]).
(** zerolog's names of the levels Debug to Fatal *)
Definition levelName (lv : N) : string :=
  match lv with 0 => "debug" | 1 => "info" | 2 => "warn" | 3 => "error" | 4 => "fatal" | _ => "panic" end%string.
