(** The log file (C146) *)
From Coq Require Import String.
From stdpp Require Import gmap.
From Verif Require Import Base ServerM LogFileM SpecLogFile LogFileP.
Local Open Scope N_scope.

(** C146: the cleaned path leads to the same place as the path, from everywhere ... *)
Theorem C146_clean : forall cwd p, place_of cwd (pathClean p) = place_of cwd p.
Proof. exact clean_place. Qed.
Print Assumptions C146_clean.
(** ... so the log file is where the configured name leads from the configured directory, rolled by the configured limits *)
Theorem C146_place : forall cwd c, y_dir c <> [] ->
  place_of cwd (ro_file (rollingFile (parseLog c))) = follow (place_of cwd (y_dir c)) (names (y_name c)).
Proof. exact file_place. Qed.
Print Assumptions C146_place.
Theorem C146_limits : forall c, let r := rollingFile (parseLog c) in
  ro_size r = y_size c /\ ro_backups r = y_backups c /\ ro_age r = y_age c /\ ro_local r = true
  /\ z_level (parseLog c) = parseLevel (y_level c) /\ z_console (parseLog c) = y_console c /\ z_file (parseLog c) = y_file c /\ z_json (parseLog c) = y_json c.
Proof. intros c. repeat split. Qed.
Print Assumptions C146_limits.
(** A plain name is a file in that directory, and a name without ".." leads to a place below it; with ".." it may not. *)
Theorem C146_in : forall cwd c, y_dir c <> [] -> plain_name (y_name c) ->
  place_of cwd (ro_file (rollingFile (parseLog c))) = y_name c :: place_of cwd (y_dir c).
Proof. exact file_in. Qed.
Print Assumptions C146_in.
Theorem C146_below : forall cwd c, y_dir c <> [] -> ~ In [46; 46] (names (y_name c)) ->
  exists b, place_of cwd (ro_file (rollingFile (parseLog c))) = b ++ place_of cwd (y_dir c).
Proof. exact file_below. Qed.
Print Assumptions C146_below.
Theorem C146_outside : forall cwd c n, y_dir c <> [] -> plain_name n -> y_name c = [46; 46; 47] ++ n ->
  place_of cwd (ro_file (rollingFile (parseLog c))) = n :: tl (place_of cwd (y_dir c)).
Proof. exact file_outside. Qed.
Print Assumptions C146_outside.
(** the level column has the same width for every level *)
Theorem C146_column : forall lv, length (formatLevel (List.map Ascii.N_of_ascii (list_ascii_of_string (levelName lv)))) = 9%nat.
Proof.
  intros lv. apply upper_len. rewrite map_length. unfold levelName. destruct lv as [|[[p|p|]|[p|[p|p|]|]|]]; cbn; lia.
Qed.
Print Assumptions C146_column.
Theorem C146_levels : forall lv, formatLevel (List.map Ascii.N_of_ascii (list_ascii_of_string (levelName lv)))
  = List.map Ascii.N_of_ascii (list_ascii_of_string (column lv)).
Proof. intros lv. destruct lv as [|[[p|p|]|[p|[p|p|]|]|]]; reflexivity. Qed.
Print Assumptions C146_levels.
Local Definition tx (s : string) : str := List.map Ascii.N_of_ascii (list_ascii_of_string s).
Definition lc146 (d n : string) : logconf := mkLogConf true true false "INFO" (tx d) (tx n) 100 7 30.
Example C146_ex : y_dir (lc146 "./logs/" "jt808.log") <> [] /\ plain_name (y_name (lc146 "./logs/" "jt808.log"))
  /\ ro_file (rollingFile (parseLog (lc146 "./logs/" "jt808.log"))) = tx "logs/jt808.log"
  /\ place_of [tx "srv"] (tx "./logs/") = [tx "logs"; tx "srv"]
  /\ ~ In [46; 46] (names (y_name (lc146 "./logs" "a/b.log")))
  /\ ro_file (rollingFile (parseLog (lc146 "/var/log/x/" "../b.log"))) = tx "/var/log/b.log"
  /\ plain_name (tx "b.log") /\ y_name (lc146 "/var/log/x/" "../b.log") = [46; 46; 47] ++ tx "b.log"
  /\ pathClean (tx "../a//b/./../../../c") = tx "../../c" /\ pathClean (tx "/../a/..") = tx "/" /\ pathClean (tx "a/..") = tx "."
  /\ formatLevel (tx "warn") = tx "| WARN  |".
Proof.
  split; [discriminate|]. split; [repeat split; try discriminate; vm_compute; intuition discriminate|]. split; [reflexivity|]. split; [reflexivity|].
  split; [vm_compute; intuition discriminate|]. split; [reflexivity|]. split; [repeat split; try discriminate; vm_compute; intuition discriminate|].
  repeat split.
Qed.
