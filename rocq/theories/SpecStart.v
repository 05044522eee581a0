(** Specification vocabulary for the start of the server's process (C121, C122) *)
From Coq Require Import String.
From stdpp Require Import gmap.
From Verif Require Import Base MainM StartM.
Local Open Scope N_scope.

(** the log output cannot be written: file logging into a directory that cannot be made *)
Definition mute_log (mkdir : str -> bool) (l : logsec) : Prop := lg_file l = true /\ mkdir (lg_dir l) = false.
(** the configuration has everything the server needs *)
Definition complete (cf : conf) (l : logsec) (tcp http : str) (banner : bool * str) : Prop :=
  cf_log cf = Some l /\ exists sv, cf_server cf = Some sv /\ sv_port sv = Some (tcp, http) /\ sv_banner sv = Some banner.
(** the banner that is to be printed *)
Definition banner_shown (text : str) (read : str -> option str) (banner : bool * str) (out : list str) : Prop :=
  if fst banner
  then match read (snd banner) with Some t => out = [t] | None => out = [text] end
  else out = [].
(** the process has ended and holds nothing *)
Definition over (status : Z) (p : proc) : Prop := ps_end p = Some status /\ ps_bound p = None.
(** it goes on *)
Definition up (p : proc) : Prop := ps_end p = None.
(** the configured level is one that Configure's own line does not reach *)
Definition quiet (l : logsec) : Prop :=
  lg_level l = "WARN"%string \/ lg_level l = "ERROR"%string \/ lg_level l = "FATAl"%string.
(** the server can start in these surroundings but for its TCP port *)
Definition ready (w : around) (l : logsec) (tcp http : str) (banner : bool * str) : Prop :=
  exists path cf, wo_flags w = FPath path /\ wo_load w path = Ok cf /\ complete cf l tcp http banner
    /\ (mute_log (wo_mkdir w) l -> quiet l).
(** what a process that logs with [lc] outlives *)
Definition writable (lc : logcfg) : Prop := ~ (lc_file lc = true /\ lc_dir lc = false).
Definition outlives (lc : logcfg) (ev : pev) : Prop :=
  match ev with
  | PvHandler => True
  | PvPanic => writable lc \/ 3 < lc_level lc
  | PvLog lv => writable lc \/ lv < lc_level lc \/ 3 < lc_level lc
  | PvCheckLog lv => writable lc \/ lv < lc_level lc
  | PvCheckPanic | PvHttp => False
  end.
