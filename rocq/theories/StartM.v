(** Model of the server's process: main.go, ParseLogConf of internal/config/config.go, the end of Run in
    internal/api/api.go and pkg/routines/safe.go *)
From Coq Require Import String.
From stdpp Require Import gmap.
From Verif Require Import Base ServerM MainM.
Local Open Scope N_scope.

(** config.go:33-43 logConf without the rolling parameters and the file name *)
Record logsec : Type := mkLogSec { lg_console : bool; lg_file : bool; lg_json : bool; lg_level : string; lg_dir : str }.
(** config.go:45-60 serverConf; a pointer is nil when the section is absent *)
Record servsec : Type := mkServSec { sv_port : option (str * str); sv_banner : option (bool * str) }.
(** config.go:129-133 Config; Client is not used by the server *)
Record conf : Type := mkConf { cf_log : option logsec; cf_server : option servsec }.

(** config.go:175-202 ParseLogConf ([parseLevel] is lines 178-190); [mkdir]: os.MkdirAll succeeds *)
Definition parseLogConf (mkdir : str -> bool) (l : logsec) : logcfg :=
  mkLogCfg (lg_console l) (lg_json l) (lg_file l) (parseLevel (lg_level l)) (mkdir (lg_dir l)).

(** main.go:22-23 flag.Parse: the value of -c, or the end of the process *)
Inductive flags : Type := FPath (p : str) | FHelp | FBad.
(** what the process meets: [wo_load] is config.Load (MainM.load); [wo_read]: os.ReadFile; [wo_mkdir]: os.MkdirAll;
    [wo_listen]: net.Listen on the address *)
Record around : Type := mkAround {
  wo_flags : flags; wo_load : str -> res conf; wo_read : str -> option str; wo_mkdir : str -> bool; wo_listen : str -> bool }.

(** The process: [ps_out] what it has printed as banner, [ps_bound] the TCP address it listens on, [ps_serve]:
    the goroutines of main.go:47-49 have been started, [ps_end] the status it has ended with *)
Record proc : Type := mkProc { ps_out : list str; ps_bound : option str; ps_serve : bool; ps_end : option Z }.
Definition ends (status : Z) (p : proc) : proc := mkProc (ps_out p) None (ps_serve p) (Some status).
(** config/banner.go BannerText is a parameter.
    main.go:19-52.  Recover on line 20 is called, not deferred, so a panic ends the process with status 2. *)
Definition mainStart (bannerText : str) (w : around) : proc * option (logcfg * str) :=
  let p0 := mkProc [] None false None in
  match wo_flags w with
  | FHelp => (ends 0 p0, None)
  | FBad => (ends 2 p0, None)
  | FPath path =>
      match wo_load w path with
      | Ok cf =>
          match cf_log cf with
          | None => (ends 2 p0, None)                                 (* config.go:176-178, c.Log is nil *)
          | Some l =>
              let lc := parseLogConf (wo_mkdir w) l in
              if snd (configure lc) then (ends 2 p0, None)
              else match cf_server cf with
                   | None => (ends 2 p0, None)
                   | Some sv =>
                       match sv_banner sv with
                       | None => (ends 2 p0, None)
                       | Some (enable, bpath) =>
                           let p1 := if enable
                                     then mkProc [match wo_read w bpath with Some t => t | None => bannerText end] None false None
                                     else p0 in
                           match sv_port sv with
                           | None => (ends 2 p1, None)
                           | Some (tcp, http) =>
                               let addr := 58 :: tcp in
                               if wo_listen w addr
                               then if snd (logEvent lc 0) then (ends 2 p1, None)      (* tcp_server.go:36 *)
                                    else (mkProc (ps_out p1) (Some addr) true None, Some (lc, 58 :: http))
                               else if snd (logEvent lc 3) then (ends 2 p1, None)      (* main.go:44 *)
                                    else (ends 1 p1, None)
                           end
                       end
                   end
          end
      | _ => (ends 2 p0, None)
      end
  end.

(** What happens once main is blocked on line 51: a goroutine started by GoSafe logs an event of a level, or panics; the
    goroutine of a keepalive check, which nothing recovers, logs an event or panics; a handler of the HTTP router panics,
    which gin.Default recovers; router.Run returns an error. *)
Inductive pev : Type := PvLog (lv : N) | PvPanic | PvCheckLog (lv : N) | PvCheckPanic | PvHandler | PvHttp.
(** routines/safe.go:25-35: the recovered panic is logged, and nothing recovers a panic of that call *)
Definition recovered (lc : logcfg) (p : proc) : proc := if snd (logEvent lc 3) then ends 2 p else p.
Definition procStep (lc : logcfg) (p : proc) (ev : pev) : proc :=
  match ps_end p with
  | Some _ => p
  | None =>
      match ev with
      | PvLog lv => if snd (logEvent lc lv) then recovered lc p else p
      | PvPanic => recovered lc p
      | PvCheckLog lv => if snd (logEvent lc lv) then ends 2 p else p
      | PvCheckPanic => ends 2 p
      | PvHandler => p
      | PvHttp => if snd (logEvent lc 3) then recovered lc p else ends 1 p    (* api.go:97-101 *)
      end
  end.
Definition procRun (lc : logcfg) (p : proc) (evs : list pev) : proc := fold_left (procStep lc) evs p.
