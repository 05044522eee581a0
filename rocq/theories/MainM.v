(** Model of pkg/logger/logger.go, of Load in internal/config/config.go and of the accept loop
    of internal/server/tcp_server.go *)
From Coq Require Import String.
From stdpp Require Import gmap.
From Verif Require Import Base HexM HashM ProgM RingM StateM ProcM ServerM.
Local Open Scope N_scope.

(** ** logger.go *)
(** :22-50 Config, without the rolling parameters.  [lc_dir]: os.MkdirAll succeeds on
    Directory. *)
Record logcfg : Type := mkLogCfg {
  lc_console : bool; lc_json : bool; lc_file : bool; lc_level : N; lc_dir : bool }.
(** A writer: the console in text form, the log file in text or JSON form, or the nil
    interface that newRollingFile returns (:126-129), with or without a ConsoleWriter around
    it; writing to nil is a nil dereference. *)
Inductive writer : Type := WConsole | WFile (json : bool) | WNil.
(** :125-139 newRollingFile, and :70-76 *)
Definition fileWriter (c : logcfg) : writer :=
  if lc_dir c then WFile (lc_json c) else WNil.
(** :64-77 *)
Definition writers (c : logcfg) : list writer :=
  (if lc_console c then [WConsole] else []) ++ (if lc_file c then [fileWriter c] else []).
(** One log event: zerolog drops it when its level is below the logger's; io.MultiWriter
    writes to one writer after the other.  The result lists where the line has been written
    and whether the call panicked. *)
Fixpoint writeAll (ws : list writer) : list writer * bool :=
  match ws with
  | [] => ([], false)
  | WNil :: _ => ([], true)
  | w :: t => let (l, b) := writeAll t in (w :: l, b)
  end.
Definition logEvent (c : logcfg) (level : N) : list writer * bool :=
  if level <? lc_level c then ([], false) else writeAll (writers c).
(** :63-99 Configure: the event of line 88 has level Info; the result tells whether the
    logger is returned *)
Definition configure (c : logcfg) : list writer * bool := logEvent c 1.

(** :143-153 CallerMarshalFunc; [i] counts down to 1 *)
Fixpoint shortFrom (file : str) (i : nat) : str :=
  match i with
  | O => file
  | S i' => if nth i file 0 =? 47 then skipn (S i) file else shortFrom file i'
  end.
Definition callerMarshal (file : str) (line : N) : str :=
  shortFrom file (length file - 1) ++ [58] ++ itoa line.

(** ** config.go:138-173 Load *)
Section Load.
Context {cfg : Type}.
(** [empty]: the value of &Config{}; [asset], [file]: the contents of an embedded asset and of
    a file, None when it cannot be read; [parse]: what viper makes of the contents: the fields
    it could set, and whether it reported no error *)
Context (empty : cfg) (asset file : str -> option str) (parse : str -> cfg * bool).
Context (servKey servPath cliKey cliPath : str).
(** :145-160 *)
Definition readConf (path : str) : option str :=
  if bool_decide (path = servKey) then asset servPath
  else if bool_decide (path = cliKey) then asset cliPath
  else file path.
(** [st]: the variable config, once configOnce has been used (a function that panics counts
    as done).  The result Panic is the panic of lines 157, 164 and 169. *)
Definition load (path : str) (st : option cfg) : res cfg * option cfg :=
  match st with
  | Some c => (Ok c, st)
  | None =>
      match readConf path with
      | None => (Panic, Some empty)
      | Some t => let (c, ok) := parse t in (if ok then Ok c else Panic, Some c)
      end
  end.
End Load.

(** ** tcp_server.go:42-52 Start for the given results of Accept (None: an error), up to the
    next call of Accept; the result lists the sessions that serve runs for *)
Fixpoint startLoop (rs : list (option (nat * str))) : sp (list nat) :=
  match rs with
  | [] => ret []
  | None :: t => startLoop t
  | Some (c, addr) :: t => (sl <- accept c addr ;; ls <- startLoop t ;; ret (sl :: ls))%prog
  end.
