(** C121-C123: the server's process from its start to its end, the embedded files *)
From Coq Require Import String.
From stdpp Require Import gmap.
From Verif Require Import Base ServerM MainM StartM SpecStart StartP AssetM SpecAsset AssetP.
Local Open Scope N_scope.

(** C121: the process serves exactly when its configuration is complete, its log can be written as far as the
    level asks for, and its TCP port can be bound ... *)
Theorem C121_up_iff : forall text w, up (fst (mainStart text w)) <->
  exists l tcp http b, ready w l tcp http b /\ wo_listen w (58 :: tcp) = true.
Proof. exact start_up. Qed.
Print Assumptions C121_up_iff.
(** ... it then listens there, has printed its banner and logs as configured ... *)
Theorem C121_up_state : forall text w l tcp http b, ready w l tcp http b -> wo_listen w (58 :: tcp) = true ->
  let p := fst (mainStart text w) in
  up p /\ ps_bound p = Some (58 :: tcp) /\ ps_serve p = true /\ banner_shown text (wo_read w) b (ps_out p)
  /\ snd (mainStart text w) = Some (parseLogConf (wo_mkdir w) l, 58 :: http).
Proof. exact start_up_state. Qed.
Print Assumptions C121_up_state.
(** ... and otherwise it ends before any goroutine is started: with 0 for -h, with 1 when only the port is missing *)
Theorem C121_over : forall text w, ~ up (fst (mainStart text w)) ->
  exists status, over status (fst (mainStart text w)) /\ ps_serve (fst (mainStart text w)) = false
  /\ (status = 0 \/ status = 1 \/ status = 2)%Z
  /\ (status = 0%Z <-> wo_flags w = FHelp)
  /\ (status = 1%Z <-> exists l tcp http b, ready w l tcp http b /\ wo_listen w (58 :: tcp) = false
        /\ (mute_log (wo_mkdir w) l -> lg_level l = "FATAl"%string)).
Proof. exact start_over. Qed.
Print Assumptions C121_over.
(** the embedded configuration of the repository: console and file, DEBUG, ports 8080 and 8008, a banner file *)
Definition conf121 (level : string) : conf :=
  mkConf (Some (mkLogSec true true false level [46; 47])) (Some (mkServSec (Some ([56; 48; 56; 48], [56; 48; 48; 56])) (Some (true, [98])))).
Definition w121 (level : string) (mkdir listen : bool) : around :=
  mkAround (FPath [99]) (fun p => if bool_decide (p = [99]) then Ok (conf121 level) else Panic)
    (fun _ => None) (fun _ => mkdir) (fun _ => listen).
Lemma ready121 w mkdir listen : mkdir = true \/ w = "WARN"%string \/ w = "ERROR"%string ->
  ready (w121 w mkdir listen) (mkLogSec true true false w [46; 47]) [56; 48; 56; 48] [56; 48; 48; 56] (true, [98]).
Proof.
  intros H. exists [99], (conf121 w). split; [reflexivity|]. split; [reflexivity|].
  split; [split; [reflexivity|]; eexists; split; [reflexivity|]; split; reflexivity|].
  intros (_ & Hm). cbn in Hm. destruct H as [->|[->| ->]]; [discriminate Hm|left; reflexivity|right; left; reflexivity].
Qed.
Example C121_ex :
  mainStart [66] (w121 "DEBUG" true true)
    = (mkProc [[66]] (Some [58; 56; 48; 56; 48]) true None, Some (mkLogCfg true false true 0 true, [58; 56; 48; 48; 56]))
  /\ ps_end (fst (mainStart [66] (w121 "DEBUG" true false))) = Some 1%Z
  /\ ps_end (fst (mainStart [66] (w121 "DEBUG" false true))) = Some 2%Z
  /\ ps_end (fst (mainStart [66] (w121 "WARN" false true))) = None
  /\ ready (w121 "WARN" false true) (mkLogSec true true false "WARN" [46; 47]) [56; 48; 56; 48] [56; 48; 48; 56] (true, [98]).
Proof. repeat split; try reflexivity. apply ready121. auto. Qed.

(** C122: the process outlives what its goroutines meet, but for a panicking check, a failing HTTP server and, when the
    log cannot be written, a line that is to be logged *)
Theorem C122_up_iff_partial : forall lc evs p, up p -> up (procRun lc p evs) <-> Forall (outlives lc) evs.
Proof. intros lc evs p. exact (run_up_iff lc evs p). Qed.
Print Assumptions C122_up_iff_partial.
Theorem C122_over : forall lc evs p, up p -> ~ up (procRun lc p evs) ->
  exists before ev after status, evs = before ++ ev :: after /\ Forall (outlives lc) before /\ ~ outlives lc ev
  /\ over status (procRun lc p evs) /\ (status = 1 \/ status = 2)%Z
  /\ (status = 1%Z <-> ev = PvHttp /\ (writable lc \/ 3 < lc_level lc)).
Proof. intros lc evs p. exact (run_over lc evs p). Qed.
Print Assumptions C122_over.
(** a process that serves is ended by each of these *)
Theorem C122_refuted : forall text w l tcp http b, ready w l tcp http b -> wo_listen w (58 :: tcp) = true ->
  let lc := parseLogConf (wo_mkdir w) l in let p := fst (mainStart text w) in
  over 2 (procRun lc p [PvCheckPanic])
  /\ (~ mute_log (wo_mkdir w) l -> over 1 (procRun lc p [PvHttp]))
  /\ (mute_log (wo_mkdir w) l -> lg_level l <> "FATAl"%string -> over 2 (procRun lc p [PvPanic]) /\ over 2 (procRun lc p [PvLog 3])).
Proof.
  intros text w l tcp http b Hr Hl lc p. destruct (start_up_state text w l tcp http b Hr Hl) as (Hu & _). fold p in Hu.
  assert (Hg : forall ev, ~ outlives lc ev -> exists status, over status (procRun lc p [ev]) /\ (status = 1 \/ status = 2)%Z
     /\ (status = 1%Z <-> ev = PvHttp /\ (writable lc \/ 3 < lc_level lc))) by (intros ev He; exact (step_fatal lc p ev Hu He)).
  split; [|split].
  - destruct (Hg PvCheckPanic) as (st & Ho & [->| ->] & Hst); [intros []| |exact Ho]. destruct (proj1 Hst eq_refl) as (E & _). discriminate E.
  - intros Hm. destruct (Hg PvHttp) as (st & Ho & _ & Hst); [intros []|]. rewrite (proj2 Hst) in Ho; [exact Ho|]. split; [reflexivity|left; exact Hm].
  - intros Hm Hf. assert (Hw : ~ writable lc) by (intros W; exact (W Hm)).
    assert (Hlv : ~ 3 < lc_level lc).
    { destruct Hr as (?&?&_&_&_&Hq). unfold lc. rewrite conf_level. destruct (Hq Hm) as [W|[W|W]]; [rewrite W; vm_compute; discriminate..|contradiction]. }
    split.
    + destruct (Hg PvPanic) as (st & Ho & [->| ->] & Hst); [cbn; tauto| |exact Ho]. destruct (proj1 Hst eq_refl) as (E & _). discriminate E.
    + destruct (Hg (PvLog 3)) as (st & Ho & [->| ->] & Hst); [cbn; tauto| |exact Ho]. destruct (proj1 Hst eq_refl) as (E & _). discriminate E.
Qed.
Print Assumptions C122_refuted.
Example C122_ex :
  let lc := mkLogCfg true false true 2 true in let mute := mkLogCfg true false true 2 false in
  let p := mkProc [] (Some [58]) true None in
  up (procRun lc p [PvPanic; PvLog 3; PvHandler; PvCheckLog 1]) /\ Forall (outlives lc) [PvPanic; PvLog 3; PvHandler; PvCheckLog 1]
  /\ procRun mute p [PvLog 1; PvHandler; PvLog 3; PvPanic] = mkProc [] None true (Some 2%Z)
  /\ procRun lc p [PvPanic; PvHttp] = mkProc [] None true (Some 1%Z).
Proof.
  cbn zeta. assert (Hw : writable (mkLogCfg true false true 2 true)) by (intros (_ & H); discriminate H).
  split; [reflexivity|]. split; [repeat (constructor; [cbn; auto|]); constructor|]. split; reflexivity.
Qed.

(** C123: an embedded file is found under its path, with either slash, and under no other name ... *)
Theorem C123_found : forall name g, assetOf name = Some g <-> exists path, In (path, g) embedded /\ same_path name path.
Proof. rewrite <- bindata_embedded. exact asset_found. Qed.
Print Assumptions C123_found.
(** ... a directory lists each of its entries once ... *)
Theorem C123_dir : forall name dir l, stands_for name dir -> assetDir name = Some l ->
  base.NoDup l /\ l <> [] /\ forall c, In c l <-> entry_of paths dir c.
Proof.
  intros name dir l (Hs & Hp). apply canon_same in Hs; [|exact Hp]. subst dir. rewrite <- names_paths. exact (asset_dir name l).
Qed.
Print Assumptions C123_dir.
(** ... and what has no entries is none *)
Theorem C123_nodir : forall name dir, stands_for name dir ->
  assetDir name = None <-> forall c, ~ entry_of paths dir c.
Proof.
  intros name dir (Hs & Hp). apply canon_same in Hs; [|exact Hp]. subst dir. rewrite <- names_paths. exact (asset_nodir name).
Qed.
Print Assumptions C123_nodir.
Theorem C123_file_nodir : forall name g, assetOf name = Some g -> assetDir name = None.
Proof. exact file_nodir. Qed.
Print Assumptions C123_file_nodir.
Example C123_ex : assetOf (nConfigs ++ 92 :: nDefault) = Some GServer /\ assetOf nConfigs = None
  /\ assetDir nConfigs = Some [nBanner; nDefault] /\ assetDir [] = Some [nConfigs; nTest] /\ assetDir (nConfigs ++ [47]) = None
  /\ stands_for (nTest ++ 92 :: nClient) (nTest ++ 47 :: nClient).
Proof.
  split; [vm_compute; reflexivity|]. split; [vm_compute; reflexivity|]. split; [vm_compute; reflexivity|].
  split; [vm_compute; reflexivity|]. split; [vm_compute; reflexivity|].
  split; [repeat (constructor; auto)|]. repeat (constructor; [vm_compute; discriminate|]). constructor.
Qed.
Theorem C123_names : assetNames = paths.
Proof. exact names_paths. Qed.
Print Assumptions C123_names.
(** the default paths of config.go:26-31 are among the files *)
Example C123_defaults : assetOf (nConfigs ++ 47 :: nDefault) = Some GServer
  /\ assetOf (nTest ++ 47 :: nClient ++ 47 :: nConfigs ++ 47 :: nDefault) = Some GClient.
Proof. split; vm_compute; reflexivity. Qed.
