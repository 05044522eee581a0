(** Proofs of C121, C122: the start of the server's process *)
From Coq Require Import String.
From stdpp Require Import gmap.
From Verif Require Import Base ServerM MainM StartM SpecStart.
Local Open Scope N_scope.

Lemma log_panics lc lv : snd (logEvent lc lv) = true <-> lc_level lc <= lv /\ lc_file lc = true /\ lc_dir lc = false.
Proof.
  unfold logEvent, writers, fileWriter. destruct (N.ltb_spec lv (lc_level lc)) as [H|H]; cbn.
  - split; [discriminate|lia].
  - destruct (lc_console lc), (lc_file lc), (lc_dir lc); cbn; split; intros; try discriminate; try (destruct_and?; discriminate); auto.
Qed.
Lemma log_fine lc lv : snd (logEvent lc lv) = false <-> ~ (lc_level lc <= lv /\ lc_file lc = true /\ lc_dir lc = false).
Proof. rewrite <- log_panics. destruct (snd _); split; intros; congruence. Qed.

Lemma quiet_level l : quiet l <-> 1 < parseLevel (lg_level l).
Proof.
  unfold quiet, parseLevel. split.
  - intros [->|[->| ->]]; cbn; lia.
  - destruct (lg_level l =? "DEBUG")%string; [lia|]. destruct (lg_level l =? "INFO")%string; [lia|].
    destruct (String.eqb_spec (lg_level l) "WARN"); [auto|]. destruct (String.eqb_spec (lg_level l) "ERROR"); [auto|].
    destruct (String.eqb_spec (lg_level l) "FATAl"); [auto|]. lia.
Qed.
Lemma mute_conf mkdir l : mute_log mkdir l <-> lc_file (parseLogConf mkdir l) = true /\ lc_dir (parseLogConf mkdir l) = false.
Proof. reflexivity. Qed.
Lemma conf_level mkdir l : lc_level (parseLogConf mkdir l) = parseLevel (lg_level l).
Proof. reflexivity. Qed.

(** * C121 *)
Lemma configured w l : snd (configure (parseLogConf (wo_mkdir w) l)) = false <-> (mute_log (wo_mkdir w) l -> quiet l).
Proof.
  unfold configure. rewrite log_fine, conf_level, quiet_level, mute_conf. split.
  - intros H Hm. apply N.nle_gt. intros Hl. apply H. split; [exact Hl|exact Hm].
  - intros H (Hl & Hm). specialize (H Hm). lia.
Qed.
(** the three ways in which a start that is ready goes on *)
Lemma start_ready text w l tcp http b : ready w l tcp http b ->
  exists out, banner_shown text (wo_read w) b out
  /\ mainStart text w =
     (if wo_listen w (58 :: tcp) then (mkProc out (Some (58 :: tcp)) true None, Some (parseLogConf (wo_mkdir w) l, 58 :: http))
      else (mkProc out None false (Some (if snd (logEvent (parseLogConf (wo_mkdir w) l) 3) then 2 else 1)%Z), None)).
Proof.
  intros (path & cf & Hf & Hl & (Hlog & sv & Hs & Hp & Hb) & Hm). unfold mainStart.
  rewrite Hf, Hl, Hlog, Hs, Hb, Hp. pose proof (proj2 (configured w l) Hm) as Hc. rewrite Hc.
  destruct b as [en bp].
  assert (H0 : snd (logEvent (parseLogConf (wo_mkdir w) l) 0) = false).
  { apply log_fine. intros (H & H1). unfold configure in Hc. apply log_fine in Hc. apply Hc. split; [lia|exact H1]. }
  rewrite H0. unfold banner_shown. cbn [fst snd].
  destruct en; [destruct (wo_read w bp) as [t|]|];
    (eexists; split; [reflexivity|]); destruct (wo_listen w (58 :: tcp)); try reflexivity;
    destruct (snd (logEvent _ 3)); reflexivity.
Qed.
Lemma start_unready text w : (forall l tcp http b, ~ ready w l tcp http b) ->
  exists out, mainStart text w = (mkProc out None false (Some (match wo_flags w with FHelp => 0 | _ => 2 end)%Z), None).
Proof.
  intros Hn. unfold mainStart. destruct (wo_flags w) as [path| |] eqn:Hf; [|exists []; reflexivity|exists []; reflexivity].
  destruct (wo_load w path) as [cf|e|] eqn:Hl; [|exists []; reflexivity|exists []; reflexivity].
  destruct (cf_log cf) as [l|] eqn:Hlog; [|exists []; reflexivity].
  destruct (snd (configure _)) eqn:Hc; [exists []; reflexivity|].
  destruct (cf_server cf) as [sv|] eqn:Hs; [|exists []; reflexivity].
  destruct (sv_banner sv) as [[en bp]|] eqn:Hb; [|exists []; reflexivity].
  destruct (sv_port sv) as [[tcp http]|] eqn:Hp; [|destruct en; eexists; reflexivity].
  exfalso. apply (Hn l tcp http (en, bp)). exists path, cf. split; [exact Hf|]. split; [exact Hl|].
  split; [|exact (proj1 (configured w l) Hc)]. split; [exact Hlog|]. exists sv. auto.
Qed.
Lemma ready_dec w : (exists l tcp http b, ready w l tcp http b) \/ (forall l tcp http b, ~ ready w l tcp http b).
Proof.
  destruct (wo_flags w) as [path| |] eqn:Hf; [|right; intros ???? (?&?&H&_); congruence|right; intros ???? (?&?&H&_); congruence].
  destruct (wo_load w path) as [cf|e|] eqn:Hl;
    [|right; intros ???? (?&?&H&H'&_); congruence|right; intros ???? (?&?&H&H'&_); congruence].
  destruct (cf_log cf) as [l|] eqn:Hlog; [|right; intros ???? (?&?&H&H'&(H2&_)&_); congruence].
  destruct (cf_server cf) as [sv|] eqn:Hs; [|right; intros ???? (?&?&H&H'&(H2&?&H3&_)&_); congruence].
  destruct (sv_banner sv) as [b|] eqn:Hb; [|right; intros ???? (?&?&H&H'&(H2&?&H3&H4&H5)&_); congruence].
  destruct (sv_port sv) as [[tcp http]|] eqn:Hp; [|right; intros ???? (?&?&H&H'&(H2&?&H3&H4&H5)&_); congruence].
  destruct (snd (configure (parseLogConf (wo_mkdir w) l))) eqn:Hc.
  - right. intros l' ??? (?&?&H&H'&(H2&?&H3&H4&H5)&H6). assert (l' = l) by congruence. subst l'.
    apply (configured w l) in H6. congruence.
  - left. exists l, tcp, http, b. exists path, cf. split; [exact Hf|]. split; [exact Hl|].
    split; [|exact (proj1 (configured w l) Hc)]. split; [exact Hlog|]. exists sv. auto.
Qed.
Lemma ready_fun w l tcp http b l' tcp' http' b' : ready w l tcp http b -> ready w l' tcp' http' b' ->
  l' = l /\ tcp' = tcp /\ http' = http /\ b' = b.
Proof.
  intros (p & cf & A1 & A2 & (A3 & sv & A4 & A5 & A6) & _) (p' & cf' & B1 & B2 & (B3 & sv' & B4 & B5 & B6) & _).
  assert (p' = p) by congruence. subst p'. assert (cf' = cf) by congruence. subst cf'. assert (sv' = sv) by congruence. subst sv'.
  repeat split; congruence.
Qed.

Lemma start_up text w : up (fst (mainStart text w)) <->
  exists l tcp http b, ready w l tcp http b /\ wo_listen w (58 :: tcp) = true.
Proof.
  split.
  - intros Hu. destruct (ready_dec w) as [(l & tcp & http & b & Hr)|Hn].
    + destruct (start_ready text w l tcp http b Hr) as (out & _ & E). rewrite E in Hu.
      destruct (wo_listen w (58 :: tcp)) eqn:Hl; [exists l, tcp, http, b; auto|]. discriminate Hu.
    + destruct (start_unready text w Hn) as (out & E). rewrite E in Hu. discriminate Hu.
  - intros (l & tcp & http & b & Hr & Hl). destruct (start_ready text w l tcp http b Hr) as (out & _ & E).
    rewrite E, Hl. reflexivity.
Qed.
Lemma start_up_state text w l tcp http b : ready w l tcp http b -> wo_listen w (58 :: tcp) = true ->
  let p := fst (mainStart text w) in
  up p /\ ps_bound p = Some (58 :: tcp) /\ ps_serve p = true /\ banner_shown text (wo_read w) b (ps_out p)
  /\ snd (mainStart text w) = Some (parseLogConf (wo_mkdir w) l, 58 :: http).
Proof.
  intros Hr Hl. destruct (start_ready text w l tcp http b Hr) as (out & Hb & E). cbn zeta. rewrite E, Hl. repeat split. exact Hb.
Qed.
Lemma start_over text w : ~ up (fst (mainStart text w)) ->
  exists status, over status (fst (mainStart text w)) /\ ps_serve (fst (mainStart text w)) = false
  /\ (status = 0 \/ status = 1 \/ status = 2)%Z
  /\ (status = 0%Z <-> wo_flags w = FHelp)
  /\ (status = 1%Z <-> exists l tcp http b, ready w l tcp http b /\ wo_listen w (58 :: tcp) = false
        /\ (mute_log (wo_mkdir w) l -> lg_level l = "FATAl"%string)).
Proof.
  intros Hu. destruct (ready_dec w) as [(l & tcp & http & b & Hr)|Hn].
  - destruct (start_ready text w l tcp http b Hr) as (out & _ & E). rewrite E in *.
    destruct (wo_listen w (58 :: tcp)) eqn:Hl; [exfalso; apply Hu; reflexivity|]. cbn [fst ps_serve].
    eexists. split; [split; reflexivity|]. split; [reflexivity|].
    assert (Hh : wo_flags w <> FHelp) by (destruct Hr as (?&?&H&_); congruence).
    destruct (snd (logEvent _ 3)) eqn:E3.
    + split; [auto|]. split; [split; [discriminate|congruence]|]. split; [discriminate|].
      intros (l' & tcp' & http' & b' & Hr' & Hl' & Hq). destruct (ready_fun _ _ _ _ _ _ _ _ _ Hr Hr') as (-> & -> & -> & ->).
      apply log_panics in E3. destruct E3 as (Hlv & Hm). specialize (Hq Hm). cbn in Hlv. rewrite Hq in Hlv. exfalso. vm_compute in Hlv. congruence.
    + split; [auto|]. split; [split; [discriminate|congruence]|]. split; [intros _|reflexivity].
      exists l, tcp, http, b. split; [exact Hr|]. split; [exact Hl|]. intros Hm. apply log_fine in E3.
      destruct Hr as (?&?&_&_&_&Hq). destruct (Hq Hm) as [W|[W|W]]; [exfalso; apply E3; split; [|exact Hm]..|exact W];
        cbn; rewrite W; vm_compute; discriminate.
  - destruct (start_unready text w Hn) as (out & E). rewrite E in *. cbn [fst ps_serve].
    eexists. split; [split; reflexivity|]. split; [reflexivity|].
    destruct (wo_flags w); (split; [auto|]); (split; [split; congruence|]); (split; [discriminate|]);
      intros (l' & tcp' & http' & b' & Hr' & _); destruct (Hn _ _ _ _ Hr').
Qed.

(** * C122 *)
Lemma writable_dec lc : writable lc \/ ~ writable lc.
Proof. unfold writable. destruct (lc_file lc), (lc_dir lc); [left|right|left|left]; intuition congruence. Qed.
Lemma step_ended lc p ev : ps_end p <> None -> procStep lc p ev = p.
Proof. intros H. unfold procStep. destruct (ps_end p); [reflexivity|congruence]. Qed.
Lemma run_ended lc evs p : ps_end p <> None -> procRun lc p evs = p.
Proof. induction evs as [|ev t IH]; intros H; [reflexivity|]. cbn. rewrite (step_ended lc p ev H). exact (IH H). Qed.
Lemma log_fine' lc lv : writable lc \/ lv < lc_level lc -> snd (logEvent lc lv) = false.
Proof. intros H. apply log_fine. intros (Hl & Hm). destruct H as [H|H]; [exact (H Hm)|lia]. Qed.
Lemma log_panics' lc lv : ~ (writable lc \/ lv < lc_level lc) -> snd (logEvent lc lv) = true.
Proof.
  intros H. destruct (snd (logEvent lc lv)) eqn:E; [reflexivity|]. exfalso. apply log_fine in E. apply H.
  destruct (writable_dec lc) as [Hw|Hw]; [left; exact Hw|]. right. apply N.nle_gt. intros Hl. apply Hw. intros Hm. exact (E (conj Hl Hm)).
Qed.
Lemma step_outlives lc p ev : up p -> outlives lc ev -> procStep lc p ev = p.
Proof.
  unfold up, procStep. intros -> H. destruct ev as [lv| |lv| | |]; cbn in H; try tauto; unfold recovered.
  - destruct (snd (logEvent lc lv)) eqn:E; [|reflexivity]. destruct (snd (logEvent lc 3)) eqn:E3; [exfalso|reflexivity].
    apply log_panics in E, E3. destruct E as (E & Em). destruct E3 as (E3 & _). destruct H as [H|[H|H]]; [exact (H Em)|lia|lia].
  - rewrite (log_fine' lc 3 H). reflexivity.
  - rewrite (log_fine' lc lv H). reflexivity.
Qed.
Lemma step_fatal lc p ev : up p -> ~ outlives lc ev ->
  exists status, over status (procStep lc p ev) /\ (status = 1 \/ status = 2)%Z
  /\ (status = 1%Z <-> ev = PvHttp /\ (writable lc \/ 3 < lc_level lc)).
Proof.
  unfold up, procStep. intros -> H. destruct ev as [lv| |lv| | |]; cbn in H; try tauto; unfold recovered, over.
  - assert (H1 : ~ (writable lc \/ lv < lc_level lc)) by tauto. assert (H3 : ~ (writable lc \/ 3 < lc_level lc)) by tauto.
    rewrite (log_panics' lc lv H1), (log_panics' lc 3 H3). exists 2%Z. repeat split; auto; try discriminate; intros (E & _); discriminate E.
  - rewrite (log_panics' lc 3 H). exists 2%Z. repeat split; auto; try discriminate; intros (E & _); discriminate E.
  - rewrite (log_panics' lc lv H). exists 2%Z. repeat split; auto; try discriminate; intros (E & _); discriminate E.
  - exists 2%Z. repeat split; auto; try discriminate; intros (E & _); discriminate E.
  - destruct (snd (logEvent lc 3)) eqn:E.
    + exists 2%Z. repeat split; auto; try discriminate. intros (_ & Hw). pose proof (log_fine' lc 3 Hw). congruence.
    + exists 1%Z. repeat split; auto. apply log_fine in E. destruct (writable_dec lc) as [Hw|Hw]; [left; exact Hw|].
      right. apply N.nle_gt. intros Hl. apply Hw. intros Hm. exact (E (conj Hl Hm)).
Qed.
Lemma outlives_dec lc ev : outlives lc ev \/ ~ outlives lc ev.
Proof.
  destruct ev as [lv| |lv| | |]; cbn; try tauto; destruct (writable_dec lc) as [Hw|Hw].
  - tauto.
  - destruct (N.lt_ge_cases 3 (lc_level lc)) as [H3|H3]; [tauto|]. destruct (N.lt_ge_cases lv (lc_level lc)) as [H|H]; [tauto|].
    right. intros [?|[?|?]]; [tauto|lia|lia].
  - tauto.
  - destruct (N.lt_ge_cases 3 (lc_level lc)) as [H3|H3]; [tauto|]. right. intros [?|?]; [tauto|lia].
  - tauto.
  - destruct (N.lt_ge_cases lv (lc_level lc)) as [H|H]; [tauto|]. right. intros [?|?]; [tauto|lia].
Qed.
Lemma run_up_iff lc evs p : up p -> up (procRun lc p evs) <-> Forall (outlives lc) evs.
Proof.
  revert p. induction evs as [|ev t IH]; intros p Hp; [split; [constructor|intros _; exact Hp]|].
  cbn [procRun fold_left]. fold (procRun lc (procStep lc p ev) t). rewrite Forall_cons_iff.
  destruct (outlives_dec lc ev) as [Ho|Ho].
  - rewrite (step_outlives lc p ev Hp Ho). rewrite (IH p Hp). tauto.
  - destruct (step_fatal lc p ev Hp Ho) as (status & (He & _) & _). rewrite run_ended by congruence.
    unfold up. split; [congruence|tauto].
Qed.
Lemma run_over lc evs p : up p -> ~ up (procRun lc p evs) ->
  exists before ev after status, evs = before ++ ev :: after /\ Forall (outlives lc) before /\ ~ outlives lc ev
  /\ over status (procRun lc p evs) /\ (status = 1 \/ status = 2)%Z
  /\ (status = 1%Z <-> ev = PvHttp /\ (writable lc \/ 3 < lc_level lc)).
Proof.
  revert p. induction evs as [|ev t IH]; intros p Hp Hn; [exfalso; exact (Hn Hp)|].
  cbn [procRun fold_left] in *. fold (procRun lc (procStep lc p ev) t) in *.
  destruct (outlives_dec lc ev) as [Ho|Ho].
  - rewrite (step_outlives lc p ev Hp Ho) in *. destruct (IH p Hp Hn) as (b & x & a & st & -> & Hb & Hx & Hr).
    exists (ev :: b), x, a, st. split; [reflexivity|]. split; [constructor; assumption|]. split; [exact Hx|exact Hr].
  - destruct (step_fatal lc p ev Hp Ho) as (status & Hov & Hst). exists [], ev, t, status.
    split; [reflexivity|]. split; [constructor|]. split; [exact Ho|]. rewrite run_ended by (destruct Hov; congruence). auto.
Qed.
