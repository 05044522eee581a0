(** One frame, one tick, one request; histories *)
From stdpp Require Import gmap.
From Verif Require Import Base HexM TimeM HeaderM ParamsM GeoM MsgM PacketM ProgM ProgP RingM SpecRing RingP
  StateM ProcM ServerM SpecState StateP ProcP.
Local Open Scope N_scope.

(** * Decoding with the segment cache *)
Lemma consistent_segs f s : consistent s -> consistent (set_segs f s).
Proof. intros []. constructor; assumption. Qed.
(** only the segment cache changed *)
Definition onlySegs (s s' : st) : Prop := exists f, s' = set_segs f s.
Lemma run_decodeP e frm s : exists r s', run (decodeP e frm) s = (r, s') /\ onlySegs s s'
  /\ match r with
     | Ok p => exists p0, decodePacket (e_o e) frm = Ok p0 /\ pk_hdr p = pk_hdr p0
                          /\ pk_body p = pk_body p0
                          /\ (isFragmented (pk_hdr p0) = false -> p = p0 /\ s' = s)
     | Err er => decodePacket (e_o e) frm = Err er /\ s' = s
     | Panic => (decodePacket (e_o e) frm = Panic /\ s' = s)
                \/ exists p0, decodePacket (e_o e) frm = Ok p0 /\ isFragmented (pk_hdr p0) = true
     end.
Proof.
  assert (Hid : onlySegs s s) by (exists id; destruct s; reflexivity).
  unfold decodeP. rewrite run_bind. unfold lift. cbn [run].
  destruct (decodePacket (e_o e) frm) as [p0|er|] eqn:E; [|eauto 10..].
  destruct (isFragmented (pk_hdr p0)) eqn:Ef.
  - destruct (h_frag (pk_hdr p0)) as [f|]; [|eexists _, _; cbn; eauto 10].
    rewrite run_bind. unfold cacheSegment. cbn [run sg_phone sg_id].
    destruct (st_segs s !! _) as [y|]; cbn [run ret panic].
    + eexists _, _. split; [reflexivity|]. split; [eexists; reflexivity|].
      cbn. exists p0. rewrite Ef. split_and!; [reflexivity..|discriminate].
    + eexists _, _. split; [reflexivity|]. split; [eexists; reflexivity|]. right. eauto.
  - cbn. eexists _, _. split; [reflexivity|]. split; [exact Hid|]. exists p0. auto.
Qed.

(** * Writing *)
Definition onlyConn (c : nat) (s s' : st) : Prop :=
  exists f, s' = set_conns f s /\ (forall c', c' <> c -> f (st_conns s) !! c' = st_conns s !! c')
    /\ (is_Some (f (st_conns s) !! c) <-> is_Some (st_conns s !! c)).
Lemma onlyConn_refl c s : onlyConn c s s.
Proof. exists id. destruct s. cbn. tauto. Qed.
Lemma consistent_conn c s s' : consistent s -> onlyConn c s s' -> consistent s'.
Proof.
  intros C (f & -> & H1 & H2). destruct C. constructor; cbn; try assumption.
  intros l x Hx. destruct (cs_conn l x Hx) as (Hc & Hn). split; [|exact Hn].
  destruct (decide (ss_conn x = c)) as [E|Hne]; [rewrite E in *; apply H2|rewrite H1 by exact Hne]; exact Hc.
Qed.

(** what may be written for the message [out] *)
Definition writes (e : env) (out : option msg) (l : list bytes) : Prop :=
  l = [] \/ exists m b n, out = Some m /\ encodePacket (e_o e) m = Ok b /\ l = [take n b].

Lemma run_connSend c b w s k : st_conns s !! c = Some k ->
  exists q s', run (connSend c b w) s = (q, s') /\ q <> Panic /\ onlyConn c s s'
    /\ (st_conns s' !! c = Some k /\ (cn_open k = false /\ q = Err ErrNetClosed)
        \/ exists n, cn_open k = true /\ st_conns s' !! c = Some (mkConn true (cn_out k ++ [take n b]))
             /\ (w = None -> q = Ok tt /\ take n b = b)
             /\ (forall m er, w = Some (m, er) -> q = Err er /\ n = m)).
Proof.
  intros H. unfold connSend. cbn [run]. rewrite H.
  assert (Hoc : forall g : conn -> conn, onlyConn c s (set_conns (alter g c) s)).
  { intros g. exists (alter g c). split; [reflexivity|]. split.
    - intros c' Hn. rewrite lookup_alter_ne by congruence. reflexivity.
    - rewrite lookup_alter, fmap_is_Some. tauto. }
  destruct (cn_open k) eqn:Eo.
  - destruct w as [[n er]|]; cbn.
    + eexists _, _. split; [reflexivity|]. split; [discriminate|]. split; [apply Hoc|].
      right. exists n. cbn. rewrite lookup_alter, H. cbn. rewrite Eo.
      split_and!; [reflexivity..|discriminate|]. intros ? ? [= <- <-]. auto.
    + eexists _, _. split; [reflexivity|]. split; [discriminate|]. split; [apply Hoc|].
      right. exists (length b). cbn. rewrite lookup_alter, H. cbn. rewrite Eo, take_ge by lia.
      split_and!; [reflexivity..|auto|discriminate].
  - eexists _, _. split; [reflexivity|]. split; [discriminate|]. split; [apply Hoc|].
    left. cbn. rewrite lookup_alter, H. cbn. rewrite Eo. destruct k. cbn in *. auto.
Qed.

Lemma run_write e c out w s k : st_conns s !! c = Some k ->
  exists q s', run (processConnWrite e c out w) s = (q, s') /\ onlyConn c s s'
    /\ exists l, writes e out l /\ st_conns s' !! c = Some (mkConn (cn_open k) (cn_out k ++ l))
       /\ (cn_open k = true -> w = None -> forall m b, out = Some m -> encodePacket (e_o e) m = Ok b ->
             q = Ok tt /\ l = [b])
       /\ (forall m, out = Some m -> encodePacket (e_o e) m = Panic -> q = Panic /\ s' = s).
Proof.
  intros H. unfold processConnWrite. destruct out as [m|].
  2:{ eexists _, s. split; [reflexivity|]. split; [apply onlyConn_refl|].
      exists []. rewrite app_nil_r. split; [left; reflexivity|]. split; [destruct k; exact H|].
      split; discriminate. }
  rewrite run_bind. unfold lift. cbn [run].
  destruct (encodePacket (e_o e) m) as [b|er|] eqn:E.
  - destruct (run_connSend c b w s k H) as (q & s' & E' & Hq & Ho & Hc). rewrite E'.
    exists q, s'. split; [reflexivity|]. split; [exact Ho|]. destruct Hc as [(Hk & Hcl & Hq')|(n & Hop & Hk & Hw & _)].
    + exists []. rewrite app_nil_r. split; [left; reflexivity|]. split; [destruct k; exact Hk|].
      split; [congruence|]. intros m' [= <-]. congruence.
    + exists [take n b]. rewrite Hop. split; [right; eauto 10|]. split; [exact Hk|].
      split; [|intros m' [= <-]; congruence].
      intros _ Hwn m' b' [= <-] E2. assert (b' = b) by congruence. subst b'.
      destruct (Hw Hwn) as (-> & Ht). rewrite Ht. auto.
  - eexists _, s. split; [reflexivity|]. split; [apply onlyConn_refl|].
    exists []. rewrite app_nil_r. split; [left; reflexivity|]. split; [destruct k; exact H|].
    split; [congruence|]. intros m' [= <-]. first [congruence|auto].
  - eexists _, s. split; [reflexivity|]. split; [apply onlyConn_refl|].
    exists []. rewrite app_nil_r. split; [left; reflexivity|]. split; [destruct k; exact H|].
    split; [congruence|]. intros m' [= <-]. first [congruence|auto].
Qed.

(** * One frame *)
(** what a frame of the phone [ph] on the connection [c] may change while it is handled *)
Record frame_kept (ph : option str) (c : nat) (s s' : st) : Prop := {
  fk_ok : consistent s';
  fk_iso : forall q, ph <> Some q -> devAt s' q = devAt s q /\ ringOf s' q = ringOf s q
                                    /\ st_params s' !! q = st_params s !! q;
  fk_conns : forall c', c' <> c -> st_conns s' !! c' = st_conns s !! c';
  fk_byID : st_byID s' = st_byID s;
  fk_clock : st_clock s' = st_clock s;
  fk_sess : forall l, ss_id <$> st_sess s' !! l = ss_id <$> st_sess s !! l
              /\ ss_conn <$> st_sess s' !! l = ss_conn <$> st_sess s !! l
}.
Definition phone_of (e : env) (r : res bytes) : option str :=
  match r with
  | Ok frm => match decodePacket (e_o e) frm with Ok p => Some (h_phone (pk_hdr p)) | _ => None end
  | _ => None
  end.
Lemma frame_kept_refl ph c s : consistent s -> frame_kept ph c s s.
Proof. intros C. split; auto. Qed.

(** processing of the frame [r], and what it answers *)
Definition frameOut (e : env) (sl : nat) (r : res bytes) (s : st) : res (option msg) * st :=
  run (frm <- lift r ;; p <- decodeP e frm ;; process e sl p)%prog s.

Lemma frameOut_kept e sl r s c : consistent s -> is_Some (st_sess s !! sl) ->
  frame_kept (phone_of e r) c s (snd (frameOut e sl r s)) /\ st_conns (snd (frameOut e sl r s)) = st_conns s.
Proof.
  intros C Hs. unfold frameOut. rewrite run_bind. unfold lift. cbn [run].
  destruct r as [frm|er|]; [|split; [apply frame_kept_refl; exact C|reflexivity]..].
  rewrite run_bind. destruct (run_decodeP e frm s) as (r1 & s1 & E & (f & ->) & Hr). rewrite E.
  assert (C1 : consistent (set_segs f s)) by (apply consistent_segs; exact C).
  assert (K1 : frame_kept (phone_of e (Ok frm)) c s (set_segs f s)) by (split; auto).
  destruct r1 as [p|er|]; [|split; [exact K1|reflexivity]..].
  destruct Hr as (p0 & Ep & Hh & _). cbn [phone_of] in *. rewrite Ep in *.
  pose proof (kept_process e sl _ p C1 Hs) as [K2 K3 (K4 & K5 & K6 & K7) K8].
  destruct (run (process e sl p) (set_segs f s)) as [q s2]. cbn [snd] in *. split; [|exact K4].
  split; auto.
  - intros q' Hq. apply (K3 q'). rewrite Hh. congruence.
  - intros c' _. rewrite K4. reflexivity.
Qed.

Lemma run_read e sl c r w s : run (processConnRead e sl c r w) s =
  match frameOut e sl r s with
  | (Ok out, s') => run (processConnWrite e c out w) s'
  | (Err er, s') => (Err er, s')
  | (Panic, s') => (Panic, s')
  end.
Proof.
  unfold processConnRead, frameOut. rewrite !run_bind. unfold lift. cbn [run].
  destruct r as [frm|er|]; [|reflexivity..]. rewrite !run_bind.
  destruct (run (decodeP e frm) s) as [[p|er|] s']; [|reflexivity..]. rewrite run_bind. reflexivity.
Qed.

Lemma serveOne_spec e sl r w s x k : consistent s -> st_sess s !! sl = Some x ->
  st_conns s !! ss_conn x = Some k ->
  exists q s', run (serveOne e sl r w) s = (q, s') /\ frame_kept (phone_of e r) (ss_conn x) s s'
    /\ exists l, st_conns s' !! ss_conn x = Some (mkConn (cn_open k) (cn_out k ++ l))
       /\ (l = [] \/ exists m, fst (frameOut e sl r s) = Ok (Some m) /\ writes e (Some m) l).
Proof.
  intros C Hx Hk. unfold serveOne. rewrite run_bind. unfold readSess. cbn [run]. rewrite Hx. cbn [run ret].
  rewrite run_bindR, run_read.
  destruct (frameOut_kept e sl r s (ss_conn x) C (ex_intro _ x Hx)) as (K & Hc).
  destruct (frameOut e sl r s) as [[out|er|] s1]; cbn [fst snd] in *.
  - assert (Hk1 : st_conns s1 !! ss_conn x = Some k) by (rewrite Hc; exact Hk).
    destruct (run_write e (ss_conn x) out w s1 k Hk1) as (q & s2 & E & Ho & l & Hl & Hl' & _ & _).
    rewrite E. cbn [fst snd].
    assert (K2 : frame_kept (phone_of e r) (ss_conn x) s s2).
    { pose proof (consistent_conn _ _ _ (fk_ok _ _ _ _ K) Ho) as C2. destruct Ho as (f & -> & H1 & H2).
      destruct K. split; auto. intros c' Hc'. cbn. rewrite H1, Hc by exact Hc'. reflexivity. }
    destruct q as [u|er|]; eexists _, s2; (split; [reflexivity|]; split; [exact K2|]; exists l; split; [exact Hl'|]);
      destruct out as [m|]; try (right; eauto; fail); destruct Hl as [->|(m & b & n & ? & _)]; try discriminate; left; reflexivity.
  - eexists _, s1. split; [reflexivity|]. split; [exact K|]. exists []. rewrite app_nil_r.
    split; [rewrite Hc; destruct k; exact Hk|left; reflexivity].
  - eexists _, s1. split; [reflexivity|]. split; [exact K|]. exists []. rewrite app_nil_r.
    split; [rewrite Hc; destruct k; exact Hk|left; reflexivity].
Qed.

(** * Closing a session *)
Definition closed (sl : nat) (x : session) (s : st) : st :=
  set_byID (delete (ss_id x)) (set_conns (alter (fun y => mkConn false (cn_out y)) (ss_conn x)) s).
Lemma run_remove sl x s : st_sess s !! sl = Some x -> run (remove sl) s = (Ok tt, closed sl x s).
Proof.
  intros H. unfold remove, lock. rewrite run_bind. cbn [run wr1 ret]. rewrite run_bindR.
  assert (E : run (x <- readSess sl ;; connClose (ss_conn x) ;;; clearSession (ss_id x))%prog s = (Ok tt, closed sl x s)).
  { rewrite run_bind. unfold readSess. cbn [run]. rewrite H. reflexivity. }
  rewrite E. reflexivity.
Qed.
Lemma alter_conn_only g c s : onlyConn c s (set_conns (alter g c) s).
Proof.
  exists (alter g c). split; [reflexivity|]. split.
  - intros c' Hn. rewrite lookup_alter_ne by congruence. reflexivity.
  - rewrite lookup_alter, fmap_is_Some. tauto.
Qed.
Lemma closed_ok sl x s : consistent s -> consistent (closed sl x s).
Proof.
  intros C. pose proof (consistent_conn _ _ _ C (alter_conn_only (fun y => mkConn false (cn_out y)) (ss_conn x) s)) as C1.
  unfold closed. destruct C1. constructor; cbn in *; try assumption.
  intros i l H. apply lookup_delete_Some in H. apply cs_sess. tauto.
Qed.

(** * Keepalive checks *)
Definition cleared (d : device) (s : st) : st :=
  set_geo (delete (d_phone d))
    (dropped (set_conns (alter (fun y => mkConn false (cn_out y)) (d_conn d)) s) d).
Definition expired (s : st) (d : device) : bool := (d_keep d + d_last d <? st_clock s)%Z.
Lemma run_turnOffline l s d : st_devs s !! l = Some d ->
  run (shouldTurnOffline l) s = (Ok (negb (d_status d =? Offline) && expired s d), s).
Proof.
  intros H. unfold shouldTurnOffline. rewrite run_bind. unfold getNow, rd1. cbn [run ret]. rewrite run_bind. unfold readDev at 1. cbn [run].
  rewrite H. cbn [run ret]. destruct (d_status d =? Offline); [reflexivity|]. rewrite run_bind. unfold readDev. cbn [run]. rewrite H. reflexivity.
Qed.
Lemma run_clear l s d : st_devs s !! l = Some d -> run (shouldClear l) s = (Ok ((d_status d =? Offline) && expired s d), s).
Proof.
  intros H. unfold shouldClear. rewrite run_bind. unfold getNow, rd1. cbn [run ret]. rewrite run_bind. unfold readDev at 1. cbn [run].
  rewrite H. cbn [run ret]. destruct (d_status d =? Offline); [|reflexivity]. rewrite run_bind. unfold readDev. cbn [run]. rewrite H. reflexivity.
Qed.
Lemma run_keepalive ph s l d : consistent s -> st_byPhone s !! ph = Some l -> st_devs s !! l = Some d ->
  run (checkKeepalive ph) s =
  (Ok tt, if expired s d then
            if d_status d =? Offline then cleared d s
            else set_devs (alter (fun d => dset_status d Offline) l) s
          else s).
Proof.
  intros C H H1. destruct (cs_phone s C _ _ H) as (d' & H1' & Hp & Hq).
  assert (d' = d) by congruence. subst d'.
  unfold checkKeepalive. rewrite run_bind. unfold getDeviceByPhone, rd1. cbn [run ret]. rewrite H.
  rewrite run_bind, (run_turnOffline l s d H1). destruct (d_status d =? Offline) eqn:Es, (expired s d) eqn:Et; cbn [negb andb].
  - rewrite run_bind, (run_clear l s d H1), Es, Et. cbn [andb]. rewrite run_bind. unfold readConst. cbn [run]. rewrite H1. cbn [run ret].
    cbn. rewrite H, H1. cbn. unfold cleared, dropped. rewrite Hp. reflexivity.
  - rewrite run_bind, (run_clear l s d H1), Es, Et. reflexivity.
  - cbn. rewrite lookup_alter, H1. cbn. unfold set_index, set_devs. cbn.
    rewrite !insert_id by congruence. reflexivity.
  - rewrite run_bind, (run_clear l s d H1), Es, Et. reflexivity.
Qed.
Lemma cleared_ok d l s : consistent s -> st_byPhone s !! d_phone d = Some l -> st_devs s !! l = Some d ->
  consistent (cleared d s).
Proof.
  intros C H H1. unfold cleared.
  pose proof (consistent_conn _ _ _ C (alter_conn_only (fun y => mkConn false (cn_out y)) (d_conn d) s)) as C1.
  pose proof (dropped_ok _ C1 d l H H1) as C2. destruct C2. constructor; cbn in *; try assumption.
  - intros p l'. rewrite lookup_delete_Some. intros (_ & Hg). exact (cs_geo p l' Hg).
  - intros p q l'. rewrite !lookup_delete_Some. intros (_ & Hp) (_ & Hq). exact (cs_geo_inj p q l' Hp Hq).
Qed.
Lemma keepalive_ok ph s : consistent s -> ph ∈ st_jobs s ->
  fst (run (checkKeepalive ph) s) = Ok tt /\ consistent (snd (run (checkKeepalive ph) s))
  /\ st_sess (snd (run (checkKeepalive ph) s)) = st_sess s
  /\ st_byID (snd (run (checkKeepalive ph) s)) = st_byID s.
Proof.
  intros C Hj. apply (cs_jobs2 s C) in Hj. destruct Hj as (l & H).
  destruct (cs_phone s C _ _ H) as (d & H1 & Hp & Hq).
  rewrite (run_keepalive ph s l d C H H1). cbn [fst snd]. split; [reflexivity|].
  destruct (expired s d); [|auto]. destruct (d_status d =? Offline).
  - split; [|auto]. rewrite <- Hp in H. eapply cleared_ok; eassumption.
  - split; [|auto]. eapply touch_ok; [exact C|exact H1|reflexivity..].
Qed.

Lemma same_sess s s' : (forall l, ss_id <$> st_sess s' !! l = ss_id <$> st_sess s !! l
              /\ ss_conn <$> st_sess s' !! l = ss_conn <$> st_sess s !! l) ->
  forall l x, st_sess s !! l = Some x -> exists x', st_sess s' !! l = Some x' /\ ss_id x' = ss_id x /\ ss_conn x' = ss_conn x.
Proof.
  intros H l x Hx. destruct (H l) as (H1 & H2). rewrite Hx in H1, H2.
  destruct (st_sess s' !! l) as [x'|]; cbn in *; [|discriminate].
  injection H1 as H1. injection H2 as H2. eauto.
Qed.

(** * Commands from the HTTP interface *)
(** what a command may change: the session's serial number, its connection, and its
    registration when the connection turns out to be closed *)
Record cmd_kept (c : option nat) (s s' : st) : Prop := {
  ck_ok : consistent s';
  ck_dev : forall q, devAt s' q = devAt s q /\ ringOf s' q = ringOf s q
                     /\ st_params s' !! q = st_params s !! q;
  ck_conns : forall c', c <> Some c' -> st_conns s' !! c' = st_conns s !! c';
  ck_byID : forall i l, st_byID s' !! i = Some l -> st_byID s !! i = Some l;
  ck_clock : st_clock s' = st_clock s;
  ck_sess : forall l, ss_id <$> st_sess s' !! l = ss_id <$> st_sess s !! l
              /\ ss_conn <$> st_sess s' !! l = ss_conn <$> st_sess s !! l;
  (* no connection is opened, and a session whose connection is open stays registered *)
  ck_open : forall c' k', st_conns s' !! c' = Some k' -> cn_open k' = true ->
    exists k, st_conns s !! c' = Some k /\ cn_open k = true;
  ck_reg : forall i l x k', st_byID s !! i = Some l -> st_sess s !! l = Some x ->
    st_conns s' !! ss_conn x = Some k' -> cn_open k' = true -> st_byID s' !! i = Some l
}.
Lemma cmd_kept_refl c s : consistent s -> cmd_kept c s s.
Proof. intros C. split; eauto. Qed.

Lemma cmd_kept_conn c s s' k o : consistent s -> onlyConn c s s' -> st_conns s !! c = Some k ->
  st_conns s' !! c = Some (mkConn (cn_open k) o) -> cmd_kept (Some c) s s'.
Proof.
  intros C Ho Hk Hk'. pose proof (consistent_conn _ _ _ C Ho) as C1. destruct Ho as (f & -> & H1 & H2).
  split; auto.
  intros c' k' H Hop. cbn in H, Hk'. destruct (decide (c' = c)) as [->|Hn].
  - exists k. split; [exact Hk|]. rewrite Hk' in H. injection H as <-. exact Hop.
  - rewrite H1 in H by exact Hn. eauto.
Qed.
Lemma cmd_kept_closed c sl x s s' : cmd_kept (Some c) s s' -> ss_conn x = c ->
  st_byID s !! ss_id x = Some sl -> st_sess s !! sl = Some x -> cmd_kept (Some c) s (closed sl x s').
Proof.
  intros [K1 K2 K3 K4 K5 K6 K7 K8] Hc Hi Hx. split.
  - apply closed_ok. exact K1.
  - exact K2.
  - intros c' Hn. cbn. rewrite lookup_alter_ne by congruence. apply K3. exact Hn.
  - intros i l H. cbn in H. apply lookup_delete_Some in H. apply K4. tauto.
  - exact K5.
  - exact K6.
  - intros c' k' H Hop. cbn in H. destruct (decide (c' = ss_conn x)) as [->|Hn].
    + rewrite lookup_alter in H. destruct (st_conns s' !! ss_conn x); [|discriminate].
      injection H as <-. discriminate.
    + rewrite lookup_alter_ne in H by congruence. eapply K7; eassumption.
  - intros i l y k' H Hy Hk Hop. cbn in Hk |- *. destruct (decide (ss_conn y = ss_conn x)) as [E|Hn].
    + rewrite E, lookup_alter in Hk. destruct (st_conns s' !! ss_conn x); [|discriminate].
      injection Hk as <-. discriminate.
    + rewrite lookup_alter_ne in Hk by congruence. rewrite lookup_delete_ne; [eapply K8; eassumption|].
      intros <-. rewrite Hi in H. injection H as <-. congruence.
Qed.

Lemma run_serverSend e i m w s sl x k : consistent s -> st_byID s !! i = Some sl ->
  st_sess s !! sl = Some x -> st_conns s !! ss_conn x = Some k ->
  exists q s', run (serverSend e i m w) s = (q, s') /\ cmd_kept (Some (ss_conn x)) s s'
    /\ exists l o, writes e (Some m) l /\ st_conns s' !! ss_conn x = Some (mkConn o (cn_out k ++ l))
       /\ (cn_open k = true -> w = None -> forall b, encodePacket (e_o e) m = Ok b ->
             q = Ok tt /\ l = [b] /\ o = true /\ st_byID s' = st_byID s)
       /\ (encodePacket (e_o e) m = Panic -> q = Panic /\ s' = s).
Proof.
  intros C Hi Hx Hk. unfold serverSend. rewrite run_bind. unfold getSession, rd1. cbn [run ret]. rewrite Hi.
  rewrite run_bind. unfold readSess. cbn [run]. rewrite Hx. cbn [run ret]. rewrite run_bindR.
  destruct (run_write e (ss_conn x) (Some m) w s k Hk) as (q & s1 & E & Ho & l & Hl & Hk1 & Hw & Hp).
  rewrite E. cbn [fst snd]. pose proof (cmd_kept_conn _ _ _ _ _ C Ho Hk Hk1) as K1.
  assert (Hxi : st_byID s !! ss_id x = Some sl).
  { destruct (cs_sess s C _ _ Hi) as (x' & Hx' & Hi'). rewrite Hx in Hx'. injection Hx' as ->. rewrite Hi'. exact Hi. }
  assert (Hb1 : st_byID s1 = st_byID s) by (destruct Ho as (f & -> & _); reflexivity).
  assert (Hx1 : st_sess s1 !! sl = Some x) by (destruct Ho as (f & -> & _); exact Hx).
  assert (Hgo : forall b, cn_open k = true -> w = None -> encodePacket (e_o e) m = Ok b -> q = Ok tt /\ l = [b]).
  { intros b H1 H2. apply (Hw H1 H2 m b eq_refl). }
  assert (Hpn : encodePacket (e_o e) m = Panic -> q = Panic /\ s1 = s) by (apply Hp; reflexivity).
  destruct q as [u|er|].
  - eexists _, s1. split; [reflexivity|]. split; [exact K1|]. exists l, (cn_open k).
    split; [exact Hl|]. split; [exact Hk1|]. split; [|intros H; destruct (Hpn H); discriminate].
    intros H1 H2 b Eb. destruct (Hgo b H1 H2 Eb) as (_ & ->). auto.
  - assert (Hne : forall b, cn_open k = true -> w = None -> encodePacket (e_o e) m = Ok b -> False).
    { intros b H1 H2 Eb. destruct (Hgo b H1 H2 Eb). discriminate. }
    assert (Hpn' : encodePacket (e_o e) m = Panic -> False) by (intros H; destruct (Hpn H); discriminate).
    destruct er.
    all: try (eexists _, s1; split; [reflexivity|]; split; [exact K1|]; exists l, (cn_open k);
      split; [exact Hl|]; split; [exact Hk1|];
      split; [intros H1 H2 b Eb; destruct (Hne b H1 H2 Eb)|intros H; destruct (Hpn' H)]; fail).
    all: rewrite (run_remove sl x s1 Hx1); eexists _, _; split; [reflexivity|];
      split; [apply cmd_kept_closed; [exact K1|reflexivity|exact Hxi|exact Hx]|];
      exists l, false; split; [exact Hl|]; split; [cbn; rewrite lookup_alter, Hk1; reflexivity|];
      split; [intros H1 H2 b Eb; destruct (Hne b H1 H2 Eb)|intros H; destruct (Hpn' H)].
  - eexists _, s1. split; [reflexivity|]. split; [exact K1|]. exists l, (cn_open k).
    split; [exact Hl|]. split; [exact Hk1|]. split; [|intros H; destruct (Hpn H) as (_ & ->); auto].
    intros H1 H2 b Eb. destruct (Hgo b H1 H2 Eb). discriminate.
Qed.

Definition command (e : env) (dv : device) (id : N) (b : body) (w : wres) (post : list N) : sp (list N) :=
  (y <- apiSession dv ;;
   x <- readSess (fst y) ;;
   serverSend e (ss_id x) (mkMsg (genMsgHeader (d_ver dv) (d_proto dv) (d_phone dv) id (snd y)) b) w ;;;
   ret post)%prog.
(** the message a command sends to the device [d] over a session whose counter is [sn] *)
Definition commandMsg (d : device) (id : N) (b : body) (sn : N) : msg :=
  mkMsg (genMsgHeader (d_ver d) (d_proto d) (d_phone d) id ((sn + 1) mod 65536)) b.
Lemma run_command e d id b w post s : consistent s ->
  match st_byID s !! d_sid d with
  | None => run (command e d id b w post) s = (Panic, s)
  | Some sl => exists x k q s', st_sess s !! sl = Some x /\ ss_id x = d_sid d
      /\ st_conns s !! ss_conn x = Some k
      /\ run (command e d id b w post) s = (q, s') /\ cmd_kept (Some (ss_conn x)) s s'
      /\ exists l o, writes e (Some (commandMsg d id b (ss_sn x))) l
         /\ st_conns s' !! ss_conn x = Some (mkConn o (cn_out k ++ l))
         /\ (cn_open k = true -> w = None -> forall f, encodePacket (e_o e) (commandMsg d id b (ss_sn x)) = Ok f ->
               q = Ok post /\ l = [f] /\ o = true)
         /\ (encodePacket (e_o e) (commandMsg d id b (ss_sn x)) = Panic ->
               q = Panic /\ st_conns s' = st_conns s)
  end.
Proof.
  intros C. unfold command. rewrite run_bind. unfold apiSession. rewrite run_bind.
  unfold getSession, rd1. cbn [run ret]. destruct (st_byID s !! d_sid d) as [sl|] eqn:Ei; [|reflexivity].
  destruct (cs_sess s C _ _ Ei) as (x & Hx & Hid). destruct (cs_conn s C _ _ Hx) as ((k & Hk) & Hsn).
  exists x, k. rewrite run_bind, (run_nextSerial sl s x Hx Hsn). cbn [run ret fst snd].
  fold (bumped sl x s). rewrite run_bind. unfold readSess. cbn [run].
  rewrite (lookup_insert (st_sess s) sl _ : st_sess (bumped sl x s) !! sl = Some _). cbn [run ret ss_id].
  pose proof (kept_bumped (d_phone d) sl x s C Hx) as [B1 B2 B3 B4].
  rewrite run_bind. fold (commandMsg d id b (ss_sn x)).
  assert (Hi' : st_byID (bumped sl x s) !! ss_id x = Some sl) by (rewrite Hid; exact Ei).
  assert (Hx' : st_sess (bumped sl x s) !! sl = Some (mkSession (ss_id x) (ss_conn x) ((ss_sn x + 1) mod 65536))).
  { cbn. apply lookup_insert. }
  destruct (run_serverSend e (ss_id x) (commandMsg d id b (ss_sn x)) w _ sl _ k B1 Hi' Hx' Hk)
    as (q & s' & E & K & l & o & Hl & Hk' & Hgo & Hp). cbn [ss_conn] in *.
  rewrite E. destruct B3 as (_ & _ & _ & B5).
  assert (K' : cmd_kept (Some (ss_conn x)) s s').
  { destruct K as [K1 K2 K3 K4 K5 K6 K7 K8]. split; auto.
    - intros l'. destruct (K6 l'), (B5 l'). split; congruence.
    - intros i l' y k' Hi2 Hy Hk2 Hop.
      destruct (same_sess _ _ B5 l' y Hy) as (y' & Hy' & _ & Hc').
      eapply K8; [exact Hi2|exact Hy'|rewrite Hc'; exact Hk2|exact Hop]. }
  assert (Hend : exists q', (match q with Ok _ => (Ok post, s') | Err er => (Err er, s') | Panic => (Panic, s') end : res (list N) * st) = (q', s')
     /\ (q = Ok tt -> q' = Ok post) /\ (q = Panic -> q' = Panic)).
  { destruct q as [[]|er|]; eexists; (split; [reflexivity|]); split; intros; congruence. }
  destruct Hend as (q' & Eq' & Hq1 & Hq2).
  exists q', s'. split; [exact Hx|]. split; [exact Hid|]. split; [exact Hk|]. split.
  { rewrite <- Eq'. destruct q; reflexivity. }
  split; [exact K'|]. exists l, o. split; [exact Hl|]. split; [exact Hk'|]. split.
  - intros H1 H2 f Ef. destruct (Hgo H1 H2 f Ef) as (-> & -> & -> & _). auto.
  - intros Ep. destruct (Hp Ep) as (-> & ->). auto.
Qed.
Lemma run_apiGetParams e ph w s : run (apiGetParams e ph w) s =
  match st_byPhone s !! ph with
  | None => (Ok [400], s)
  | Some l => match st_devs s !! l with
              | Some d => run (command e d 0x8104 B8104 w []) s
              | None => (Panic, s)
              end
  end.
Proof.
  unfold apiGetParams. rewrite run_bind. unfold getDeviceByPhone, rd1. cbn [run ret].
  destruct (st_byPhone s !! ph) as [l|]; [|reflexivity]. rewrite run_bind. unfold readConst. cbn [run].
  destruct (st_devs s !! l) as [d|]; reflexivity.
Qed.
Lemma run_apiPutParams e ph bad ps w s : run (apiPutParams e ph bad ps w) s =
  match st_byPhone s !! ph with
  | None => (Ok ((if bad then [400] else []) ++ [400]), s)
  | Some l => match st_devs s !! l with
              | Some d => run (command e d 0x8103 (B8103 0 (Some ps)) w (if bad then [400] else [])) s
              | None => (Panic, s)
              end
  end.
Proof.
  unfold apiPutParams. rewrite run_bind. unfold getDeviceByPhone, rd1. cbn [run ret].
  destruct (st_byPhone s !! ph) as [l|]; [|reflexivity]. rewrite run_bind. unfold readConst. cbn [run].
  destruct (st_devs s !! l) as [d|]; reflexivity.
Qed.
Lemma command_kept e d id b w post s : consistent s ->
  exists c, cmd_kept c s (snd (run (command e d id b w post) s)).
Proof.
  intros C. pose proof (run_command e d id b w post s C) as H.
  destruct (st_byID s !! d_sid d) as [sl|].
  - destruct H as (x & k & q & s' & _ & _ & _ & E & K & _). rewrite E. eauto.
  - rewrite H. exists None. apply cmd_kept_refl. exact C.
Qed.

Lemma set_rings_id s l r : st_rings s !! l = Some r -> set_rings (<[l := r]>) s = s.
Proof. intros H. unfold set_rings. rewrite insert_id by exact H. symmetry. apply st_eta. Qed.
Lemma run_apiGeo ph s : consistent s ->
  match st_byPhone s !! ph with
  | None => run (apiGeo ph) s = (Ok ([400], None), s)
  | Some l => exists s', onlyGeo s s' /\ consistent s' /\ (forall q, q <> ph -> ringOf s' q = ringOf s q)
      /\ forall ws, track s ph ws -> track s' ph ws
           /\ run (apiGeo ph) s =
              (Ok (if (length ws mod 100 =? 0)%nat then ([], None)
                   else match last_of ws with Some g => ([200], Some g) | None => ([], None) end), s')
  end.
Proof.
  intros C. unfold apiGeo. rewrite run_bind. unfold getDeviceByPhone, rd1. cbn [run ret].
  destruct (st_byPhone s !! ph) as [l|] eqn:E; [|reflexivity].
  destruct (cs_phone s C _ _ E) as (d & H1 & Hp & Hq).
  rewrite run_bind. unfold readDev. cbn [run]. rewrite H1. cbn [run ret].
  destruct (run_getRing s ph C) as (rl & r & s' & Eg & Hg & Hr & Ht & Ho & Hon & C').
  exists s'. split; [exact Hon|]. split; [exact C'|]. split; [exact Ho|]. intros ws Hws.
  pose proof (Ht ws Hws) as Hh. split; [unfold track, ringOf; rewrite Hg, Hr; exact Hh|].
  rewrite run_bind. unfold getGeoLatestByPhone. rewrite run_bind, Eg, (run_onRing _ _ _ _ Hr).
  rewrite (run_latest rl r (holds_ok 100 ws r ltac:(lia) Hh)). cbn [fst snd].
  rewrite (set_rings_id s' rl r Hr).
  destruct Hh as (Hs & (Hsl & Hw1 & Hw2) & Hwr & Hrd). rewrite Hwr.
  replace (Z.of_nat (length ws mod 100) =? 0)%Z with (length ws mod 100 =? 0)%nat.
  2:{ destruct (length ws mod 100 =? 0)%nat eqn:E0, (Z.of_nat (length ws mod 100) =? 0)%Z eqn:E1; try reflexivity.
      - apply Nat.eqb_eq in E0. apply Z.eqb_neq in E1. lia.
      - apply Nat.eqb_neq in E0. apply Z.eqb_eq in E1. lia. }
  destruct (length ws mod 100 =? 0)%nat eqn:E0; [reflexivity|].
  apply Nat.eqb_neq in E0.
  unfold last_of. destruct ws as [|w ws _] using rev_ind; [cbn in E0; lia|].
  rewrite rev_app_distr. cbn [rev app].
  assert (Hn : nth_error (rg_slots r) (length ws mod 100) = Some (Some w)).
  { apply (Hw1 (length ws) w).
    - rewrite nth_error_app2 by lia. rewrite Nat.sub_diag. reflexivity.
    - rewrite app_length. cbn. lia. }
  replace (Z.to_nat (Z.of_nat (length (ws ++ [w]) mod 100) - 1)) with (length ws mod 100)%nat.
  2:{ rewrite app_length in *. cbn [length] in *.
      pose proof (Nat.div_mod (length ws) 100). pose proof (Nat.div_mod (length ws + 1) 100).
      pose proof (Nat.mod_upper_bound (length ws) 100). pose proof (Nat.mod_upper_bound (length ws + 1) 100).
      lia. }
  rewrite (nth_error_nth _ _ None Hn). reflexivity.
Qed.

(** * Histories *)
Record world_ok (w : world) : Prop := {
  wo_ok : consistent (w_st w);
  wo_alive : w_dead w = false;
  wo_live : forall sl, sl ∈ w_live w -> is_Some (st_sess (w_st w) !! sl);
  wo_reg : forall i l, st_byID (w_st w) !! i = Some l -> l ∈ w_live w
}.

Lemma run_serveLoop1 e sl r w s x k : consistent s -> st_sess s !! sl = Some x ->
  st_conns s !! ss_conn x = Some k ->
  exists q s1 x1, run (serveOne e sl r w) s = (q, s1) /\ frame_kept (phone_of e r) (ss_conn x) s s1
    /\ st_sess s1 !! sl = Some x1 /\ ss_id x1 = ss_id x /\ ss_conn x1 = ss_conn x
    /\ run (serveLoop e sl [(r, w)]) s =
       (match q with Ok true => (Ok false, s1) | _ => (Ok true, closed sl x1 s1) end).
Proof.
  intros C Hx Hk. destruct (serveOne_spec e sl r w s x k C Hx Hk) as (q & s1 & E & K & _).
  destruct (same_sess _ _ (fk_sess _ _ _ _ K) sl x Hx) as (x1 & Hx1 & Hi & Hc).
  exists q, s1, x1. split; [exact E|]. split; [exact K|]. split; [exact Hx1|]. split; [exact Hi|]. split; [exact Hc|].
  cbn [serveLoop]. rewrite run_bindR, E. cbn [fst snd].
  destruct q as [[]|er|]; [reflexivity|..]; rewrite run_bind, (run_remove sl x1 s1 Hx1); reflexivity.
Qed.

Lemma init_ok now : consistent (init now).
Proof.
  constructor; cbn; try (intros *; rewrite ?lookup_empty; discriminate).
  - constructor.
  - intros p. rewrite elem_of_nil, lookup_empty. split; [tauto|]. intros (? & ?). discriminate.
Qed.

Lemma accept_ok s c addr : consistent s -> st_conns s !! c = None ->
  let l := fresh (dom (st_sess s)) in
  run (accept c addr) (set_conns (<[c := mkConn true []]>) s) =
    (Ok l, set_byID (<[addr := l]>) (set_sess (<[l := mkSession addr c 0]>) (set_conns (<[c := mkConn true []]>) s)))
  /\ consistent (set_byID (<[addr := l]>) (set_sess (<[l := mkSession addr c 0]>) (set_conns (<[c := mkConn true []]>) s)))
  /\ st_sess s !! l = None.
Proof.
  intros C Hc. cbn zeta. set (l := fresh (dom (st_sess s))).
  assert (Hf : st_sess s !! l = None) by (apply not_elem_of_dom; apply is_fresh).
  split; [reflexivity|]. split; [|exact Hf].
  destruct C as [H1 H2 H3 H4 H5 H6 H7 H8 H9 H10]. constructor; cbn; try assumption.
  - intros i l'. destruct (decide (i = addr)) as [->|Hn].
    + rewrite lookup_insert. intros [= <-]. rewrite lookup_insert. eauto.
    + rewrite lookup_insert_ne by congruence. intros H. destruct (H8 i l' H) as (x & Hx & Hi).
      exists x. rewrite lookup_insert_ne by congruence. auto.
  - intros l' x. destruct (decide (l' = l)) as [->|Hn].
    + rewrite lookup_insert. intros [= <-]. cbn. rewrite lookup_insert. split; [eauto|lia].
    + rewrite lookup_insert_ne by congruence. intros Hx. destruct (H9 l' x Hx) as (Hk & Hs). split; [|exact Hs].
      rewrite lookup_insert_ne; [exact Hk|]. intros E. rewrite <- E, Hc in Hk. destruct Hk. discriminate.
  - intros l1 l2 x1 x2. destruct (decide (l1 = l)) as [->|Hn], (decide (l2 = l)) as [->|Hm];
      rewrite ?lookup_insert, ?lookup_insert_ne by congruence; auto.
    + intros [= <-] Hx Hcc. cbn in Hcc. subst c. destruct (H9 _ _ Hx) as ((k & Hk) & _). congruence.
    + intros Hx [= <-] Hcc. cbn in Hcc. subst c. destruct (H9 _ _ Hx) as ((k & Hk) & _). congruence.
    + apply H10.
Qed.

Lemma step_ok e w ev : world_ok w -> world_ok (step e w ev).
Proof.
  intros [C D L R]. unfold step. rewrite D. destruct ev as [c addr|sl r x|ph| |ph|ph x|ph bad ps x|t].
  - destruct (st_conns (w_st w) !! c) as [k|] eqn:Ec; [split; assumption|].
    destruct (accept_ok (w_st w) c addr C Ec) as (E & C' & Hf). rewrite E.
    split; cbn; [exact C'|reflexivity|..].
    + intros sl Hsl. destruct (decide (sl = fresh (dom (st_sess (w_st w))))) as [->|Hn].
      * rewrite lookup_insert. eauto.
      * rewrite lookup_insert_ne by congruence. apply L. set_solver.
    + intros i l. destruct (decide (i = addr)) as [->|Hn].
      * rewrite lookup_insert. intros [= <-]. set_solver.
      * rewrite lookup_insert_ne by congruence. intros H. apply R in H. set_solver.
  - case_bool_decide as Hl; [|split; assumption].
    destruct (L sl Hl) as (y & Hy). destruct (cs_conn _ C _ _ Hy) as ((k & Hk) & _).
    destruct (run_serveLoop1 e sl r x (w_st w) y k C Hy Hk) as (q & s1 & x1 & _ & K & Hx1 & Hi1 & Hc1 & E).
    rewrite E.
    assert (Hsame : forall l, is_Some (st_sess (w_st w) !! l) -> is_Some (st_sess s1 !! l)).
    { intros l (z & Hz). destruct (same_sess _ _ (fk_sess _ _ _ _ K) l z Hz) as (z' & Hz' & _). eauto. }
    assert (Hend : world_ok (mkWorld (closed sl x1 s1) (w_live w ∖ {[sl]}) false)).
    { split; cbn.
      - apply closed_ok. apply (fk_ok _ _ _ _ K).
      - reflexivity.
      - intros l Hl'. apply Hsame. apply L. set_solver.
      - intros i l. rewrite lookup_delete_Some, (fk_byID _ _ _ _ K). intros (Hne & H).
        pose proof (R i l H). assert (l <> sl); [|set_solver]. intros ->.
        destruct (cs_sess _ C i sl H) as (y' & Hy' & Hi'). congruence. }
    destruct q as [[]|er|]; [|exact Hend..].
    split; cbn; [apply (fk_ok _ _ _ _ K)|reflexivity|intros l Hl'; apply Hsame; apply L; exact Hl'|].
    intros i l. rewrite (fk_byID _ _ _ _ K). apply R.
  - case_bool_decide as Hj; [|split; assumption].
    destruct (keepalive_ok ph (w_st w) C Hj) as (E & C' & Es & Ei).
    destruct (run (checkKeepalive ph) (w_st w)) as [q s']. cbn [fst snd] in *. subst q.
    split; cbn; [exact C'|reflexivity|rewrite Es; exact L|rewrite Ei; exact R].
  - split; assumption.
  - pose proof (run_apiGeo ph (w_st w) C) as H. destruct (st_byPhone (w_st w) !! ph) as [l|].
    + destruct H as (s' & (H1 & H2 & H3 & H4 & H5 & H6 & H7 & H8 & H9 & H10) & C' & _ & Ht).
      assert (exists ws, track (w_st w) ph ws) as (ws & Hws).
      { unfold track, ringOf. destruct (st_geo (w_st w) !! ph) as [rl|] eqn:Eg; [|eauto].
        destruct (cs_geo _ C _ _ Eg) as (r & ws & Hr & Hh & _). rewrite Hr. eauto. }
      destruct (Ht ws Hws) as (_ & E). rewrite E. cbn [snd].
      split; cbn; [exact C'|reflexivity|rewrite H6; exact L|rewrite H7; exact R].
    + rewrite H. split; assumption || reflexivity.
  - assert (H : exists c, cmd_kept c (w_st w) (snd (run (apiGetParams e ph x) (w_st w)))).
    { rewrite run_apiGetParams. destruct (st_byPhone (w_st w) !! ph) as [l|] eqn:E.
      - destruct (st_devs (w_st w) !! l); [apply command_kept; exact C|exists None; apply cmd_kept_refl; exact C].
      - exists None. apply cmd_kept_refl. exact C. }
    destruct H as (c & [K1 K2 K3 K4 K5 K6 _ _]). split; cbn; [exact K1|reflexivity|..].
    + intros l Hl. destruct (L l Hl) as (z & Hz). destruct (same_sess _ _ K6 l z Hz) as (z' & Hz' & _). eauto.
    + intros i l H. apply (R i l). apply K4. exact H.
  - assert (H : exists c, cmd_kept c (w_st w) (snd (run (apiPutParams e ph bad ps x) (w_st w)))).
    { rewrite run_apiPutParams. destruct (st_byPhone (w_st w) !! ph) as [l|] eqn:E.
      - destruct (st_devs (w_st w) !! l); [apply command_kept; exact C|exists None; apply cmd_kept_refl; exact C].
      - exists None. apply cmd_kept_refl. exact C. }
    destruct H as (c & [K1 K2 K3 K4 K5 K6 _ _]). split; cbn; [exact K1|reflexivity|..].
    + intros l Hl. destruct (L l Hl) as (z & Hz). destruct (same_sess _ _ K6 l z Hz) as (z' & Hz' & _). eauto.
    + intros i l H. apply (R i l). apply K4. exact H.
  - split; cbn; [|reflexivity|assumption|assumption]. destruct C. constructor; assumption.
Qed.

Lemma history_snoc e now evs ev : history e now (evs ++ [ev]) = step e (history e now evs) ev.
Proof. unfold history. rewrite fold_left_app. reflexivity. Qed.
Lemma history_ok e now evs : world_ok (history e now evs).
Proof.
  induction evs as [|ev evs IH] using rev_ind.
  - split; cbn; [apply init_ok|reflexivity|set_solver|intros i l; rewrite lookup_empty; discriminate].
  - rewrite history_snoc. apply step_ok. exact IH.
Qed.
