(** Consequences for the property theorems: replies per frame, error policy, the client,
    histories of parameter sets, locations of new registrations *)
From Coq Require Import String.
From stdpp Require Import gmap.
From Verif Require Import Base HexM TimeM HashM HeaderM ParamsM GeoM MsgM PacketM FrameM ProgM ProgP RingM SpecRing RingP
  StateM ProcM ServerM ClientM SpecState SpecCodec StateP ProcP ServerP ParamsP EffectP ReplyP HandshakeP CmdP SessP OriginP.
Local Open Scope N_scope.

(** * Replies per frame (C52) *)
Lemma one_reply e sl r w s x k : consistent s -> st_sess s !! sl = Some x -> st_conns s !! ss_conn x = Some k ->
  exists b s' o out, run (serveLoop e sl [(r, w)]) s = (Ok b, s')
    /\ (forall c, c <> ss_conn x -> st_conns s' !! c = st_conns s !! c)
    /\ st_conns s' !! ss_conn x = Some (mkConn o (cn_out k ++ out))
    /\ out = match fst (run (frm <- lift r ;; p <- decodeP e frm ;; process e sl p)%prog s) with
             | Ok (Some m) => match encodePacket (e_o e) m with
                              | Ok f => if cn_open k then [match w with None => f | Some (n, _) => take n f end] else []
                              | _ => []
                              end
             | _ => []
             end.
Proof.
  intros C Hx Hk. destruct (serve_frame e sl r w s x k C Hx Hk) as (s' & E & _ & _ & Hc & Hk' & _).
  eexists _, s', _, _. split; [exact E|]. split; [exact Hc|]. split; [exact Hk'|]. reflexivity.
Qed.
Lemma replies e sl ins : forall s x k, consistent s -> st_sess s !! sl = Some x -> st_conns s !! ss_conn x = Some k ->
  exists b s' o out, run (serveLoop e sl ins) s = (Ok b, s')
    /\ (forall c, c <> ss_conn x -> st_conns s' !! c = st_conns s !! c)
    /\ st_conns s' !! ss_conn x = Some (mkConn o (cn_out k ++ out)) /\ (length out <= length ins)%nat.
Proof.
  induction ins as [|[r w] t IH]; intros s x k C Hx Hk.
  - eexists _, s, (cn_open k), []. split; [reflexivity|]. split; [reflexivity|]. rewrite app_nil_r.
    split; [destruct k; exact Hk|]. cbn; lia.
  - destruct (serve_frame e sl r w s x k C Hx Hk) as (s1 & E & C1 & _ & Hc & Hk1 & _ & Hs).
    rewrite serveLoop_cons, E.
    assert (Hl : (length (sent e k (fst (frameOut e sl r s)) w) <= 1)%nat).
    { unfold sent. destruct (fst (frameOut e sl r s)) as [[m|]| |]; cbn; try lia.
      destruct (encodePacket _ _); cbn; try lia. destruct (cn_open k); cbn; lia. }
    destruct (negb _) eqn:Eb.
    + eexists _, s1, _, _. split; [reflexivity|]. split; [exact Hc|]. split; [exact Hk1|]. cbn [length]. lia.
    + destruct (same_sess _ _ Hs sl x Hx) as (x1 & Hx1 & _ & Hcx). rewrite <- Hcx in Hk1.
      destruct (IH s1 x1 _ C1 Hx1 Hk1) as (b & s2 & o & out & E2 & Hc2 & Hk2 & Hl2).
      rewrite Hcx in *. eexists b, s2, o, _. split; [exact E2|]. split.
      { intros c Hn. rewrite Hc2, Hc by exact Hn. reflexivity. }
      cbn [cn_out] in Hk2. rewrite <- app_assoc in Hk2. split; [exact Hk2|]. rewrite app_length. cbn [length]. lia.
Qed.

(** * Error policy (C67) *)
Lemma error_policy e sl r w s x k q s1 : consistent s -> st_sess s !! sl = Some x ->
  st_conns s !! ss_conn x = Some k -> run (processConnRead e sl (ss_conn x) r w) s = (q, s1) ->
  exists b s', run (serveLoop e sl [(r, w)]) s = (Ok b, s')
    /\ (b = true <-> q = Panic \/ exists er, q = Err er /\ In er [ErrEOF; ErrClosedPipe; ErrNetClosed; ErrDeviceNotFound])
    /\ (b = false -> s' = s1)
    /\ (b = true -> st_byID s' !! ss_id x = None
                    /\ exists k', st_conns s' !! ss_conn x = Some k' /\ cn_open k' = false).
Proof.
  intros C Hx Hk E. destruct (serve_frame e sl r w s x k C Hx Hk) as (s' & Er & _ & _ & _ & Hk' & Hb & _).
  assert (Eq : run (serveLoop e sl [(r, w)]) s =
    (fst (run (serveLoop e sl [(r, w)]) s), if goesOn q then s1 else s')).
  { rewrite Er. cbn [fst]. f_equal. revert Er. cbn [serveLoop]. rewrite run_bindR. unfold serveOne.
    rewrite run_bind. unfold readSess at 1 2. cbn [run]. rewrite Hx. cbn [run ret]. rewrite run_bindR, E. cbn [fst snd].
    intros Er. destruct q as [u|er|]; cbn [goesOn run ret panic fst snd] in *; [exact (f_equal snd (eq_sym Er))| |reflexivity].
    destruct (serveStops er); cbn [negb run ret fst snd] in *; [reflexivity|exact (f_equal snd (eq_sym Er))]. }
  assert (Hg : goesOn q = goesOn (ends e k (fst (frameOut e sl r s)) w)).
  { f_equal. revert E. rewrite run_read. pose proof (frameOut_kept e sl r s (ss_conn x) C (ex_intro _ x Hx)) as (_ & Hc).
    destruct (frameOut e sl r s) as [[o|er|] s2]; cbn [fst snd ends] in *; [|congruence..].
    rewrite (run_write_exact e (ss_conn x) o w s2 k) by (rewrite Hc; exact Hk). intros E. exact (f_equal fst (eq_sym E)). }
  rewrite Er in Eq. cbn [fst] in Eq. rewrite <- Hg in *.
  eexists _, s'. split; [exact Er|]. split; [|split].
  - unfold goesOn. destruct q as [u|er|]; cbn [negb].
    + split; [discriminate|]. intros [H|(er & H & _)]; discriminate.
    + rewrite negb_involutive, serveStops_iff. unfold closing. split.
      * intros H. right. exists er. auto.
      * intros [H|(er' & [= <-] & H)]; [discriminate|exact H].
    + split; auto.
  - intros Hn. apply negb_false_iff in Hn. rewrite Hn in Eq. congruence.
  - intros Hn. apply negb_true_iff in Hn. rewrite Hn in *. split.
    + rewrite Hb. rewrite decide_True by reflexivity. reflexivity.
    + eexists. split; [exact Hk'|]. reflexivity.
Qed.

(** * The client (C67) *)
Lemma clientLoop_cons e sl r w t s : run (clientLoop e sl ((r, w) :: t)) s =
  match run (clientLoop e sl [(r, w)]) s with
  | (Ok false, s') => run (clientLoop e sl t) s'
  | x => x
  end.
Proof.
  cbn [clientLoop]. rewrite !run_bind. destruct (run (readSess sl) s) as [[x|er|] s0]; [|reflexivity..].
  rewrite !run_bindR. destruct (run (processConnRead _ _ _ _ _) s0) as [[u|er|] s1]; cbn [fst snd run ret]; [reflexivity| |reflexivity].
  destruct (clientStops er); reflexivity.
Qed.
Lemma client_policy e sl r w s x q s1 : st_sess s !! sl = Some x ->
  run (processConnRead e sl (ss_conn x) r w) s = (q, s1) ->
  match q with
  | Panic => run (clientLoop e sl [(r, w)]) s = (Panic, s1)
  | _ => exists b, run (clientLoop e sl [(r, w)]) s = (Ok b, s1)
           /\ (b = true <-> exists er, q = Err er /\ In er [ErrEOF; ErrClosedPipe; ErrNetClosed; ErrActiveClose])
  end.
Proof.
  intros Hx E. assert (Er : run (clientLoop e sl [(r, w)]) s =
    run (match q with Ok _ => ret false | Err er => if clientStops er then ret true else ret false | Panic => panic end) s1).
  { cbn [clientLoop]. rewrite run_bind. unfold readSess. cbn [run]. rewrite Hx. cbn [run ret].
    rewrite run_bindR, E. cbn [fst snd]. destruct q; reflexivity. }
  rewrite Er. destruct q as [u|er|]; cbn [run ret panic].
  - exists false. split; [reflexivity|]. split; [discriminate|]. intros (er & H & _). discriminate.
  - exists (clientStops er). split; [destruct (clientStops er); reflexivity|]. rewrite clientStops_iff. split.
    + intros H. exists er. auto.
    + intros (er' & [= <-] & H). exact H.
  - reflexivity.
Qed.
(** whatever the client receives, it never closes its connection while receiving *)
Lemma client_keeps_open e sl ins : forall s x k, consistent s -> st_sess s !! sl = Some x -> st_conns s !! ss_conn x = Some k ->
  exists out, st_conns (snd (run (clientLoop e sl ins) s)) !! ss_conn x = Some (mkConn (cn_open k) (cn_out k ++ out)).
Proof.
  induction ins as [|[r w] t IH]; intros s x k C Hx Hk.
  - exists []. rewrite app_nil_r. destruct k; exact Hk.
  - cbn [clientLoop]. rewrite run_bind. unfold readSess. cbn [run]. rewrite Hx. cbn [run ret].
    rewrite run_bindR. destruct (serveOne_spec e sl r w s x k C Hx Hk) as (q & s1 & E & K & l & Hl & _).
    assert (Es : snd (run (processConnRead e sl (ss_conn x) r w) s) = s1).
    { revert E. unfold serveOne. rewrite run_bind. unfold readSess. cbn [run]. rewrite Hx. cbn [run ret].
      rewrite run_bindR. destruct (run (processConnRead e sl (ss_conn x) r w) s) as [[u|er|] s2]; cbn; congruence. }
    rewrite Es. destruct (same_sess _ _ (fk_sess _ _ _ _ K) sl x Hx) as (x1 & Hx1 & _ & Hcx).
    assert (Hr : exists out, st_conns (snd (run (clientLoop e sl t) s1)) !! ss_conn x = Some (mkConn (cn_open k) (cn_out k ++ out))).
    { rewrite <- Hcx in Hl. destruct (IH s1 x1 _ (fk_ok _ _ _ _ K) Hx1 Hl) as (out & Ho). rewrite Hcx in Ho.
      cbn [cn_open cn_out] in Ho. rewrite <- app_assoc in Ho. eauto. }
    destruct (fst _) as [u|er|]; cbn [run ret panic snd]; [exact Hr| |eauto].
    destruct (clientStops er); cbn [run ret snd]; [eauto|exact Hr].
Qed.

(** * Parameters (C36) *)
Lemma set_query e sl sl' s p p' cnt d : consistent s -> carries e s p 0x8103 (B8103 cnt (Some d)) ->
  carries e s p' 0x8104 B8104 -> h_phone (pk_hdr p') = h_phone (pk_hdr p) ->
  exists m s1 m' d', run (process e sl p) s = (Ok (Some m), s1)
    /\ run (process e sl' p') s1 = (Ok (Some m'), s1)
    /\ answers p' 0x0104 (B0104 (h_sn (pk_hdr p')) 0 (Some d')) m'
    /\ forall id, value_of d' id =
         match st_params s !! h_phone (pk_hdr p) with
         | None => value_of d id
         | Some old => match value_of old id, value_of d id with
                       | Some _, Some v => Some v
                       | Some v, None => Some v
                       | None, _ => None
                       end
         end.
Proof.
  intros C Hp Hp' Hph. destruct (params_set e sl s p cnt d C Hp) as (m & s1 & E & _ & ->).
  set (d' := match st_params s !! h_phone (pk_hdr p) with None => d | Some old => paramsUpdate old d end) in *.
  destruct (params_query e sl' (set_params (<[h_phone (pk_hdr p) := d']>) s) p' d') as (m' & E' & Ha).
  { exact Hp'. } { rewrite Hph. cbn. apply lookup_insert. }
  eexists m, _, m', d'. split; [exact E|]. split; [exact E'|]. split; [exact Ha|].
  intros id. subst d'. destruct (st_params s !! _) as [old|]; [|reflexivity].
  rewrite update_value. destruct (value_of old id); [|reflexivity]. destruct (value_of d id); reflexivity.
Qed.
(** a series of sets *)
Lemma sets_value ds : forall old id, value_of (fold_left paramsUpdate ds old) id =
  match value_of old id with
  | None => None
  | Some v => Some (List.last (flat_map (fun d => match value_of d id with Some v' => [v'] | None => [] end) ds) v)
  end.
Proof.
  induction ds as [|d t IH]; intros old id; cbn [fold_left flat_map].
  - destruct (value_of old id); reflexivity.
  - rewrite IH, update_value. destruct (value_of old id) as [v|]; [|reflexivity].
    destruct (value_of d id) as [v'|]; cbn [app]; [|reflexivity]. f_equal.
    set (l := flat_map _ _). clearbody l. clear. revert v v'. induction l as [|a l IH]; intros v v'; [reflexivity|].
    destruct l as [|b l]; [reflexivity|]. exact (IH v v').
Qed.
Lemma consistent_params ph d s : consistent s -> dp_phone d = ph -> consistent (set_params (<[ph := d]>) s).
Proof.
  intros [] Hp. split; auto. intros q d0. cbn. rewrite lookup_insert_Some. intros [(<- & <-)|(_ & H)]; [exact Hp|].
  apply cs_params. exact H.
Qed.
Lemma sets_params e sl : forall (ds : list (packet * (N * devparams))) s ph old, consistent s ->
  (forall p cnt d, In (p, (cnt, d)) ds -> carries e s p 0x8103 (B8103 cnt (Some d)) /\ h_phone (pk_hdr p) = ph) ->
  st_params s !! ph = Some old ->
  let s' := fold_left (fun t x => snd (run (process e sl (fst x)) t)) ds s in
  consistent s' /\ st_clock s' = st_clock s
  /\ st_params s' !! ph = Some (fold_left paramsUpdate (List.map (fun x => snd (snd x)) ds) old).
Proof.
  induction ds as [|[p [cnt d]] t IH]; intros s ph old C Hi Ho; cbn zeta.
  - split; [exact C|]. split; [reflexivity|exact Ho].
  - destruct (Hi p cnt d (or_introl eq_refl)) as (Hp & Hph).
    destruct (params_set e sl s p cnt d C Hp) as (m & s1 & E & _ & Es). cbn [fold_left fst]. rewrite E. cbn [snd].
    rewrite Hph, Ho in Es.
    assert (C1 : consistent s1).
    { rewrite Es. apply consistent_params; [exact C|]. exact (cs_params s C _ _ Ho). }
    destruct (IH s1 ph (paramsUpdate old d) C1) as (C' & Hc & Hd).
    + intros p' cnt' d0 Hin. destruct (Hi p' cnt' d0 (or_intror Hin)) as (Hp' & Hph'). split; [|exact Hph'].
      rewrite Es. exact Hp'.
    + rewrite Es. cbn. apply lookup_insert.
    + split; [exact C'|]. split; [rewrite Hc, Es; reflexivity|]. exact Hd.
Qed.
Lemma sets_query e sl sl' (ds : list (packet * (N * devparams))) s ph old p' : consistent s ->
  (forall p cnt d, In (p, (cnt, d)) ds -> carries e s p 0x8103 (B8103 cnt (Some d)) /\ h_phone (pk_hdr p) = ph) ->
  st_params s !! ph = Some old -> carries e s p' 0x8104 B8104 -> h_phone (pk_hdr p') = ph ->
  exists m d', fst (run (process e sl' p') (fold_left (fun t x => snd (run (process e sl (fst x)) t)) ds s)) = Ok (Some m)
    /\ answers p' 0x0104 (B0104 (h_sn (pk_hdr p')) 0 (Some d')) m
    /\ forall id, value_of d' id =
         match value_of old id with
         | None => None
         | Some v => Some (List.last (flat_map (fun x => match value_of (snd (snd x)) id with
                                                         | Some v' => [v'] | None => [] end) ds) v)
         end.
Proof.
  intros C Hi Ho Hq Hph. destruct (sets_params e sl ds s ph old C Hi Ho) as (C' & Hc & Hd).
  set (s' := fold_left _ ds s) in *.
  destruct (params_query e sl' s' p' (fold_left paramsUpdate (List.map (fun x => snd (snd x)) ds) old)) as (m & E & Ha).
  { destruct Hq as (A & B & D). split; [exact A|]. split; [exact B|]. rewrite Hc. exact D. }
  { rewrite Hph. exact Hd. }
  eexists m, _. rewrite E. split; [reflexivity|]. split; [exact Ha|]. intros id. rewrite sets_value.
  rewrite flat_map_concat_map, map_map, <- flat_map_concat_map. reflexivity.
Qed.

(** * Locations of a new registration (C69) *)
Lemma no_location e sl s p r x : consistent s -> carries e s p 0x0100 (B0100 r) -> st_sess s !! sl = Some x ->
  devAt s (h_phone (pk_hdr p)) = None -> devWithPlate s (r_plate r) = None -> ringOf s (h_phone (pk_hdr p)) = None ->
  exists m s1 c, run (process e sl p) s = (Ok (Some m), s1)
    /\ answers p 0x8100 (B8100 (h_sn (pk_hdr p)) 0 c) m
    /\ fst (run (apiGeo (h_phone (pk_hdr p))) s1) = Ok ([], None).
Proof.
  intros C Hp Hx Hd Hq Hr. destruct (registration e sl s p r x C Hp Hx) as (m & s1 & E & H).
  rewrite Hd, Hq in H. destruct H as ((c & _ & Ha) & Hd1 & _ & _ & _ & K & C1).
  exists m, s1, c. split; [exact E|]. split; [exact Ha|].
  pose proof (run_apiGeo (h_phone (pk_hdr p)) s1 C1) as G. unfold devAt in Hd1.
  destruct (st_byPhone s1 !! h_phone (pk_hdr p)) as [l|]; [|discriminate].
  destruct G as (s' & _ & _ & _ & G). destruct (G []) as (_ & G').
  - eapply track_rest; [exact K|]. unfold track. rewrite Hr. reflexivity.
  - rewrite G'. reflexivity.
Qed.
Lemma cleared_location e sl ph s d x : consistent s -> devAt s ph = Some d -> d_status d = Offline ->
  (d_last d + d_keep d < st_clock s)%Z -> st_sess s !! sl = Some x ->
  exists s1, run (checkKeepalive ph) s = (Ok tt, s1) /\ forall p r, carries e s p 0x0100 (B0100 r) -> h_phone (pk_hdr p) = ph ->
    devWithPlate s1 (r_plate r) = None ->
    exists m s2 c, run (process e sl p) s1 = (Ok (Some m), s2)
      /\ answers p 0x8100 (B8100 (h_sn (pk_hdr p)) 0 c) m
      /\ fst (run (apiGeo ph) s2) = Ok ([], None).
Proof.
  intros C Hd Ho Hl Hx. destruct (tick_cleared ph s d C Hd Ho Hl)
    as (s1 & E & C1 & Hd1 & _ & Hr1 & _ & _ & _ & _ & _ & Hs & _ & _ & Hc).
  exists s1. split; [exact E|]. intros p r Hp Hph Hq. subst ph.
  assert (Hp1 : carries e s1 p 0x0100 (B0100 r)).
  { destruct Hp as (A & B & D). split; [exact A|]. split; [exact B|]. rewrite Hc. exact D. }
  rewrite <- Hs in Hx. exact (no_location e sl s1 p r x C1 Hp1 Hx Hd1 Hq Hr1).
Qed.

(** * Logout, then registration (C49) *)
Lemma logout_register e sl s p d : consistent s -> carries e s p 0x0003 B0003 -> devAt s (h_phone (pk_hdr p)) = Some d ->
  exists m s1, run (process e sl p) s = (Ok (Some m), s1)
    /\ forall p' r sl' x, carries e s p' 0x0100 (B0100 r) -> h_phone (pk_hdr p') = h_phone (pk_hdr p) ->
         r_plate r = d_plate d -> st_sess s !! sl' = Some x ->
         exists m' s2 c, run (process e sl' p') s1 = (Ok (Some m'), s2)
           /\ answers p' 0x8100 (B8100 (h_sn (pk_hdr p')) 0 c) m' /\ is_Some (devAt s2 (h_phone (pk_hdr p))).
Proof.
  intros C Hp Hd. destruct (logout e sl s p d C Hp Hd) as (m & s1 & E & C1 & _ & Hd1 & Hq1 & _ & _ & K).
  exists m, s1. split; [exact E|]. intros p' r sl' x Hp' Hph Hr Hx.
  destruct K as (_ & _ & _ & _ & K1 & _ & _ & K2).
  assert (Hp1 : carries e s1 p' 0x0100 (B0100 r)).
  { destruct Hp' as (A & B & D). split; [exact A|]. split; [exact B|]. rewrite K2. exact D. }
  destruct (registration e sl' s1 p' r x C1 Hp1) as (m' & s2 & E2 & H); [rewrite K1; exact Hx|].
  rewrite Hph, Hr, Hd1, Hq1 in H. destruct H as ((c & _ & Ha) & Hd2 & _).
  exists m', s2, c. split; [exact E2|]. split; [exact Ha|]. rewrite Hd2. eauto.
Qed.

(** * Fragment acknowledgements (C51) *)
Lemma platform_cmd d id sn b : mkMsg (genMsgHeader (d_ver d) (d_proto d) (d_phone d) id sn) b = platform_msg d id sn b.
Proof. unfold genMsgHeader, platform_msg, versionDecode. destruct (d_ver d); reflexivity. Qed.
Lemma process_reply_spec e sl s p m s' : run (process e sl p) s = (Ok (Some m), s') ->
  isFragmented (pk_hdr p) = false \/ pk_segdone p = true ->
  m_hdr m = with_id (pk_hdr p) (h_id (m_hdr m))
  /\ match m_body m with
     | B8001 sn id r => h_id (m_hdr m) = 0x8001 /\ sn = h_sn (pk_hdr p) /\ id = h_id (pk_hdr p)
                        /\ In id [0x0002; 0x0003; 0x0102; 0x0200]
     | B8100 sn r c => h_id (m_hdr m) = 0x8100 /\ sn = h_sn (pk_hdr p) /\ h_id (pk_hdr p) = 0x0100
                       /\ (c = [65; 117; 116; 104; 67; 111; 100; 101] \/ exists id plate phone, is_code id plate phone c)
     | B0001 sn id r => h_id (m_hdr m) = 0x0001 /\ sn = h_sn (pk_hdr p) /\ id = h_id (pk_hdr p) /\ r = 0
                        /\ id = 0x8103
     | B0104 sn _ _ => h_id (m_hdr m) = 0x0104 /\ sn = h_sn (pk_hdr p) /\ h_id (pk_hdr p) = 0x8104
     | B1205 sn _ _ _ => h_id (m_hdr m) = 0x1205 /\ sn = h_sn (pk_hdr p) /\ h_id (pk_hdr p) = 0x9205
     | B0102 _ _ _ _ => h_id (m_hdr m) = 0x0102 /\ h_id (pk_hdr p) = 0x8100
     | _ => False
     end.
Proof.
  intros E Hf. destruct (process_reply e sl s p m s' E Hf) as (Hh & Hb). split; [exact Hh|].
  destruct (m_body m); try exact Hb. destruct Hb as (H1 & H2 & H3 & H4). split; [exact H1|]. split; [exact H2|].
  split; [exact H3|]. destruct H4 as [->|(d & ->)]; [left; reflexivity|]. right.
  exists (d_id d), (d_plate d), (d_phone d). apply code_iff. reflexivity.
Qed.
Lemma segment_reply e sl s p m s' : consistent s -> run (process e sl p) s = (Ok (Some m), s') ->
  isFragmented (pk_hdr p) = true -> pk_segdone p = false ->
  exists d x, devAt s (h_phone (pk_hdr p)) = Some d /\ d_phone d = h_phone (pk_hdr p) /\ sessAt s (d_sid d) = Some x
    /\ m = platform_msg d 0x8001 ((ss_sn x + 1) mod 65536) (B8001 (h_sn (pk_hdr p)) (h_id (pk_hdr p)) 0).
Proof.
  intros C E Hf Hs. unfold process in E. destruct (lookupN _ _) as [[ik ok]|]; [|discriminate].
  rewrite Hf, Hs in E. cbn [andb negb] in E. unfold processSegment in E. rewrite run_bind in E.
  unfold getDeviceByPhone, rd1 in E. cbn [run ret] in E. unfold devAt.
  destruct (st_byPhone s !! h_phone (pk_hdr p)) as [l|] eqn:Hl; [|discriminate].
  destruct (cs_phone s C _ _ Hl) as (d & Hd & Hph & _). rewrite run_bind in E. unfold readConst in E. cbn [run] in E.
  rewrite Hd in E. cbn [run ret] in E. rewrite run_bind in E. unfold getSession, rd1 in E. cbn [run ret] in E.
  destruct (st_byID s !! d_sid d) as [sl'|] eqn:Hi; [|discriminate]. rewrite run_bind in E.
  destruct (cs_sess s C _ _ Hi) as (x & Hx & _). destruct (cs_conn s C _ _ Hx) as (_ & Hsn).
  rewrite (run_nextSerial sl' s x Hx Hsn) in E. cbn [run ret] in E. rewrite platform_cmd in E.
  injection E as <- _. exists d, x. unfold sessAt. rewrite Hi. auto.
Qed.

(** * What a lookup finds (C41, C57) *)
Lemma indexes_agree s : consistent s ->
  (forall ph d, devAt s ph = Some d -> d_phone d = ph /\ devWithPlate s (d_plate d) = Some d
                /\ st_byPlate s !! d_plate d = st_byPhone s !! ph)
  /\ (forall pl d, devWithPlate s pl = Some d -> d_plate d = pl /\ devAt s (d_phone d) = Some d
                /\ st_byPhone s !! d_phone d = st_byPlate s !! pl)
  /\ (forall ph ph' d d', devAt s ph = Some d -> devAt s ph' = Some d' -> d_plate d = d_plate d' -> ph = ph').
Proof.
  intros C. assert (H1 : forall ph d, devAt s ph = Some d -> d_phone d = ph /\ devWithPlate s (d_plate d) = Some d
                /\ st_byPlate s !! d_plate d = st_byPhone s !! ph).
  { intros ph d. unfold devAt, devWithPlate. destruct (st_byPhone s !! ph) as [l|] eqn:E; [|discriminate]. intros Hd.
    destruct (cs_phone s C _ _ E) as (d0 & Hd0 & Hp & Hq). rewrite Hd in Hd0.
    pose proof (f_equal (fun o => match o with Some y => d_plate y | None => [] end) Hd0) as P1.
    pose proof (f_equal (fun o => match o with Some y => d_phone y | None => [] end) Hd0) as P2. cbn in P1, P2.
    rewrite <- P1 in Hq. rewrite Hq, P2. auto. }
  split; [exact H1|]. split.
  - intros pl d. unfold devAt, devWithPlate. destruct (st_byPlate s !! pl) as [l|] eqn:E; [|discriminate]. intros Hd.
    destruct (cs_plate s C _ _ E) as (d0 & Hd0 & Hp & Hq). rewrite Hd in Hd0.
    pose proof (f_equal (fun o => match o with Some y => d_plate y | None => [] end) Hd0) as P1.
    pose proof (f_equal (fun o => match o with Some y => d_phone y | None => [] end) Hd0) as P2. cbn in P1, P2.
    rewrite <- P2 in Hq. rewrite Hq, P1. auto.
  - intros ph ph' d d' Hd Hd' Hp. destruct (H1 _ _ Hd) as (A & B & _), (H1 _ _ Hd') as (A' & B' & _).
    rewrite <- Hp, B in B'. pose proof (f_equal (fun o => match o with Some y => d_phone y | None => [] end) B') as P.
    cbn in P. congruence.
Qed.
Lemma jobs_match s : consistent s -> base.NoDup (st_jobs s) /\ forall ph, ph ∈ st_jobs s <-> is_Some (devAt s ph).
Proof.
  intros C. split; [apply C|]. intros ph. rewrite (cs_jobs2 s C). unfold devAt. split.
  - intros (l & E). rewrite E. destruct (cs_phone s C _ _ E) as (d & Hd & _). rewrite Hd. eauto.
  - intros (d & H). destruct (st_byPhone s !! ph); [eauto|discriminate].
Qed.

(** * Log levels (C70) *)
Lemma levels : parseLevel "DEBUG" = 0 /\ parseLevel "INFO" = 1 /\ parseLevel "WARN" = 2 /\ parseLevel "ERROR" = 3.
Proof. repeat split; reflexivity. Qed.
Lemma other_level s : ~ In s ["DEBUG"; "INFO"; "WARN"; "ERROR"; "FATAl"]%string -> parseLevel s = 0.
Proof.
  intros H. unfold parseLevel.
  repeat match goal with |- context [String.eqb s ?x] =>
    destruct (String.eqb_spec s x) as [E|_]; [exfalso; apply H; rewrite E; cbn; tauto|] end.
  reflexivity.
Qed.

(** * A heartbeat of an unknown phone (C48) *)
Lemma heartbeat_unknown e sl s x k frm p w : consistent s -> st_sess s !! sl = Some x ->
  st_conns s !! ss_conn x = Some k -> decodePacket (e_o e) frm = Ok p -> carries e s p 0x0002 B0002 ->
  isFragmented (pk_hdr p) = false -> devAt s (h_phone (pk_hdr p)) = None ->
  exists s', run (serveLoop e sl [(Ok frm, w)]) s = (Ok true, s')
    /\ st_conns s' = <[ss_conn x := mkConn false (cn_out k)]> (st_conns s)
    /\ st_byID s' = delete (ss_id x) (st_byID s)
    /\ st_devs s' = st_devs s /\ st_byPhone s' = st_byPhone s /\ st_byPlate s' = st_byPlate s
    /\ st_rings s' = st_rings s /\ st_geo s' = st_geo s /\ st_params s' = st_params s
    /\ st_segs s' = st_segs s /\ st_sess s' = st_sess s /\ st_jobs s' = st_jobs s.
Proof.
  intros C Hx Hk Hd Hc Hf Hn.
  assert (E : frameOut e sl (Ok frm) s = (Err ErrDeviceNotFound, s)).
  { unfold frameOut. rewrite run_bind. unfold lift. cbn [run]. rewrite run_bind. unfold decodeP, lift. rewrite run_bind.
    cbn [run]. rewrite Hd, Hf. cbn [run ret]. apply (unknown_phone e sl s p 0x0002 B0002 C Hc Hn). left. auto. }
  assert (Er : run (processConnRead e sl (ss_conn x) (Ok frm) w) s = (Err ErrDeviceNotFound, s)).
  { rewrite run_read, E. reflexivity. }
  exists (closed sl x s). split.
  - cbn [serveLoop]. rewrite run_bindR. unfold serveOne. rewrite run_bind. unfold readSess at 1 2. cbn [run].
    rewrite Hx. cbn [run ret]. rewrite run_bindR, Er. cbn [fst snd run ret serveStops negb].
    rewrite run_bind, (run_remove sl x s Hx). reflexivity.
  - unfold closed. cbn. repeat (split; [try reflexivity|]); [|reflexivity].
    rewrite <- (insert_id (st_conns s) (ss_conn x) k Hk) at 1. rewrite alter_insert. reflexivity.
Qed.

(** * Isolation between phones (C54) *)
Lemma isolation e sl ins s x : consistent s -> st_sess s !! sl = Some x ->
  exists b s', run (serveLoop e sl ins) s = (Ok b, s')
    /\ forall q, (forall frm w p, In (Ok frm, w) ins -> decodePacket (e_o e) frm = Ok p -> h_phone (pk_hdr p) <> q) ->
         devAt s' q = devAt s q /\ ringOf s' q = ringOf s q /\ st_params s' !! q = st_params s !! q.
Proof.
  intros C Hx. destruct (contained e sl ins s x C Hx) as (b & s' & E & _ & _ & _ & _ & H).
  exists b, s'. split; [exact E|]. intros q Hq. apply H. intros r w Hin. unfold phone_of.
  destruct r as [frm|er|]; [|discriminate..]. destruct (decodePacket (e_o e) frm) as [p|er|] eqn:Ed; [|discriminate..].
  intros [= Hp]. exact (Hq frm w p Hin Ed Hp).
Qed.

(** * The process survives when things happen one at a time (C59) *)
Lemma tick_known ph s d : consistent s -> devAt s ph = Some d -> exists s', run (checkKeepalive ph) s = (Ok tt, s').
Proof.
  intros C Hd. destruct (Z_le_gt_dec (st_clock s) (d_last d + d_keep d)) as [Hl|Hl].
  - exists s. exact (tick_fresh ph s d C Hd Hl).
  - assert (Hl' : (d_last d + d_keep d < st_clock s)%Z) by lia. destruct (N.eq_dec (d_status d) Offline) as [Ho|Ho].
    + destruct (tick_cleared ph s d C Hd Ho Hl') as (s' & E & _). eauto.
    + destruct (tick_offline ph s d C Hd Ho Hl') as (s' & E & _). eauto.
Qed.
Lemma alive e now evs : let w := history e now evs in
  w_dead w = false /\ forall ph, ph ∈ st_jobs (w_st w) -> exists s', run (checkKeepalive ph) (w_st w) = (Ok tt, s').
Proof.
  cbn zeta. destruct (history_ok e now evs) as [C Ha _ _]. split; [exact Ha|].
  intros ph Hp. apply (jobs_match _ C) in Hp as (d & Hd). exact (tick_known ph _ d C Hd).
Qed.
