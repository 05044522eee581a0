(** Proofs about the answers to HTTP requests (C124) *)
From stdpp Require Import gmap.
From Verif Require Import Base HexM TimeM HeaderM ParamsM GeoM MsgM PacketM FrameM ProgM RingM StateM ProcM ServerM SpecCodec SpecRing SpecState SpecReg HttpM SpecHttp
  ProgP StateP EffectP ServerP SessP LinkP RegP LifeP.
Local Open Scope N_scope.

(** * Commands *)
Lemma params_encode o ps : paramsEncode o ps = Panic \/ exists b, paramsEncode o ps = Ok b.
Proof.
  unfold paramsEncode. generalize (WriteByte [] (dp_cnt ps)). induction (dp_list ps) as [|p t IH]; intros b; cbn [paramsEncodeLoop]; [eauto|].
  destruct (paramEncode o p) as [c|er|]; [apply IH|apply IH|auto].
Qed.
Lemma send_outcome e i m w s sl x k : st_byID s !! i = Some sl -> st_sess s !! sl = Some x -> st_conns s !! ss_conn x = Some k ->
  fst (run (serverSend e i m w) s) = match encodePacket (e_o e) m with Panic => Panic | _ => Ok tt end.
Proof.
  intros Hi Hx Hk. unfold serverSend. rewrite run_bind. unfold getSession, rd1. cbn [run ret]. rewrite Hi.
  rewrite run_bind. unfold readSess. cbn [run]. rewrite Hx. cbn [run ret]. rewrite run_bindR.
  assert (Hend : forall (q : res unit) s1, q <> Panic -> st_sess s1 !! sl = Some x ->
    fst (run (match q with Ok _ => ret tt | Err ErrClosedPipe | Err ErrNetClosed => remove sl | Err _ => ret tt | Panic => panic end) s1) = Ok tt).
  { intros q s1 Hq H1. destruct q as [u|er|]; [reflexivity| |congruence].
    destruct er; try reflexivity; rewrite (run_remove sl x s1 H1); reflexivity. }
  unfold processConnWrite. rewrite run_bind. unfold lift. cbn [run]. destruct (encodePacket (e_o e) m) as [b|er|].
  - destruct (run_connSend (ss_conn x) b w s k Hk) as (q & s1 & E & Hq & (f & -> & _) & _). rewrite E. cbn [fst snd].
    apply Hend; [exact Hq|exact Hx].
  - cbn [fst snd]. apply (Hend (Err er) s); [discriminate|exact Hx].
  - reflexivity.
Qed.
Lemma run_httpSend e d id b w pre post s : consistent s ->
  run (httpSend e d id b w pre) s =
  match st_byID s !! d_sid d with
  | None => (Ok (pre ++ [(400, JErr)], true), s)
  | Some _ => (Ok (pre, match fst (run (command e d id b w post) s) with Panic => true | _ => false end), snd (run (command e d id b w post) s))
  end.
Proof.
  intros C. unfold httpSend, command. rewrite !run_bind. unfold apiSession. rewrite run_bind. unfold getSession, rd1. cbn [run ret].
  destruct (st_byID s !! d_sid d) as [sl|] eqn:Ei; [|reflexivity].
  destruct (cs_sess s C _ _ Ei) as (x & Hx & Hid). destruct (cs_conn s C _ _ Hx) as ((k & Hk) & Hsn).
  rewrite !run_bind, (run_nextSerial sl s x Hx Hsn). cbn [run ret fst snd].
  rewrite !run_bind. unfold readSess. cbn [run].
  set (s1 := set_sess _ s). assert (Hx1 : st_sess s1 !! sl = Some (mkSession (ss_id x) (ss_conn x) ((ss_sn x + 1) mod 65536))).
  { unfold s1. cbn. apply lookup_insert. }
  rewrite Hx1. cbn [run ret ss_id]. rewrite run_bindR, run_bind.
  destruct (run (serverSend _ _ _ _) s1) as [[u|er|] s2]; reflexivity.
Qed.
Lemma command_result e d id b w post s sl x : consistent s -> st_byID s !! d_sid d = Some sl -> st_sess s !! sl = Some x ->
  fst (run (command e d id b w post) s) = match encodePacket (e_o e) (cmd d id b (ss_sn x)) with Panic => Panic | _ => Ok post end.
Proof.
  intros C Ei Hx. unfold command. rewrite run_bind. unfold apiSession. rewrite run_bind. unfold getSession, rd1. cbn [run ret]. rewrite Ei.
  destruct (cs_sess s C _ _ Ei) as (x' & Hx' & Hid). assert (x' = x) by congruence. subst x'.
  destruct (cs_conn s C _ _ Hx) as ((k & Hk) & Hsn).
  rewrite run_bind, (run_nextSerial sl s x Hx Hsn). cbn [run ret fst snd]. rewrite run_bind. unfold readSess. cbn [run].
  set (s1 := set_sess _ s). assert (Hx1 : st_sess s1 !! sl = Some (mkSession (ss_id x) (ss_conn x) ((ss_sn x + 1) mod 65536))).
  { unfold s1. cbn. apply lookup_insert. }
  rewrite Hx1. cbn [run ret ss_id]. rewrite run_bind. fold (cmd d id b (ss_sn x)).
  assert (Hi1 : st_byID s1 !! ss_id x = Some sl) by (rewrite Hid; exact Ei).
  pose proof (send_outcome e (ss_id x) (cmd d id b (ss_sn x)) w s1 sl _ k Hi1 Hx1 Hk) as H. unfold cmd in *.
  destruct (run (serverSend _ _ _ _) s1) as [q s2]. cbn [fst] in H. subst q. destruct (encodePacket _ _); reflexivity.
Qed.
Lemma put_result e d ps sn : match encodePacket (e_o e) (cmd d 0x8103 (B8103 0 (Some ps)) sn) with Panic => true | _ => false end
  = match paramsEncode (e_o e) ps with Panic => true | _ => false end.
Proof.
  destruct (params_encode (e_o e) ps) as [H|(b & H)]; rewrite H.
  - rewrite (put_panics e d ps sn H). reflexivity.
  - destruct (put_frame e d ps b sn H) as (f & ->). reflexivity.
Qed.

(** * The device list *)
Lemma run_readAll s ls ds : Forall2 (fun l d => st_devs s !! l = Some d) ls ds -> run (readAll ls) s = (Ok ds, s).
Proof.
  intros F. induction F as [|l d ls ds Hd _ IH]; [reflexivity|]. cbn [readAll]. rewrite run_bind. unfold readDev. cbn [run]. rewrite Hd. cbn [run ret].
  rewrite run_bind, IH. reflexivity.
Qed.
Lemma listed s : consistent s -> exists ls ds, run listDevice s = (Ok ls, s) /\ Forall2 (fun l d => st_devs s !! l = Some d) ls ds
  /\ base.NoDup ds /\ forall d, d ∈ ds <-> exists ph, devAt s ph = Some d.
Proof.
  intros C. unfold listDevice, rd1. cbn [run ret]. exists ((map_to_list (st_byPhone s)).*2).
  assert (H : forall l : list (str * nat), (forall p i, (p, i) ∈ l -> st_byPhone s !! p = Some i) -> base.NoDup (l.*1) ->
    exists ds, Forall2 (fun i d => st_devs s !! i = Some d) (l.*2) ds /\ d_phone <$> ds = l.*1).
  { induction l as [|[p i] l IH]; intros Hl Hn; [exists []; split; [constructor|reflexivity]|].
    cbn in Hn. apply list.NoDup_cons in Hn as [Hn Hn'].
    destruct IH as (ds & F & E); [intros; apply Hl; right; assumption|exact Hn'|].
    destruct (cs_phone s C p i (Hl p i ltac:(left))) as (d & Hd & Hp & _).
    exists (d :: ds). split; [constructor; assumption|]. cbn. rewrite Hp. f_equal. exact E. }
  destruct (H (map_to_list (st_byPhone s))) as (ds & F & E).
  { intros p i Hi. apply elem_of_map_to_list. exact Hi. }
  { apply NoDup_fst_map_to_list. }
  exists ds. split; [reflexivity|]. split; [exact F|]. split.
  - apply (NoDup_fmap_1 d_phone). rewrite E. apply NoDup_fst_map_to_list.
  - intros d. split.
    + intros Hd. apply elem_of_list_lookup in Hd as (n & Hd). destruct (Forall2_lookup_r _ _ _ _ _ F Hd) as (i & Hi & Hv).
      apply elem_of_list_lookup_2 in Hi. apply elem_of_list_fmap in Hi as ([p i'] & -> & Hi). apply elem_of_map_to_list in Hi.
      exists p. unfold devAt. rewrite Hi. exact Hv.
    + intros (ph & Hd). destruct (devAt_Some s C ph d Hd) as (l & Hl & Hv & _).
      assert (Hi : l ∈ (map_to_list (st_byPhone s)).*2).
      { apply elem_of_list_fmap. exists (ph, l). split; [reflexivity|]. apply elem_of_map_to_list. exact Hl. }
      apply elem_of_list_lookup in Hi as (n & Hn). destruct (Forall2_lookup_l _ _ _ _ _ F Hn) as (d' & Hd' & Hv').
      apply elem_of_list_lookup. exists n. congruence.
Qed.

(** * The answers *)
Lemma run_http_get e s ph w : consistent s -> run (http e (RGetParams ph w)) s =
  match devAt s ph with
  | None => (Ok (mkResp 400 [JErr]), s)
  | Some d => match st_byID s !! d_sid d with
              | None => (Ok (mkResp 400 [JErr]), s)
              | Some _ => (Ok (mkResp 200 []), snd (run (apiGetParams e ph w) s))
              end
  end.
Proof.
  intros C. unfold http. rewrite run_bind. unfold httpGetParams. rewrite run_bind. unfold getDeviceByPhone, rd1. cbn [run ret].
  destruct (devAt s ph) as [d|] eqn:Ed.
  2:{ apply (devAt_None s C) in Ed. rewrite Ed. reflexivity. }
  destruct (devAt_Some s C ph d Ed) as (l & Hl & Hv & _). rewrite Hl. rewrite run_bind. unfold readConst. cbn [run]. rewrite Hv. cbn [run ret].
  rewrite (run_httpSend e d 0x8104 B8104 w [] [] s C), (api_get e s ph d C Ed).
  destruct (st_byID s !! d_sid d) as [sl|] eqn:Ei; [|reflexivity].
  destruct (cs_sess s C _ _ Ei) as (x & Hx & _). rewrite (command_result e d 0x8104 B8104 w [] s sl x C Ei Hx).
  destruct (get_frame e d (ss_sn x)) as (f & ->). reflexivity.
Qed.
Lemma run_http_put e s ph bad ps w : consistent s -> run (http e (RPutParams ph bad ps w)) s =
  match devAt s ph with
  | None => (Ok (mkResp 400 (errs (if bad then 2 else 1))), s)
  | Some d => match st_byID s !! d_sid d with
              | None => (Ok (mkResp 400 (errs (if bad then 2 else 1))), s)
              | Some _ => (Ok (if bad then mkResp 400 [JErr] else match paramsEncode (e_o e) ps with Panic => mkResp 500 [] | _ => mkResp 200 [] end),
                           snd (run (apiPutParams e ph bad ps w) s))
              end
  end.
Proof.
  intros C. unfold http. rewrite run_bind. unfold httpPutParams. rewrite run_bind. unfold getDeviceByPhone, rd1. cbn [run ret].
  destruct (devAt s ph) as [d|] eqn:Ed.
  2:{ apply (devAt_None s C) in Ed. rewrite Ed. destruct bad; reflexivity. }
  destruct (devAt_Some s C ph d Ed) as (l & Hl & Hv & _). rewrite Hl. rewrite run_bind. unfold readConst. cbn [run]. rewrite Hv. cbn [run ret].
  rewrite (run_httpSend e d 0x8103 (B8103 0 (Some ps)) w _ (if bad then [400] else []) s C), (api_put e s ph d C Ed).
  destruct (st_byID s !! d_sid d) as [sl|] eqn:Ei; [|destruct bad; reflexivity].
  destruct (cs_sess s C _ _ Ei) as (x & Hx & _). rewrite (command_result e d _ _ w _ s sl x C Ei Hx).
  pose proof (put_result e d ps (ss_sn x)) as Hp.
  destruct (encodePacket _ _), (paramsEncode _ _), bad; cbn in Hp |- *; try discriminate Hp; reflexivity.
Qed.
Lemma run_http_geo e s ph : consistent s -> exists h, run (http e (RGeo ph)) s = (Ok (respond (h, false)), snd (run (apiGeo ph) s))
  /\ match fst (run (apiGeo ph) s), devAt s ph with
     | Ok ([400], None), None => h = [(400, JErr)]
     | Ok ([], None), Some d => h = []
     | Ok ([200], Some g), Some d => h = [(200, JGeo d g)]
     | _, _ => False
     end.
Proof.
  intros C. unfold http. rewrite run_bind. unfold httpGeo, apiGeo. rewrite !run_bind. unfold getDeviceByPhone, rd1. cbn [run ret].
  destruct (devAt s ph) as [d|] eqn:Ed.
  2:{ apply (devAt_None s C) in Ed. rewrite Ed. cbn. eauto. }
  destruct (devAt_Some s C ph d Ed) as (l & Hl & Hv & _). rewrite Hl. rewrite !run_bind. unfold readDev. cbn [run]. rewrite Hv. cbn [run ret].
  pose proof (run_apiGeo ph s C) as G. rewrite Hl in G. destruct G as (s' & _ & _ & _ & G).
  assert (Hw : exists ws, track s ph ws).
  { unfold track, ringOf. destruct (st_geo s !! ph) as [rl|] eqn:Eg; [|eauto]. destruct (cs_geo s C _ _ Eg) as (r & ws & Hr & Hh & _). rewrite Hr. eauto. }
  destruct Hw as (ws & Hw). destruct (G ws Hw) as (_ & E). unfold apiGeo in E. rewrite run_bind in E. unfold getDeviceByPhone, rd1 in E. cbn [run ret] in E.
  rewrite Hl in E. rewrite run_bind in E. unfold readDev in E. cbn [run] in E. rewrite Hv in E. cbn [run ret] in E.
  rewrite !run_bind. rewrite run_bind in E. destruct (run (getGeoLatestByPhone ph) s) as [[[g|]|er|] s1]; cbn [run ret fst snd] in *; try discriminate E; eauto.
Qed.
Theorem http_answers e s r : consistent s -> exists a s', run (http e r) s = (Ok a, s') /\ http_reply e s r a
  /\ forall live, w_st (step e (mkWorld s live false) (event_of r)) = s'.
Proof.
  intros C. destruct r as [|ph|ph w|ph bad ps w].
  - destruct (listed s C) as (ls & ds & E & F & Hn & Hd). eexists _, s.
    split; [|split; [exists ds; split; [reflexivity|split; [exact Hn|exact Hd]]|reflexivity]].
    unfold http, httpList. rewrite run_bind. rewrite run_bind, E, run_bind, (run_readAll s ls ds F). reflexivity.
  - destruct (run_http_geo e s ph C) as (h & E & Hh). eexists _, _. split; [exact E|]. split; [|reflexivity]. cbn [http_reply].
    pose proof (run_apiGeo ph s C) as G. destruct (devAt s ph) as [d|] eqn:Ed.
    + destruct (devAt_Some s C ph d Ed) as (l & Hl & _). rewrite Hl in G. destruct G as (s' & _ & _ & _ & G). intros ws Hw.
      destruct (G ws Hw) as (_ & E'). rewrite E' in Hh. cbn [fst] in Hh.
      destruct (length ws mod 100 =? 0)%nat eqn:Em; [subst h; reflexivity|].
      assert (Hne : last_of ws <> None).
      { unfold last_of. destruct (rev ws) as [|y t] eqn:Er; [|discriminate]. apply (f_equal (@length _)) in Er. rewrite rev_length in Er.
        cbn in Er. rewrite Er in Em. discriminate Em. }
      destruct (last_of ws) as [g|] eqn:El.
      * subst h. exists g. split; reflexivity.
      * exact (False_ind _ (Hne eq_refl)).
    + apply (devAt_None s C) in Ed. rewrite Ed in G. rewrite G in Hh. cbn in Hh. subst h. reflexivity.
  - pose proof (run_http_get e s ph w C) as E. cbn [http_reply event_of]. destruct (devAt s ph) as [d|] eqn:Ed.
    + destruct (st_byID s !! d_sid d) as [sl|] eqn:Ei.
      * eexists _, _. split; [exact E|]. split; reflexivity.
      * eexists _, _. split; [exact E|]. split; [reflexivity|]. intros live. unfold step. cbn [w_dead w_st].
        destruct (command_lost e s ph d C Ed Ei) as (H & _). rewrite H. reflexivity.
    + eexists _, _. split; [exact E|]. split; [reflexivity|]. intros live. unfold step. cbn [w_dead w_st].
      destruct (command_none e s ph w Ed C) as (H & _). rewrite H. reflexivity.
  - pose proof (run_http_put e s ph bad ps w C) as E. cbn [http_reply event_of]. destruct (devAt s ph) as [d|] eqn:Ed.
    + destruct (st_byID s !! d_sid d) as [sl|] eqn:Ei.
      * eexists _, _. split; [exact E|]. split; reflexivity.
      * eexists _, _. split; [exact E|]. split; [reflexivity|]. intros live. unfold step. cbn [w_dead w_st].
        destruct (command_lost e s ph d C Ed Ei) as (_ & H). rewrite H. reflexivity.
    + eexists _, _. split; [exact E|]. split; [reflexivity|]. intros live. unfold step. cbn [w_dead w_st].
      destruct (command_none e s ph w Ed C) as (_ & H). destruct (H bad ps) as (l & -> & _). reflexivity.
Qed.
Theorem proper_iff e s r : consistent s -> forall a s', run (http e r) s = (Ok a, s') -> (proper a <-> one_value s r).
Proof.
  intros C a s' E. destruct (http_answers e s r C) as (a0 & s0 & E0 & A & _). assert (a0 = a) by congruence. subst a0. clear E E0.
  assert (H200 : ~ proper (mkResp 200 [])) by (intros (v & H & _); discriminate H).
  assert (H500 : ~ proper (mkResp 500 [])) by (intros (v & H & _); discriminate H).
  assert (H400 : proper (mkResp 400 [JErr])) by (exists JErr; split; [reflexivity|split; [discriminate|reflexivity]]).
  assert (H2 : ~ proper (mkResp 400 [JErr; JErr])) by (intros (v & H & _); discriminate H).
  assert (HD : forall ds, proper (mkResp 200 [JDevs ds])) by (intros ds; exists (JDevs ds); split; [reflexivity|split; [discriminate|intros H; destruct (H eq_refl)]]).
  assert (HG : forall d g, proper (mkResp 200 [JGeo d g])) by (intros d g; exists (JGeo d g); split; [reflexivity|split; [discriminate|intros H; destruct (H eq_refl)]]).
  assert (Hl : forall ph, (forall d, devAt s ph = Some d -> st_byID s !! d_sid d = None) <->
     match devAt s ph with Some d => match st_byID s !! d_sid d with Some _ => False | None => True end | None => True end).
  { intros ph. destruct (devAt s ph) as [d|]; [|split; [trivial|intros _ d [=]]]. split.
    - intros H. rewrite (H d eq_refl). exact I.
    - intros H d' [= <-]. destruct (st_byID s !! d_sid d); [contradiction|reflexivity]. }
  destruct r as [|ph|ph w|ph bad ps w]; cbn [http_reply one_value] in *.
  - destruct A as (ds & -> & _). split; [trivial|intros _; apply HD].
  - destruct (devAt s ph) as [d|] eqn:Ed.
    2:{ subst a. split; [auto|intros _; exact H400]. }
    assert (Hw : exists ws, track s ph ws).
    { unfold track, ringOf. destruct (st_geo s !! ph) as [rl|] eqn:Eg; [|eauto]. destruct (cs_geo s C _ _ Eg) as (r & ws & Hr & Hh & _). rewrite Hr. eauto. }
    destruct Hw as (ws & Hw). pose proof (A ws Hw) as Aw. destruct (length ws mod 100 =? 0)%nat eqn:Em.
    + subst a. split; [contradiction|]. intros [H|H]; [discriminate H|]. apply Nat.eqb_eq in Em. destruct (H ws Hw Em).
    + destruct Aw as (g & _ & ->). split; [|intros _; apply HG]. intros _. right. intros ws' Hw' Em'. pose proof (A ws' Hw') as A'.
      apply Nat.eqb_eq in Em'. rewrite Em' in A'. discriminate A'.
  - rewrite Hl. destruct (devAt s ph) as [d|]; [destruct (st_byID s !! d_sid d)|]; subst a; tauto.
  - destruct bad; rewrite Hl; (destruct (devAt s ph) as [d|]; [destruct (st_byID s !! d_sid d); [try destruct (paramsEncode _ _)|]|]); subst a; cbn [errs repeat]; tauto.
Qed.
(** the value that says so notwithstanding, a command with a body that cannot be bound is sent *)
Theorem improper e s ph d x k : consistent s -> devAt s ph = Some d -> sessAt s (d_sid d) = Some x ->
  st_conns s !! ss_conn x = Some k -> cn_open k = true ->
  (forall ps b, paramsEncode (e_o e) ps = Ok b -> exists f s',
     encodePacket (e_o e) (platform_msg d 0x8103 ((ss_sn x + 1) mod 65536) (B8103 0 (Some ps))) = Ok f
     /\ run (http e (RPutParams ph true ps None)) s = (Ok (mkResp 400 [JErr]), s')
     /\ st_conns s' !! ss_conn x = Some (mkConn true (cn_out k ++ [f])))
  /\ (forall w, exists s', run (http e (RGetParams ph w)) s = (Ok (mkResp 200 []), s'))
  /\ (forall q ps w, devAt s q = None -> run (http e (RPutParams q true ps w)) s = (Ok (mkResp 400 [JErr; JErr]), s)).
Proof.
  intros C Hd Hx Hk Ho. assert (Hi : exists sl, st_byID s !! d_sid d = Some sl) by (unfold sessAt in Hx; destruct (st_byID s !! d_sid d); [eauto|discriminate]).
  destruct Hi as (sl & Hi). split; [|split].
  - intros ps b Hb. destruct (put_params e s ph d x k ps b true C Hd Hx Hk Ho Hb) as (f & s' & Hf & E & Hc & _).
    exists f, s'. split; [rewrite <- platform_cmd; exact Hf|]. split; [|exact Hc]. rewrite (run_http_put e s ph true ps None C), Hd, Hi, E. reflexivity.
  - intros w. eexists. rewrite (run_http_get e s ph w C), Hd, Hi. reflexivity.
  - intros q ps w Hq. rewrite (run_http_put e s q true ps w C), Hq. reflexivity.
Qed.

(** * Whoever reads the list can authenticate (C125) *)
Theorem disclosed : exists f : str -> str -> str -> str, forall e s, consistent s ->
  exists ds, run (http e RList) s = (Ok (mkResp 200 [JDevs ds]), s)
    /\ (forall ph d, devAt s ph = Some d -> d ∈ ds)
    /\ forall d sl p al imei sw, d ∈ ds ->
         carries e s p 0x0102 (B0102 al (f (d_id d) (d_plate d) (d_phone d)) imei sw) -> h_phone (pk_hdr p) = d_phone d ->
         exists m s2 d2, run (process e sl p) s = (Ok (Some m), s2) /\ answers p 0x8001 (B8001 (h_sn (pk_hdr p)) 0x0102 0) m
           /\ devAt s2 (d_phone d) = Some d2 /\ d_status d2 = Online.
Proof.
  exists code_for. intros e s C. destruct (http_answers e s RList C) as (a0 & s0 & E0 & (ds & -> & _ & Hds) & Hs).
  pose proof (Hs ∅) as Hs'. cbn in Hs'. subst s0. exists ds. split; [exact E0|]. split; [intros ph d Hd; apply Hds; exists ph; exact Hd|].
  intros d sl p al imei sw Hd Hc Hp.
  apply Hds in Hd as (ph & Hd). destruct (devAt_Some s C ph d Hd) as (l & _ & _ & Hph & _). subst ph.
  rewrite <- Hp in Hd. destruct (authentication e sl s p al _ imei sw d C Hc Hd) as (m & s2 & E2 & _ & _ & _ & Hok & _).
  destruct (Hok (code_for_code _ _ _)) as (Ha & Hd2 & _). eexists m, s2, _. split; [exact E2|]. split; [exact Ha|].
  rewrite <- Hp. split; [exact Hd2|reflexivity].
Qed.
Theorem disclosed_code e now evs ph d : let s := w_st (history e now evs) in devAt s ph = Some d -> d_auth d <> [] ->
  exists ds, run (http e RList) s = (Ok (mkResp 200 [JDevs ds]), s) /\ d ∈ ds /\ is_code (d_id d) (d_plate d) ph (d_auth d).
Proof.
  intros s Hd Hn. pose proof (wo_ok _ (history_ok e now evs)) as C.
  destruct (http_answers e s RList C) as (a0 & s0 & E0 & (ds & -> & _ & Hds) & Hs).
  pose proof (Hs ∅) as Hs'. cbn in Hs'. subst s0. exists ds. split; [exact E0|]. split; [apply Hds; exists ph; exact Hd|].
  destruct (records e now evs ph d Hd) as (<- & _ & [H|H] & _); [contradiction|]. rewrite H. apply code_for_code.
Qed.
