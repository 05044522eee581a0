(** Where devices come from: handled one at a time, only a registration stores a device *)
From stdpp Require Import gmap.
From Verif Require Import Base HexM TimeM HeaderM ParamsM GeoM MsgM PacketM FrameM ProgM ProgP RingM RingP
  StateM ProcM ServerM SpecState StateP ProcP ServerP EffectP ReplyP CmdP SessP.
Local Open Scope N_scope.

Lemma table_0100 id ik ok : lookupN optionTable id = Some (ik, ok) -> ik = K0100 -> id = 0x0100.
Proof.
  unfold optionTable. cbn [lookupN].
  repeat (match goal with |- context [(?a =? ?b)] => destruct (N.eqb_spec a b) end;
          [intros [= <- _]; try discriminate; intros _; congruence|]). discriminate.
Qed.
Lemma handler_creates e sl s inc out : st_byPhone s !! h_phone (m_hdr inc) = None ->
  (forall r, m_body inc <> B0100 r) -> st_byPhone (snd (run (handler e sl inc out) s)) = st_byPhone s.
Proof.
  intros H Hr. unfold handler. destruct (m_body inc) eqn:Eb; try reflexivity.
  - rewrite run_0002_none by exact H. reflexivity.
  - rewrite run_0003_none by exact H. reflexivity.
  - exfalso. eapply Hr. reflexivity.
  - rewrite run_0102_none by exact H. reflexivity.
  - rewrite run_0200_none by exact H. reflexivity.
  - unfold process8100. rewrite run_bind. unfold getDeviceByPhone, rd1. cbn [run ret]. rewrite H. reflexivity.
  - unfold process8103. rewrite run_bind. unfold getDeviceParamsByPhone, rd1. cbn [run ret]. destruct ps; reflexivity.
  - unfold process8104. rewrite run_bind. unfold getDeviceParamsByPhone, rd1. cbn [run ret].
    destruct (st_params s !! _); [reflexivity|]. rewrite run_bind. cbn [lift run].
    destruct (paramsDecode _ _ _ _); reflexivity.
Qed.
Lemma process_creates e sl s p q : consistent s -> is_Some (st_sess s !! sl) -> devAt s q = None ->
  (h_id (pk_hdr p) <> 0x0100 \/ h_phone (pk_hdr p) <> q) -> devAt (snd (run (process e sl p) s)) q = None.
Proof.
  intros C Hs Hd Hor. destruct (kept_process e sl s p C Hs) as [C' K _ _].
  destruct (decide (q = h_phone (pk_hdr p))) as [->|Hn]; [|destruct (K q Hn) as (-> & _); exact Hd].
  destruct Hor as [Hid|]; [|congruence].
  apply (devAt_None _ C'). apply (devAt_None s C) in Hd. rewrite <- Hd. f_equal.
  rewrite run_process. destruct (lookupN _ _) as [[ik ok]|] eqn:El; [|reflexivity].
  destruct (isFragmented _ && _).
  { rewrite run_segment by exact C. unfold devAt. rewrite Hd. reflexivity. }
  destruct (msgDecode _ _ _ _) as [inc|er|] eqn:Ed; [|reflexivity..].
  pose proof (msgDecode_ok _ _ _ _ _ Ed) as (Hh & Hk).
  rewrite <- Hh in Hd. destruct ok as [k|].
  - destruct (genOutgoing _ _ _) as [[out|]|er|]; [|reflexivity..].
    pose proof (handler_creates e sl s inc out Hd) as Hc.
    assert (Hb : forall r, m_body inc <> B0100 r).
    { intros r Eb. apply Hid. eapply table_0100; [exact El|]. rewrite <- Hk, Eb. reflexivity. }
    specialize (Hc Hb). destruct (run (handler e sl inc out) s) as [[m|er|] s']; exact Hc.
  - destruct (m_body inc) eqn:Eb; try reflexivity. rewrite run_8001 by exact C. rewrite Hd.
    destruct (res =? 0); reflexivity.
Qed.

(** the frame is a registration of this phone *)
Definition registers (e : env) (r : res bytes) (ph : str) : Prop :=
  exists frm p, r = Ok frm /\ decodePacket (e_o e) frm = Ok p /\ h_id (pk_hdr p) = 0x0100 /\ h_phone (pk_hdr p) = ph.
Lemma frame_creates e sl s r q : consistent s -> is_Some (st_sess s !! sl) -> devAt s q = None ->
  ~ registers e r q -> devAt (snd (frameOut e sl r s)) q = None.
Proof.
  intros C Hs Hd Hr. unfold frameOut. rewrite run_bind. cbn [lift run].
  destruct r as [frm|er|]; [|exact Hd..]. rewrite run_bind.
  destruct (run_decodeP e frm s) as (r1 & s1 & E & (f & ->) & Hp). rewrite E.
  destruct r1 as [p|er|]; [|exact Hd..]. destruct Hp as (p0 & Ep & Hh & _).
  apply process_creates; [apply consistent_segs; exact C|exact Hs|exact Hd|].
  destruct (decide (h_id (pk_hdr p) = 0x0100 /\ h_phone (pk_hdr p) = q)) as [(H1 & H2)|Hn].
  - exfalso. apply Hr. exists frm, p0. rewrite <- Hh. auto.
  - destruct (decide (h_id (pk_hdr p) = 0x0100)); [right|left]; tauto.
Qed.
Lemma serve_creates e sl s x r w q : consistent s -> st_sess s !! sl = Some x -> devAt s q = None ->
  ~ registers e r q -> devAt (snd (run (serveLoop e sl [(r, w)]) s)) q = None.
Proof.
  intros C Hx Hd Hr. destruct (cs_conn s C sl x Hx) as ((k & Hk) & _).
  pose proof (frame_creates e sl s r q C (ex_intro _ x Hx) Hd Hr) as F.
  destruct (run_serveLoop1 e sl r w s x k C Hx Hk) as (a & s1 & x1 & E1 & _ & _ & _ & _ & E).
  assert (F1 : devAt s1 q = None).
  { unfold serveOne in E1. rewrite run_bind in E1. unfold readSess in E1. cbn [run] in E1. rewrite Hx in E1. cbn [run ret] in E1.
    rewrite run_bindR, run_read in E1. destruct (frameOut e sl r s) as [[out|er|] s2] eqn:Ef; cbn [fst snd] in *.
    - assert (Hk2 : st_conns s2 !! ss_conn x = Some k).
      { destruct (frameOut_kept e sl r s (ss_conn x) C (ex_intro _ x Hx)) as (_ & Hc). rewrite Ef in Hc. cbn in Hc.
        rewrite Hc. exact Hk. }
      rewrite (run_write_exact e (ss_conn x) out w s2 k Hk2) in E1. cbn [fst snd] in E1.
      destruct (ends e k (Ok out) w) as [u|er|]; cbn [run ret panic] in E1; injection E1 as <- <-; exact F.
    - cbn in E1. injection E1 as <- <-. exact F.
    - cbn in E1. injection E1 as <- <-. exact F. }
  rewrite E. destruct a as [[]|er|]; exact F1.
Qed.
(** C58, sequentially: whatever happens, a phone without a device has one afterwards only
    if a registration of that phone was received *)
Lemma step_creates e w ev q : world_ok w -> devAt (w_st w) q = None ->
  devAt (w_st (step e w ev)) q <> None -> exists sl r x, ev = EFrame sl r x /\ registers e r q.
Proof.
  intros [C D L R] Hd Hn. unfold step in Hn. rewrite D in Hn.
  destruct ev as [c addr|sl r x|ph| |ph|ph x|ph bad ps x|t].
  - exfalso. destruct (st_conns (w_st w) !! c) as [k|] eqn:Ec; [contradiction|].
    destruct (accept_ok (w_st w) c addr C Ec) as (E & _ & _). rewrite E in Hn. contradiction.
  - case_bool_decide as Hl; [|contradiction]. exists sl, r, x. split; [reflexivity|].
    destruct (L sl Hl) as (y & Hy).
    destruct (decide (phone_of e r = Some q)) as [Hp|Hp].
    + destruct r as [frm|er|]; try discriminate. cbn in Hp.
      destruct (decodePacket (e_o e) frm) as [p|er|] eqn:Ep; try discriminate. injection Hp as Hp.
      destruct (decide (h_id (pk_hdr p) = 0x0100)) as [Hid|Hid]; [exists frm, p; auto|].
      exfalso. apply Hn. assert (Hr : ~ registers e (Ok frm) q).
      { intros (frm' & p' & [= <-] & Ep' & Hid' & _). congruence. }
      pose proof (serve_creates e sl (w_st w) y (Ok frm) x q C Hy Hd Hr) as F.
      destruct (run (serveLoop e sl [(Ok frm, x)]) (w_st w)) as [[[]|er|] s']; exact F.
    + exfalso. apply Hn. assert (Hr : ~ registers e r q).
      { intros (frm & p & -> & Ep & _ & Hq). apply Hp. cbn. rewrite Ep, Hq. reflexivity. }
      pose proof (serve_creates e sl (w_st w) y r x q C Hy Hd Hr) as F.
      destruct (run (serveLoop e sl [(r, x)]) (w_st w)) as [[[]|er|] s']; exact F.
  - exfalso. case_bool_decide as Hj; [|contradiction].
    assert (F : devAt (snd (run (checkKeepalive ph) (w_st w))) q = None).
    { destruct (decide (q = ph)) as [->|Hq]; [|rewrite (proj1 (proj1 (tick_others ph (w_st w) C) q Hq)); exact Hd].
      assert (Hl := Hd). apply (devAt_None _ C) in Hl. rewrite (tick_unknown ph (w_st w) Hl). exact Hd. }
    destruct (run (checkKeepalive ph) (w_st w)) as [[u|er|] s']; contradiction.
  - contradiction.
  - exfalso. cbn [w_st] in Hn. pose proof (run_apiGeo ph (w_st w) C) as H. destruct (st_byPhone (w_st w) !! ph) as [l|].
    + destruct H as (s' & O & C' & _ & Ht).
      assert (exists ws, track (w_st w) ph ws) as (ws & Hws).
      { unfold track, ringOf. destruct (st_geo (w_st w) !! ph) as [rl|] eqn:Eg; [|eauto].
        destruct (cs_geo _ C _ _ Eg) as (r & ws & Hr & Hh & _). rewrite Hr. eauto. }
      destruct (Ht ws Hws) as (_ & E). rewrite E in Hn. cbn in Hn. apply Hn.
      destruct O as (O1 & O2 & O3 & _). unfold devAt in *. rewrite O1, O3. exact Hd.
    + rewrite H in Hn. contradiction.
  - exfalso. cbn [w_st] in Hn. destruct (proj1 (api_kept e ph (w_st w) C) x) as (c & [_ K2 _ _ _ _ _ _]).
    apply Hn. rewrite (proj1 (K2 q)). exact Hd.
  - exfalso. cbn [w_st] in Hn. destruct (proj2 (api_kept e ph (w_st w) C) bad ps x) as (c & [_ K2 _ _ _ _ _ _]).
    apply Hn. rewrite (proj1 (K2 q)). exact Hd.
  - contradiction.
Qed.
(** over a history: without a registration of the phone it stays unknown *)
Lemma stays_unknown e q evs : forall w, world_ok w -> devAt (w_st w) q = None ->
  (forall sl r x, In (EFrame sl r x) evs -> ~ registers e r q) -> devAt (w_st (fold_left (step e) evs w)) q = None.
Proof.
  induction evs as [|ev evs IH]; intros w W Hd Hr; [exact Hd|]. cbn [fold_left]. apply IH.
  - apply step_ok. exact W.
  - destruct (devAt (w_st (step e w ev)) q) eqn:E; [|reflexivity]. exfalso.
    destruct (step_creates e w ev q W Hd) as (sl & r & x & -> & Hreg); [congruence|].
    apply (Hr sl r x); [left; reflexivity|exact Hreg].
  - intros sl r x Hin. apply (Hr sl r x). right. exact Hin.
Qed.
