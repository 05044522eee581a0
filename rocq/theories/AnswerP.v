(** Proofs of C98-C100: media queries, the built-in parameters, sending to a session *)
From Coq Require Import String.
From stdpp Require Import gmap.
From Verif Require Import Base HexM TimeM HeaderM ParamsM GeoM MsgM PacketM FrameM ProgM ProgP RingM
  StateM ProcM ServerM SpecCodec SpecState SpecAnswer HexP TimeP HeaderP MsgP CodecP3 StateP ProcP ServerP EffectP CmdP.
Local Open Scope N_scope.

(** * C98 *)
Definition echo (q : mquery) : mquery := mkMQ (q_chan q) (q_start q) (q_end q) 0 0 0 0 0.
Lemma media_run e sl s p q : carries e s p 0x9205 (B9205 q) ->
  exists m, run (process e sl p) s = (Ok (Some m), s)
    /\ answers p 0x1205 (B1205 (h_sn (pk_hdr p)) 1 (echo q) 0) m.
Proof.
  intros Hc. erewrite process_carries; [|exact Hc|reflexivity|reflexivity].
  unfold handler. cbn [m_body]. unfold process9205. cbn. eexists. split; reflexivity.
Qed.
Lemma hdr_wf_id h i : hdr_wf h -> i < 65536 -> hdr_wf (with_id h i).
Proof. unfold hdr_wf, with_id. cbn. intuition. Qed.
Lemma hdr_wf_sn h : hdr_wf h -> h_sn h < 65536.
Proof. unfold hdr_wf. intuition. Qed.
Lemma media_answer e sl s p q qw : carries e s p 0x9205 (B9205 q) -> query_layout q qw -> hdr_wf (pk_hdr p) ->
  let a := B1205 (h_sn (pk_hdr p)) 1 (mkMQ (q_chan q) (q_start q) (q_end q) 0 0 0 0 0) 0 in
  exists m, run (process e sl p) s = (Ok (Some m), s) /\ answers p 0x1205 a m
    /\ delivered (e_o e) (m_hdr m) (m_body m) a.
Proof.
  intros Hc Hq Hw a. destruct (media_run e sl s p q Hc) as (m & E & Ha). exists m. split; [exact E|]. split; [exact Ha|].
  rewrite Ha. cbn [m_hdr m_body]. inversion Hq; subst; cbn [echo q_chan q_start q_end] in *.
  eapply media_delivered; [apply (hdr_wf_id (pk_hdr p) 0x1205 Hw); lia| |apply hdr_wf_sn; exact Hw|lia|lia].
  apply ql; try assumption; lia.
Qed.
Lemma zero_time i now : reads i (ReadTime now) (repeat 0 6) now.
Proof.
  unfold ReadTime. apply (reads_map i (ReadBCD 6) (ParseTime now) (repeat 0 6) (bcd2NumberStr (repeat 0 6))). apply reads_bcd. reflexivity.
Qed.
Lemma media_zero e sl s p c rest : h_id (pk_hdr p) = 0x9205 -> fragment (pk_hdr p) = false ->
  sl_data (pk_body p) = [c] ++ repeat 0 12 ++ rest -> length rest = 11%nat ->
  let now := e_civil e (st_clock s) in
  exists m, run (process e sl p) s = (Ok (Some m), s)
    /\ answers p 0x1205 (B1205 (h_sn (pk_hdr p)) 1 (mkMQ c (Some now) (Some now) 0 0 0 0 0) 0) m.
Proof.
  intros Hid Hf Hd Hl now.
  destruct rest as [|a1 [|a2 [|a3 [|a4 [|b1 [|b2 [|b3 [|b4 [|x1 [|x2 [|x3 [|? ?]]]]]]]]]]]]; try discriminate Hl. clear Hl.
  assert (R : exists a b, reads 0 (decBody (e_o e) now K9205 (pk_hdr p)) (sl_data (pk_body p)) (B9205 (mkMQ c (Some now) (Some now) a b x1 x2 x3))).
  { eexists _, _. rewrite Hd. cbn [decBody].
    change ([c] ++ repeat 0 12 ++ [a1; a2; a3; a4; b1; b2; b3; b4; x1; x2; x3])
      with ([c] ++ repeat 0 6 ++ repeat 0 6 ++ [a1; a2; a3; a4] ++ [b1; b2; b3; b4] ++ [x1] ++ [x2] ++ [x3] ++ []).
    apply (reads_map 0 (mqueryDecode now) B9205). unfold mqueryDecode.
    eapply reads_bind; [apply reads_byte|]. eapply reads_bind; [apply zero_time|]. eapply reads_bind; [apply zero_time|].
    eapply reads_bind; [apply reads_map with (w := [a1; a2; a3; a4]); apply reads_sub; reflexivity|].
    eapply reads_bind; [apply reads_map with (w := [b1; b2; b3; b4]); apply reads_sub; reflexivity|].
    do 3 (eapply reads_bind; [apply reads_byte|]). apply reads_ret. }
  destruct R as (a & b & R).
  apply (media_run e sl s p (mkMQ c (Some now) (Some now) a b x1 x2 x3)).
  split; [exact Hid|]. split; [left; exact Hf|]. cbn [kind_of]. unfold msgDecode.
  unfold now in *.   specialize (R [] [] (sl_spare (pk_body p)) eq_refl). cbn [app] in R. rewrite app_nil_r in R.
  destruct (pk_body p) as [d spp]. cbn [sl_data sl_spare] in *. rewrite R. reflexivity.
Qed.

(** * C99 *)
Lemma defaults o ph : paramsDecode o ph 39 (Str2Byte_slice paramByteStr)
  = Ok (mkParams ph 39 (built_in o ++ [mkParam 0x76 35 (VStr (strOf (built_in_last ++ leaked)))])).
Proof.
  assert (E : paramsDecodeLoop o 39 (Str2Byte_slice paramByteStr) O
    = Ok (built_in o ++ [mkParam 0x76 35 (VStr (strOf (built_in_last ++ leaked)))], 548%nat)).
  { vm_compute. reflexivity. }
  unfold paramsDecode. change (N.to_nat 39) with 39%nat. rewrite E. reflexivity.
Qed.
Lemma defaults_answer e sl s p : carries e s p 0x8104 B8104 -> let ph := h_phone (pk_hdr p) in
  st_params s !! ph = None ->
  exists m last, let d := mkParams ph 39 (built_in (e_o e) ++ [last]) in
    run (process e sl p) s = (Ok (Some m), set_params (<[ph := d]>) s)
    /\ answers p 0x0104 (B0104 (h_sn (pk_hdr p)) 0 (Some d)) m
    /\ last = mkParam 0x76 35 (VStr (strOf (built_in_last ++ leaked))).
Proof.
  intros Hc ph Hn. erewrite process_carries; [|exact Hc|reflexivity|reflexivity].
  unfold handler. cbn [m_body]. unfold process8104. rewrite run_bind.
  unfold getDeviceParamsByPhone, rd1. cbn [run ret pbind m_hdr hdr_set_id h_phone]. fold ph. rewrite Hn.
  rewrite run_bind. cbn [lift run]. rewrite defaults. cbn [run wr1 cacheDeviceParams dp_phone].
  eexists _, _. split; [reflexivity|]. split; reflexivity.
Qed.

(** * C100 *)
Lemma send_unknown e s i m w : st_byID s !! i = None -> run (serverSend e i m w) s = (Ok tt, s).
Proof.
  intros H. unfold serverSend. rewrite run_bind. unfold getSession, rd1. cbn [run ret]. rewrite H. reflexivity.
Qed.
Lemma send_known e s i m f w sl x k : consistent s -> st_byID s !! i = Some sl -> st_sess s !! sl = Some x ->
  st_conns s !! ss_conn x = Some k -> encodePacket (e_o e) m = Ok f ->
  run (serverSend e i m w) s =
    (Ok tt, set_byID (fun b => if broken k w then delete i b else b)
              (set_conns (<[ss_conn x := mkConn (negb (broken k w) && cn_open k) (cn_out k ++ on_wire k f w)]>) s)).
Proof.
  intros C Hi Hx Hk Hf.
  assert (Hxi : ss_id x = i).
  { destruct (cs_sess s C _ _ Hi) as (x' & Hx' & Hi'). rewrite Hx in Hx'. injection Hx' as ->. exact Hi'. }
  unfold serverSend. rewrite run_bind. unfold getSession, rd1. cbn [run ret]. rewrite Hi.
  rewrite run_bind. unfold readSess. cbn [run]. rewrite Hx. cbn [run ret]. rewrite run_bindR.
  rewrite (run_write_exact e (ss_conn x) (Some m) w s k Hk). unfold ends, sent. rewrite Hf.
  assert (HB : forall g, run (remove sl) (set_conns (<[ss_conn x := mkConn g (cn_out k ++ on_wire k f w)]>) s)
    = (Ok tt, set_byID (delete i) (set_conns (<[ss_conn x := mkConn false (cn_out k ++ on_wire k f w)]>) s))).
  { intros g. rewrite (run_remove sl x) by exact Hx. unfold closed. rewrite Hxi. do 2 f_equal.
    unfold set_conns. cbn. rewrite alter_insert. reflexivity. }
  assert (HN : forall t : st, t = set_byID (fun b => b) t) by (intros []; reflexivity).
  unfold on_wire in *. unfold broken. destruct (cn_open k) eqn:Ho; cbn [negb orb andb].
  - destruct w as [[n er]|]; [|cbn [fst snd run ret]; f_equal; apply HN].
    destruct er; try (cbn [fst snd run ret negb andb]; f_equal; apply HN); cbn [fst snd]; rewrite HB; reflexivity.
  - cbn [fst snd]. rewrite HB. reflexivity.
Qed.
Lemma send_unencodable e s i m w sl x k er : st_byID s !! i = Some sl -> st_sess s !! sl = Some x ->
  st_conns s !! ss_conn x = Some k -> encodePacket (e_o e) m = Err er -> er <> ErrClosedPipe -> er <> ErrNetClosed ->
  run (serverSend e i m w) s = (Ok tt, s).
Proof.
  intros Hi Hx Hk Hf H1 H2. unfold serverSend. rewrite run_bind. unfold getSession, rd1. cbn [run ret]. rewrite Hi.
  rewrite run_bind. unfold readSess. cbn [run]. rewrite Hx. cbn [run ret]. rewrite run_bindR.
  unfold processConnWrite. rewrite run_bind. cbn [lift run]. rewrite Hf. cbn [fst snd].
  destruct er; try reflexivity; contradiction.
Qed.
