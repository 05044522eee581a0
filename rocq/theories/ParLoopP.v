(** Parameter requests over HTTP, carried out by a terminal that runs the client (C138) *)
From Coq Require Import Sorted String.
From stdpp Require Import gmap.
From Flocq Require Import IEEE754.Bits.
From Verif Require Import Base HexM TimeM HashM HeaderM ParamsM GeoM MsgM PacketM FrameM ProgM ProgP RingM SpecRing
  StateM ProcM ServerM ClientM ConcM SpecState SpecCodec SpecAnswer SpecCmd SpecGen SpecParLoop HexP HeaderP FrameP MsgP CodecP CodecP3 StateP ProcP
  ServerP ParamsP EffectP ReplyP HandshakeP CmdP DatagenP FleetP AnswerP LinkP CmdOrderP GenP.
Local Open Scope N_scope.

(** * Frames *)
(** the header of a message between the platform and the terminal [ph] of version 2013 *)
Definition lhdr (ph : str) (id sn : N) : header := mkHeader id (mkAttr 0 0 0 0 0 EncNone false V2013) 0 ph sn None.
Lemma lhdr_wf ph id sn : digits ph = true -> length ph = 12%nat -> id < 65536 -> sn < 65536 -> hdr_wf (lhdr ph id sn).
Proof. intros. unfold hdr_wf, attr_wf, lhdr. cbn. repeat split; auto; lia. Qed.
Lemma order_get o d ph sn : d_phone d = ph -> d_ver d <> V2019 ->
  encodePacket o (order_for d RGet sn) = encodePacket o (mkMsg (lhdr ph 0x8104 sn) B8104).
Proof. intros <- Hv. cbn [order_for]. unfold platform_msg. destruct (d_ver d); [reflexivity..|congruence]. Qed.
Lemma order_put o d ph sn bad ps : d_phone d = ph -> d_ver d <> V2019 ->
  encodePacket o (order_for d (RPut bad ps) sn) = encodePacket o (mkMsg (lhdr ph 0x8103 sn) (B8103 0 (Some ps))).
Proof. intros <- Hv. cbn [order_for]. unfold platform_msg. destruct (d_ver d); [reflexivity..|congruence]. Qed.
Lemma query_delivered o h : hdr_wf h -> delivered o h B8104 B8104.
Proof. intros. send_body; cbn [length app U16]; lia. Qed.
Lemma reads_says o f ph id sn b : reads o f (lhdr ph id sn) b -> says o f ph id sn b.
Proof. intros (p & n & Dc & Hh & M). exists p. rewrite Hh. repeat (split; [try exact Dc; reflexivity|]). rewrite <- Hh. exact M. Qed.

(** * One message read by the terminal *)
Lemma answer_lhdr o p ph a id sn n b m : answers p id b m -> pk_hdr p = with_len (lhdr ph a sn) n ->
  encodePacket o m = encodePacket o (mkMsg (lhdr ph id sn) b).
Proof. intros -> Hh. rewrite Hh. rewrite <- (encode_len o (lhdr ph id sn) n b). reflexivity. Qed.

Section Cli.
Context (ec : env) (c : st) (ph : str) (sl : nat) (x : session) (k : conn).
Context (Hx : st_sess c !! sl = Some x) (Hk : st_conns c !! ss_conn x = Some k) (Ho : cn_open k = true).
Notation ans := (answered c ph (ss_conn x)).
Lemma ans_sess t out : st_sess (ans t out) !! sl = Some x. Proof. exact Hx. Qed.
Lemma ans_conn t out : st_conns (ans t out) !! ss_conn x = Some (mkConn true out).
Proof. unfold answered, set_params, set_conns. cbn [st_conns]. apply lookup_insert. Qed.
Lemma ans_params t out : st_params (ans t out) !! ph = t.
Proof. unfold answered, set_params. cbn [st_params]. apply lookup_partial_alter. Qed.
Lemma ans_more t out t' g : with_out (ss_conn x) (mkConn true out) g (set_params (<[ph := t']>) (ans t out)) = ans (Some t') (out ++ [g]).
Proof.
  unfold with_out, answered, set_params, set_conns. cbn [st_sess st_conns st_devs st_byPlate st_byPhone st_rings st_geo st_params st_segs st_byID st_jobs st_clock cn_out].
  rewrite insert_insert. unfold insert at 1, map_insert. rewrite <- partial_alter_compose. reflexivity.
Qed.
Lemma ans_same t out g : with_out (ss_conn x) (mkConn true out) g (ans t out) = ans t (out ++ [g]).
Proof.
  unfold with_out, answered, set_params, set_conns. cbn [st_sess st_conns st_devs st_byPlate st_byPhone st_rings st_geo st_params st_segs st_byID st_jobs st_clock cn_out].
  rewrite insert_insert. reflexivity.
Qed.
Lemma ans_start : c = ans (st_params c !! ph) (cn_out k).
Proof.
  unfold answered, set_params, set_conns. cbn [st_sess st_conns st_devs st_byPlate st_byPhone st_rings st_geo st_params st_segs st_byID st_jobs st_clock].
  assert (E : partial_alter (fun _ => st_params c !! ph) ph (st_params c) = st_params c).
  { apply map_eq. intros i. destruct (decide (i = ph)) as [->|N]; [apply lookup_partial_alter|apply lookup_partial_alter_ne; congruence]. }
  rewrite E, insert_id by (destruct k; cbn in Ho; rewrite Ho in Hk; exact Hk). destruct c; reflexivity.
Qed.

(** the terminal reads a frame *)
Lemma cli_put t out f sn ps : (forall d, t = Some d -> dp_phone d = ph) -> digits ph = true -> length ph = 12%nat -> sn < 65536 ->
  dp_phone ps = ph -> reads (e_o ec) f (lhdr ph 0x8103 sn) (B8103 (dp_cnt ps) (Some ps)) ->
  exists g t1, run (clientLoop ec sl [(Ok f, None)]) (ans t out) = (Ok false, ans (Some t1) (out ++ [g]))
    /\ t1 = match t with None => ps | Some old => paramsUpdate old ps end
    /\ reads (e_o ec) g (lhdr ph 0x0001 sn) (B0001 sn 0x8103 0).
Proof.
  intros Ht Hd Hl Hs Hp (p & n & Dc & Hh & M).
  destruct (reads_carries ec (ans t out) f _ _ p n Dc Hh M eq_refl) as (Cr & Fr).
  assert (Ph : h_phone (pk_hdr p) = ph) by (rewrite Hh; reflexivity).
  set (t1 := match t with None => ps | Some old => paramsUpdate old ps end).
  assert (P1 : dp_phone t1 = ph) by (unfold t1; destruct t as [old|]; [exact (Ht old eq_refl)|exact Hp]).
  assert (R : exists m, run (process ec sl p) (ans t out) = (Ok (Some m), set_params (<[ph := t1]>) (ans t out))
    /\ answers p 0x0001 (B0001 sn 0x8103 0) m).
  { erewrite process_carries; [|exact Cr|reflexivity|reflexivity]. unfold handler. cbn [m_body]. rewrite run_8103. cbn [m_hdr].
    rewrite Ph, ans_params. fold t1. rewrite P1. eexists. split; [reflexivity|]. cbn. unfold answers. rewrite Hh. reflexivity. }
  destruct R as (m & R & Ha).
  destruct (delivered_reads _ _ _ _ (proj1 (reply_delivered (e_o ec) _ sn 0x8103 0 (lhdr_wf ph 0x0001 sn Hd Hl eq_refl Hs) Hs eq_refl)) eq_refl) as (g & Eg & Rg).
  exists g, t1. split; [|split; [reflexivity|exact Rg]].
  rewrite (client_reply ec sl (ans t out) x (mkConn true out) f p m _ g (ans_sess t out) Dc Fr R).
  - rewrite ans_more. reflexivity.
  - apply ans_conn.
  - reflexivity.
  - rewrite (answer_lhdr _ _ _ _ _ _ _ _ _ Ha Hh). exact Eg.
Qed.
Lemma cli_get t out f sn w tb' : digits ph = true -> length ph = 12%nat -> sn < 65536 ->
  params_sent (e_o ec) (table_or_default (e_o ec) ph t) w tb' -> dp_phone tb' = ph -> (length w < 1022)%nat ->
  reads (e_o ec) f (lhdr ph 0x8104 sn) B8104 ->
  exists g, run (clientLoop ec sl [(Ok f, None)]) (ans t out) = (Ok false, ans (Some (table_or_default (e_o ec) ph t)) (out ++ [g]))
    /\ reads (e_o ec) g (lhdr ph 0x0104 sn) (B0104 sn (dp_cnt tb') (Some tb')).
Proof.
  intros Hd Hl Hs Hw Hp Hlw (p & n & Dc & Hh & M).
  destruct (reads_carries ec (ans t out) f _ _ p n Dc Hh M eq_refl) as (Cr & Fr). cbn [h_id lhdr] in Cr.
  assert (Ph : h_phone (pk_hdr p) = ph) by (rewrite Hh; reflexivity).
  assert (Sn : h_sn (pk_hdr p) = sn) by (rewrite Hh; reflexivity).
  set (tb := table_or_default (e_o ec) ph t) in *.
  assert (R : exists m s1, run (process ec sl p) (ans t out) = (Ok (Some m), s1)
    /\ answers p 0x0104 (B0104 sn 0 (Some tb)) m /\ st_conns s1 !! ss_conn x = Some (mkConn true out)
    /\ forall g, with_out (ss_conn x) (mkConn true out) g s1 = ans (Some tb) (out ++ [g])).
  { destruct t as [d|] eqn:Et.
    - destruct (params_query ec sl (ans (Some d) out) p d Cr) as (m & R & Ha); [rewrite Ph; apply ans_params|].
      rewrite Sn in Ha. exists m, (ans (Some d) out). split; [exact R|]. split; [exact Ha|]. split; [apply ans_conn|]. intros g. apply ans_same.
    - destruct (defaults_answer ec sl (ans None out) p Cr) as (m & last & R & Ha & ->); [rewrite Ph; apply ans_params|].
      rewrite Ph, Sn in *. exists m. eexists. split; [exact R|]. split; [exact Ha|]. split; [apply ans_conn|]. intros g. apply ans_more. }
  destruct R as (m & s1 & R & Ha & Cn & Wo).
  pose proof (proj2 (params_delivered (e_o ec) _ sn 0 tb w tb' (lhdr_wf ph 0x0104 sn Hd Hl eq_refl Hs) Hs Hw Hp Hlw)) as Dl.
  destruct (delivered_reads _ _ _ _ Dl eq_refl) as (g & Eg & Rg).
  exists g. split.
  - rewrite (client_reply ec sl (ans t out) x (mkConn true out) f p m _ g (ans_sess t out) Dc Fr R Cn eq_refl).
    + rewrite Wo. reflexivity.
    + rewrite (answer_lhdr _ _ _ _ _ _ _ _ _ Ha Hh). exact Eg.
  - destruct Hw as (_ & _ & Hc & _). rewrite Hc. exact Rg.
Qed.
End Cli.

(** * The server reads the answer *)
Lemma serve_silent e sl s x f p : st_sess s !! sl = Some x ->
  decodePacket (e_o e) f = Ok p -> isFragmented (pk_hdr p) = false -> run (process e sl p) s = (Ok None, s) ->
  run (serveLoop e sl [(Ok f, None)]) s = (Ok false, s).
Proof.
  intros Hx Hd Hf Hp. cbn [serveLoop]. rewrite run_bindR. unfold serveOne. rewrite run_bind. cbn [readSess run].
  rewrite Hx. cbn [run ret]. rewrite run_bindR, run_read. unfold frameOut. rewrite run_bind. cbn [lift run].
  rewrite run_bind. unfold decodeP. rewrite run_bind. cbn [lift run]. rewrite Hd, Hf. cbn [run ret].
  rewrite Hp. reflexivity.
Qed.
Lemma serve_answer e sl s x f ph id sn b : st_sess s !! sl = Some x -> reads (e_o e) f (lhdr ph id sn) b ->
  lookupN optionTable id = Some (kind_of b, None) -> (match b with B8001 _ _ _ => False | _ => True end) ->
  run (serveLoop e sl [(Ok f, None)]) s = (Ok false, s).
Proof.
  intros Hx (p & n & Dc & Hh & M) Ho Hb. destruct (reads_carries e s f _ _ p n Dc Hh M eq_refl) as ((Hid & _ & Md) & Fr). cbn [h_id lhdr] in Hid.
  apply (serve_silent e sl s x f p Hx Dc Fr). rewrite run_process, Hid, Ho, Fr. cbn [andb]. rewrite Md. cbn [m_body].
  destruct b; try reflexivity. destruct Hb.
Qed.

(** * The merged table is determined *)
Lemma sorted_ext (l1 : list param) : forall l2, StronglySorted (fun a b => p_id a < p_id b) l1 -> StronglySorted (fun a b => p_id a < p_id b) l2 ->
  (forall id, find (fun q => p_id q =? id) l1 = find (fun q => p_id q =? id) l2) -> l1 = l2.
Proof.
  assert (Hno : forall (a : param) l, Forall (fun b => p_id a < p_id b) l -> forall id, id <= p_id a -> find (fun q => p_id q =? id) l = None).
  { intros a l F id Hid. induction F as [|b l Hb F IH]; [reflexivity|]. cbn [find]. destruct (N.eqb_spec (p_id b) id); [lia|exact IH]. }
  induction l1 as [|a l1 IH]; intros [|b l2] S1 S2 H; [reflexivity| | |].
  - specialize (H (p_id b)). cbn [find] in H. rewrite N.eqb_refl in H. discriminate H.
  - specialize (H (p_id a)). cbn [find] in H. rewrite N.eqb_refl in H. discriminate H.
  - inversion S1 as [|? ? S1' F1]. inversion S2 as [|? ? S2' F2]. subst.
    pose proof (H (p_id a)) as Ha. pose proof (H (p_id b)) as Hb. cbn [find] in Ha, Hb. rewrite N.eqb_refl in Ha, Hb.
    assert (Eid : p_id b = p_id a).
    { destruct (N.eqb_spec (p_id b) (p_id a)) as [E|N1]; [exact E|]. destruct (N.eqb_spec (p_id a) (p_id b)) as [E|N2]; [congruence|].
      destruct (N.lt_total (p_id a) (p_id b)) as [L|[L|L]]; [|congruence|].
      - rewrite (Hno b l2 F2) in Ha by lia. discriminate Ha.
      - rewrite (Hno a l1 F1) in Hb by lia. discriminate Hb. }
    rewrite Eid, N.eqb_refl in Ha. injection Ha as <-. f_equal. apply IH; [exact S1'|exact S2'|].
    intros id. specialize (H id). cbn [find] in H. destruct (N.eqb_spec (p_id a) id) as [Ei|_]; [|exact H].
    rewrite (Hno a l1 F1), (Hno a l2 F2) by lia. reflexivity.
Qed.
Lemma merged_update old new t : merged old new t -> t = paramsUpdate old new.
Proof.
  intros (Hp & Hc & Hs & Hv). destruct (paramsUpdate_spec old new) as (Up & Uc & Us & _). cbv zeta in *.
  pose proof (fun id => update_value old new id) as Uv.
  assert (L : dp_list t = dp_list (paramsUpdate old new)).
  { apply sorted_ext; [exact Hs|exact Us|]. intros id. rewrite <- (find_sorted _ id Hs), <- (find_sorted _ id Us).
    change (value_of t id = value_of (paramsUpdate old new) id). rewrite Hv, Uv. destruct (value_of old id); [|reflexivity]. destruct (value_of new id); reflexivity. }
  destruct t as [tp tc tl], (paramsUpdate old new) as [up uc ul]. cbn in *. congruence.
Qed.
Lemma update_merged old new : merged old new (paramsUpdate old new).
Proof.
  destruct (paramsUpdate_spec old new) as (Up & Uc & Us & _). cbv zeta in *. split; [exact Up|]. split; [exact Uc|]. split; [exact Us|].
  intros id. rewrite update_value. destruct (value_of old id); [|reflexivity]. destruct (value_of new id); reflexivity.
Qed.

(** * Both processes *)
Lemma written_one cn (s s' : st) k o f : st_conns s !! cn = Some (mkConn k o) -> st_conns s' !! cn = Some (mkConn k (o ++ [f])) -> written cn s s' = [f].
Proof. intros H H'. unfold written. rewrite H, H'. cbn [cn_out]. rewrite skipn_app, skipn_all, Nat.sub_diag. reflexivity. Qed.
Lemma serials_cons sn n : sn < 65536 -> serials sn (S n) = (sn + 1) mod 65536 :: serials ((sn + 1) mod 65536) n.
Proof.
  intros H. unfold serials. cbn [seq List.map]. rewrite N.add_0_r. f_equal. rewrite <- seq_shift, map_map. apply map_ext. intros j.
  replace ((sn + 1) mod 65536 + 1 + N.of_nat j) with ((sn + 1) mod 65536 + (1 + N.of_nat j)) by lia.
  rewrite N.add_mod_idemp_l by lia. f_equal. lia.
Qed.
Section Loop.
Context (e ec : env) (s c : st) (ph : str) (d : device) (l sl slc : nat) (x xc : session).
Context (Hl : st_byPhone s !! ph = Some l) (Hdv : st_devs s !! l = Some d) (Hi : st_byID s !! d_sid d = Some sl) (Hid : ss_id x = d_sid d).
Context (Hph : d_phone d = ph) (Hv : d_ver d <> V2019) (Hdg : digits ph = true) (Hln : length ph = 12%nat) (He : e_o ec = e_o e).
Context (Hxc : st_sess c !! slc = Some xc).
Let n := mkEnds sl (ss_conn x) slc (ss_conn xc).
Notation srv := (ordered s sl x).
Notation cli := (answered c ph (ss_conn xc)).

Lemma request_run r sn out : sendable e r -> sn <= 65535 ->
  run (code e (handling ph r)) (srv sn out) = (Ok tt, srv ((sn + 1) mod 65536) (out ++ [frame_for e d r ((sn + 1) mod 65536)])).
Proof. intros Hr Hsn. exact (run_asks s sl x _ _ (request_asks e s ph l d sl x Hl Hdv Hi Hid r Hr) sn out Hsn). Qed.

Lemma ex_put t out outc sn bad ps w ps' t1 : (forall q, t = Some q -> dp_phone q = ph) -> sn <= 65535 ->
  params_sent (e_o e) ps w ps' -> dp_phone ps' = ph -> (length w < 1022)%nat -> after_put t ps' t1 ->
  let sn' := (sn + 1) mod 65536 in
  exists f g, exchange e ec ph n (RPut bad ps) (srv sn out) (cli t outc) = ((srv sn' (out ++ [f]), cli (Some t1) (outc ++ [g])), ([f], [g], true))
    /\ encodePacket (e_o e) (order_for d (RPut bad ps) sn') = Ok f /\ reports_back (e_o e) ph None sn' g /\ dp_phone t1 = ph.
Proof.
  intros Ht Hsn Hw Hp Hlw Ha sn'. assert (Hs' : sn' < 65536) by (apply N.mod_lt; lia).
  assert (Hr : sendable e (RPut bad ps)) by (exists w; exact (proj1 (params_coded _ _ _ _ Hw))).
  pose proof (frame_ok e d (RPut bad ps) sn' Hr) as Ef. set (f := frame_for e d (RPut bad ps) sn') in *.
  pose proof (proj1 (params_delivered (e_o e) _ 0 0 ps w ps' (lhdr_wf ph 0x8103 sn' Hdg Hln eq_refl Hs') eq_refl Hw Hp Hlw)) as Dl.
  destruct (delivered_reads _ _ _ _ Dl eq_refl) as (f' & Ef' & Rf). rewrite <- (order_put (e_o e) d ph sn' bad ps Hph Hv), Ef in Ef'. injection Ef' as <-.
  assert (Hc : dp_cnt ps = dp_cnt ps') by (destruct Hw as (_ & _ & -> & _); reflexivity). rewrite Hc in Rf.
  rewrite <- He in Rf.
  destruct (cli_put ec c ph slc xc Hxc t outc f sn' ps' Ht Hdg Hln Hs' Hp Rf) as (g & t2 & Rc & E2 & Rg).
  assert (t2 = t1).
  { rewrite E2. destruct t as [old|]; cbn [after_put] in Ha; [symmetry; apply merged_update; exact Ha|congruence]. }
  rewrite H in Rc, E2. rewrite He in Rg.
  exists f, g. split; [|split; [exact Ef|split; [exact (reads_says _ _ _ _ _ _ Rg)|]]].
  - unfold exchange. rewrite (request_run _ sn out Hr Hsn). cbn [snd]. fold sn' f. cbn [en_sl en_cn en_slc en_cnc n].
    rewrite (written_one (ss_conn x) _ _ true out f (at_conn s sl x sn out) (at_conn s sl x sn' (out ++ [f]))).
    cbn [received List.map]. rewrite Rc. cbn [fst snd].
    rewrite (written_one (ss_conn xc) _ _ true outc g (ans_conn c ph xc _ outc) (ans_conn c ph xc _ (outc ++ [g]))). cbn [received List.map].
    rewrite (serve_answer e sl _ _ g ph 0x0001 sn' _ (at_sess s sl x sn' (out ++ [f])) Rg eq_refl I). reflexivity.
  - rewrite E2. destruct t as [old|]; [exact (Ht old eq_refl)|exact Hp].
Qed.
Lemma ex_get t out outc sn w tb' : sn <= 65535 ->
  params_sent (e_o e) (table_or_default (e_o e) ph t) w tb' -> dp_phone tb' = ph -> (length w < 1022)%nat ->
  let sn' := (sn + 1) mod 65536 in
  exists f g, exchange e ec ph n RGet (srv sn out) (cli t outc)
      = ((srv sn' (out ++ [f]), cli (Some (table_or_default (e_o e) ph t)) (outc ++ [g])), ([f], [g], true))
    /\ encodePacket (e_o e) (order_for d RGet sn') = Ok f /\ reports_back (e_o e) ph (Some tb') sn' g.
Proof.
  intros Hsn Hw Hp Hlw sn'. assert (Hs' : sn' < 65536) by (apply N.mod_lt; lia).
  pose proof (frame_ok e d RGet sn' I) as Ef. set (f := frame_for e d RGet sn') in *.
  destruct (delivered_reads _ _ _ _ (query_delivered (e_o e) _ (lhdr_wf ph 0x8104 sn' Hdg Hln eq_refl Hs')) eq_refl) as (f' & Ef' & Rf).
  rewrite <- (order_get (e_o e) d ph sn' Hph Hv), Ef in Ef'. injection Ef' as <-. 
  rewrite <- He in Hw, Rf.
  destruct (cli_get ec c ph slc xc Hxc t outc f sn' w tb' Hdg Hln Hs' Hw Hp Hlw Rf) as (g & Rc & Rg).
  rewrite He in Rg, Rc.
  exists f, g. split; [|split; [exact Ef|exact (reads_says _ _ _ _ _ _ Rg)]].
  unfold exchange. rewrite (request_run RGet sn out I Hsn). cbn [snd]. fold sn' f. cbn [en_sl en_cn en_slc en_cnc n].
  rewrite (written_one (ss_conn x) _ _ true out f (at_conn s sl x sn out) (at_conn s sl x sn' (out ++ [f]))).
  cbn [received List.map]. rewrite Rc. cbn [fst snd].
  rewrite (written_one (ss_conn xc) _ _ true outc g (ans_conn c ph xc _ outc) (ans_conn c ph xc _ (outc ++ [g]))). cbn [received List.map].
  rewrite (serve_answer e sl _ _ g ph 0x0104 sn' _ (at_sess s sl x sn' (out ++ [f])) Rg eq_refl I). reflexivity.
Qed.

Lemma ex_all t reqs ans t' : talk (e_o e) ph t reqs ans t' -> (forall q, t = Some q -> dp_phone q = ph) ->
  forall sn out outc, sn <= 65535 -> exists fl gl,
    exchanges e ec ph n reqs (srv sn out) (cli t outc)
      = ((srv ((sn + N.of_nat (length reqs)) mod 65536) (out ++ fl), cli t' (outc ++ gl)),
         List.map (fun p => ([fst p], [snd p], true)) (combine fl gl))
    /\ Forall2 (fun o f => encodePacket (e_o e) (order_for d (fst o) (snd o)) = Ok f) (combine reqs (serials sn (length reqs))) fl
    /\ Forall2 (fun o g => reports_back (e_o e) ph (fst o) (snd o) g) (combine ans (serials sn (length reqs))) gl
    /\ length fl = length reqs /\ length gl = length reqs.
Proof.
  induction 1 as [t|t bad ps w ps' t1 rs ans t' Hw Hp Hlw Ha T IH|t w tb' rs ans t' Hw Hp Hlw T IH]; intros Ht sn out outc Hsn.
  - exists [], []. cbn. rewrite !app_nil_r, N.add_0_r, N.mod_small by lia. repeat split; constructor.
  - destruct (ex_put t out outc sn bad ps w ps' t1 Ht Hsn Hw Hp Hlw Ha) as (f & g & E & Ef & Rg & Ph1).
    assert (Hm : (sn + 1) mod 65536 < 65536) by (apply N.mod_lt; lia).
    destruct (IH ltac:(intros q [= <-]; exact Ph1) ((sn + 1) mod 65536) (out ++ [f]) (outc ++ [g]) ltac:(lia)) as (fl & gl & E' & F & G & Lf & Lg).
    exists (f :: fl), (g :: gl). split; [|split; [|split; [|cbn [length]; lia]]].
    + cbn [exchanges]. rewrite E. cbn [fst snd]. rewrite E'. cbn [fst snd combine List.map length].
      rewrite <- !app_assoc. do 3 f_equal. rewrite N.add_mod_idemp_l by lia. f_equal. lia.
    + cbn [length]. rewrite serials_cons by lia. cbn [combine]. constructor; [exact Ef|exact F].
    + cbn [length]. rewrite serials_cons by lia. cbn [combine]. constructor; [exact Rg|exact G].
  - destruct (ex_get t out outc sn w tb' Hsn Hw Hp Hlw) as (f & g & E & Ef & Rg).
    assert (Hm : (sn + 1) mod 65536 < 65536) by (apply N.mod_lt; lia).
    destruct (IH ltac:(intros q [= <-]; destruct t as [q'|]; [exact (Ht q' eq_refl)|reflexivity]) ((sn + 1) mod 65536) (out ++ [f]) (outc ++ [g]) ltac:(lia)) as (fl & gl & E' & F & G & Lf & Lg).
    exists (f :: fl), (g :: gl). split; [|split; [|split; [|cbn [length]; lia]]].
    + cbn [exchanges]. rewrite E. cbn [fst snd]. rewrite E'. cbn [fst snd combine List.map length].
      rewrite <- !app_assoc. do 3 f_equal. rewrite N.add_mod_idemp_l by lia. f_equal. lia.
    + cbn [length]. rewrite serials_cons by lia. cbn [combine]. constructor; [exact Ef|exact F].
    + cbn [length]. rewrite serials_cons by lia. cbn [combine]. constructor; [exact Rg|exact G].
Qed.
End Loop.

Section Whole.
Context (e ec : env) (s c : st) (ph : str) (d : device) (x xc : session) (k kc : conn) (slc : nat).
Context (C : consistent s) (Hd : devAt s ph = Some d) (Hx : sessAt s (d_sid d) = Some x)
  (Hk : st_conns s !! ss_conn x = Some k) (Ho : cn_open k = true) (He : e_o ec = e_o e)
  (Hxc : st_sess c !! slc = Some xc) (Hkc : st_conns c !! ss_conn xc = Some kc) (Hoc : cn_open kc = true).
Lemma dev_phone : d_phone d = ph.
Proof.
  unfold devAt in Hd. destruct (st_byPhone s !! ph) as [l|] eqn:El; [|discriminate].
  destruct (cs_phone s C ph l El) as (d' & Hd' & Hp & _). congruence.
Qed.
Lemma params_loop reqs ans t' : d_ver d <> V2019 -> digits ph = true -> length ph = 12%nat ->
  (forall q, st_params c !! ph = Some q -> dp_phone q = ph) ->
  talk (e_o e) ph (st_params c !! ph) reqs ans t' ->
  exists sl fl gl, st_byID s !! d_sid d = Some sl
    /\ exchanges e ec ph (mkEnds sl (ss_conn x) slc (ss_conn xc)) reqs s c
       = ((ordered s sl x ((ss_sn x + N.of_nat (length reqs)) mod 65536) (cn_out k ++ fl), answered c ph (ss_conn xc) t' (cn_out kc ++ gl)),
          List.map (fun p => ([fst p], [snd p], true)) (combine fl gl))
    /\ Forall2 (fun o f => encodePacket (e_o e) (order_for d (fst o) (snd o)) = Ok f) (combine reqs (serials (ss_sn x) (length reqs))) fl
    /\ Forall2 (fun o g => reports_back (e_o e) ph (fst o) (snd o) g) (combine ans (serials (ss_sn x) (length reqs))) gl
    /\ length fl = length reqs /\ length gl = length reqs.
Proof.
  intros Hv Hdg Hln Ht T. destruct (placed_dev s ph d x k C Hd Hx Hk Ho) as (l & sl & Hl & Hdv & Hi & Hid & Hsn & Es).
  destruct (ex_all e ec s c ph d l sl slc x xc Hl Hdv Hi Hid dev_phone Hv Hdg Hln He Hxc _ reqs ans t' T Ht (ss_sn x) (cn_out k) (cn_out kc) Hsn)
    as (fl & gl & E & F). rewrite <- Es, <- (ans_start c ph slc xc kc Hxc Hkc Hoc) in E.
  exists sl, fl, gl. split; [exact Hi|]. split; [exact E|exact F].
Qed.
(** for a device of version 2019 the query stops the terminal *)
Lemma query_2019 : d_ver d = V2019 -> digits ph = true -> length ph = 20%nat ->
  exists sl f, let sn := (ss_sn x + 1) mod 65536 in st_byID s !! d_sid d = Some sl
    /\ encodePacket (e_o e) (order_for d RGet sn) = Ok f
    /\ run (clientLoop ec slc [(Ok f, None)]) c = (Panic, c)
    /\ exchange e ec ph (mkEnds sl (ss_conn x) slc (ss_conn xc)) RGet s c = ((ordered s sl x sn (cn_out k ++ [f]), c), ([f], [], false)).
Proof.
  intros Hv Hdg Hln. destruct (placed_dev s ph d x k C Hd Hx Hk Ho) as (l & sl & Hl & Hdv & Hi & Hid & Hsn & Es).
  set (sn := (ss_sn x + 1) mod 65536). pose proof (frame_ok e d RGet sn I) as Ef. set (f := frame_for e d RGet sn) in *.
  exists sl, f. cbv zeta. split; [exact Hi|]. split; [exact Ef|].
  assert (Dc : decodePacket (e_o e) f = Panic).
  { cbn [order_for] in Ef. rewrite <- platform_cmd, Hv in Ef. pose proof dev_phone as Hp. rewrite <- Hp in Hdg, Hln.
    destruct (gen2019_empty_panics (e_o e) (d_proto d) (d_phone d) 0x8104 sn B8104 Hdg Hln eq_refl) as (f' & Ef' & Df). congruence. }
  assert (Rc : run (clientLoop ec slc [(Ok f, None)]) c = (Panic, c)).
  { cbn [clientLoop]. rewrite run_bind. unfold readSess. cbn [run]. rewrite Hxc. cbn [run ret].
    rewrite run_bindR. unfold processConnRead. rewrite run_bind. cbn [lift run]. rewrite run_bind. unfold decodeP. rewrite run_bind. cbn [lift run].
    rewrite He, Dc. reflexivity. }
  split; [exact Rc|]. unfold exchange. cbn [en_sl en_cn en_slc en_cnc].
  pose proof (request_run e s ph d l sl x Hl Hdv Hi Hid RGet (ss_sn x) (cn_out k) I Hsn) as Rr. rewrite <- Es in Rr. rewrite Rr. cbn [snd].
  fold sn f. rewrite (written_one (ss_conn x) s _ true (cn_out k) f); [|destruct k; cbn in Ho; rewrite Ho in Hk; exact Hk|apply at_conn].
  cbn [received List.map]. rewrite Rc. cbn [fst snd]. unfold written. rewrite Hkc, skipn_all. reflexivity.
Qed.
(** and the setting is acknowledged without any effect *)
Lemma put_2019 bad ps n v : d_ver d = V2019 -> digits ph = true -> length ph = 20%nat ->
  (forall q t, st_params c !! q = Some t -> dp_phone t = q) ->
  paramsEncode (e_o e) ps = Ok (n :: 0 :: v) -> n < 256 -> (length v < 1022)%nat ->
  exists sl f g c1 h, let sn := (ss_sn x + 1) mod 65536 in st_byID s !! d_sid d = Some sl
    /\ run (code e (handling ph (RPut bad ps))) s = (Ok tt, ordered s sl x sn (cn_out k ++ [f]))
    /\ run (clientLoop ec slc [(Ok f, None)]) c = (Ok false, c1)
    /\ st_conns c1 = <[ss_conn xc := mkConn true (cn_out kc ++ [g])]> (st_conns c)
    /\ encodePacket (e_o e) (mkMsg h (B0001 (sn mod 256 * 256 + n) 0x8103 0)) = Ok g
    /\ h_id h = 0x0001 /\ h_phone h = shifted ph (sn / 256)
    /\ forall q id, kept_value c1 q id = kept_value c q id.
Proof.
  intros Hv Hdg Hln Hcp Hps Hn Hlv. destruct (placed_dev s ph d x k C Hd Hx Hk Ho) as (l & sl & Hl & Hdv & Hi & Hid & Hsn & Es).
  set (sn := (ss_sn x + 1) mod 65536). assert (Hs : sn < 65536) by (apply N.mod_lt; lia).
  assert (Hr : sendable e (RPut bad ps)) by (eexists; exact Hps).
  pose proof (frame_ok e d (RPut bad ps) sn Hr) as Ef. set (f := frame_for e d (RPut bad ps) sn) in *.
  assert (R : exists p, decodePacket (e_o e) f = Ok p
    /\ pk_hdr p = mkHeader 0x8103 (mkAttr (N.of_nat (length (n :: 0 :: v))) 0 0 1 0 EncNone false V2019) (h_proto (pk_hdr p)) (shifted ph (sn / 256)) (sn mod 256 * 256 + n) None
    /\ sl_data (pk_body p) = 0 :: v).
  { cbn [order_for] in Ef. rewrite <- platform_cmd, Hv, dev_phone in Ef. destruct ph as [|c1 [|c2 rest]]; [discriminate Hln..|].
    destruct (gen2019_read (e_o e) (d_proto d) c1 c2 rest 0x8103 sn (B8103 0 (Some ps)) n (0 :: v) Hdg ltac:(cbn in Hln; lia) eq_refl Hs Hps Hn ltac:(cbn; lia))
      as (f' & p & Ef' & Dp & Hh & Hb). assert (f' = f) by congruence. subst f'. exists p. split; [exact Dp|]. split; [|exact Hb]. rewrite Hh. reflexivity. }
  destruct R as (p & Dp & Hh & Hb). set (q0 := shifted ph (sn / 256)) in *.
  set (ps0 := mkParams q0 0 []).
  assert (Cr : carries ec c p 0x8103 (B8103 0 (Some ps0))).
  { split; [rewrite Hh; reflexivity|]. split; [left; rewrite Hh; reflexivity|]. cbn [kind_of]. rewrite He. unfold msgDecode.
    destruct (pk_body p) as [bd sp]. cbn [sl_data] in Hb. subst bd. cbn [decBody]. 
    assert (Eb : exists j, decBody (e_o e) (e_civil ec (st_clock c)) K8103 (pk_hdr p) (mkSlice (0 :: v) sp) O = Ok (B8103 0 (Some ps0), j)).
    { eexists. cbn [decBody]. unfold ReadByte, rd_bind, rd_rest, rd_lift, rd_ret, sl_from, sl_len. cbn. rewrite Hh. reflexivity. }
    destruct Eb as (j & Eb). cbn [decBody] in Eb. rewrite Eb. reflexivity. }
  assert (Ph : h_phone (pk_hdr p) = q0) by (rewrite Hh; reflexivity).
  set (t1 := match st_params c !! q0 with None => ps0 | Some old => paramsUpdate old ps0 end).
  assert (P1 : dp_phone t1 = q0) by (unfold t1; destruct (st_params c !! q0) as [old|] eqn:E; [exact (Hcp q0 old E)|reflexivity]).
  assert (R : exists m, run (process ec slc p) c = (Ok (Some m), set_params (<[q0 := t1]>) c)
    /\ answers p 0x0001 (B0001 (sn mod 256 * 256 + n) 0x8103 0) m).
  { erewrite process_carries; [|exact Cr|reflexivity|reflexivity]. unfold handler. cbn [m_body]. rewrite run_8103. cbn [m_hdr].
    rewrite Ph. fold t1. rewrite P1. eexists. split; [reflexivity|]. cbn. unfold answers. rewrite Hh. reflexivity. }
  destruct R as (m & R & Ha).
  assert (Eg : exists g, encodePacket (e_o e) m = Ok g) by (rewrite Ha; eexists; reflexivity). destruct Eg as (g & Eg).
  exists sl, f, g, (with_out (ss_conn xc) kc g (set_params (<[q0 := t1]>) c)), (m_hdr m). cbv zeta. split; [exact Hi|].
  split.
  { pose proof (request_run e s ph d l sl x Hl Hdv Hi Hid (RPut bad ps) (ss_sn x) (cn_out k) Hr Hsn) as Rr. rewrite <- Es in Rr. exact Rr. }
  split.
  { rewrite <- He in Dp, Eg. apply (client_reply ec slc c xc kc f p m _ g Hxc Dp); [rewrite Hh; reflexivity|exact R|exact Hkc|exact Hoc|exact Eg]. }
  split; [reflexivity|]. split; [rewrite Ha in Eg |- *; exact Eg|]. split; [rewrite Ha; reflexivity|]. split; [rewrite Ha; exact Ph|].
  intros q id. unfold kept_value, with_out, set_params, set_conns. cbn [st_params].
  destruct (decide (q0 = q)) as [<-|Nq]; [rewrite lookup_insert|rewrite lookup_insert_ne by exact Nq; reflexivity].
  unfold t1. destruct (st_params c !! q0) as [old|]; [|reflexivity]. rewrite update_value. destruct (value_of old id); reflexivity.
Qed.
End Whole.
