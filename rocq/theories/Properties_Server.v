(** Property theorems C17, C51-C53, C61, C64-C68, C70: connections, replies, sessions, commands
    over HTTP and the error policy, one thing at a time. *)
From Coq Require Import String.
From stdpp Require Import gmap.
From Verif Require Import Base HexM TimeM HashM HeaderM ParamsM GeoM MsgM PacketM FrameM ProgM RingM SpecRing
  StateM ProcM ServerM ClientM SpecState SpecCodec StateP ProcP ServerP EffectP ReplyP HandshakeP CmdP SessP OriginP LinkP
  ConcP ExampleData ExampleState.
Local Open Scope N_scope.
Ltac vmr := vm_compute; reflexivity.
Ltac carried := split; [vmr|split; [left; vmr|vmr]].

(** C17: the sessions with another id and all other connections are untouched; a session with
    the same id (the remote address) is unregistered too when the connection ends *)
Theorem C17_contained_partial : forall e sl ins s x, consistent s -> st_sess s !! sl = Some x ->
  exists b s', run (serveLoop e sl ins) s = (Ok b, s') /\ consistent s'
    /\ (forall c, c <> ss_conn x -> st_conns s' !! c = st_conns s !! c)
    /\ (forall i, i <> ss_id x -> st_byID s' !! i = st_byID s !! i)
    /\ (forall l, ss_id <$> st_sess s' !! l = ss_id <$> st_sess s !! l
                  /\ ss_conn <$> st_sess s' !! l = ss_conn <$> st_sess s !! l).
Proof.
  intros e sl ins s x C Hx. destruct (contained e sl ins s x C Hx) as (b & s' & H1 & H2 & H3 & H4 & H5 & _).
  exists b, s'. auto.
Qed.
Print Assumptions C17_contained_partial.
Theorem C17_refuted : forall e sl sl' s x x' k' w, consistent s -> st_sess s !! sl = Some x -> st_sess s !! sl' = Some x' ->
  sl <> sl' -> ss_id x = ss_id x' -> st_byID s !! ss_id x' = Some sl' -> st_conns s !! ss_conn x' = Some k' ->
  exists s', run (serveLoop e sl [(Err ErrEOF, w)]) s = (Ok true, s')
    /\ st_conns s' !! ss_conn x' = Some k' /\ st_byID s' !! ss_id x' = None.
Proof. exact evicted. Qed.
Print Assumptions C17_refuted.
Definition s_same : st := w_st (history e0 1000 [EAccept 0 addr1; EAccept 1 addr1]).
Example C17_ex : consistent s2 /\ st_sess s2 !! 0%nat = Some x1
  /\ consistent s_same /\ st_sess s_same !! 0%nat = Some x1 /\ st_sess s_same !! 1%nat = Some (mkSession addr1 1 0)
  /\ st_byID s_same !! addr1 = Some 1%nat /\ st_conns s_same !! 1%nat = Some (mkConn true []).
Proof.
  split; [exact s2_ok|]. split; [exact s2_x1|]. split; [exact (wo_ok _ (history_ok e0 1000 _))|].
  repeat (split; [vmr|]). vmr.
Qed.

(** C51: the header of a reply to an unfragmented message is that of the message but for the
    id; the serial number and id of the message are in the body *)
Theorem C51_reply : forall e sl s p m s', run (process e sl p) s = (Ok (Some m), s') ->
  fragment (pk_hdr p) = false \/ pk_segdone p = true ->
  m_hdr m = with_id (pk_hdr p) (h_id (m_hdr m))
  /\ match m_body m with
     | B8001 sn id r => h_id (m_hdr m) = 0x8001 /\ sn = h_sn (pk_hdr p) /\ id = h_id (pk_hdr p)
                        /\ In id [0x0002; 0x0003; 0x0102; 0x0200]
     | B8100 sn r c => h_id (m_hdr m) = 0x8100 /\ sn = h_sn (pk_hdr p) /\ h_id (pk_hdr p) = 0x0100
                       /\ (c = [65; 117; 116; 104; 67; 111; 100; 101] \/ exists id plate phone, is_code id plate phone c)
     | B0001 sn id r => h_id (m_hdr m) = 0x0001 /\ sn = h_sn (pk_hdr p) /\ id = h_id (pk_hdr p) /\ r = 0
                        /\ id = 0x8103
     | B0104 sn _ _ => h_id (m_hdr m) = 0x0104 /\ sn = h_sn (pk_hdr p) /\ h_id (pk_hdr p) = 0x8104
     | B1205 sn _ _ _ => h_id (m_hdr m) = 0x1205 /\ sn = h_sn (pk_hdr p) /\ h_id (pk_hdr p) = 0x9205
     | B0102 _ _ _ _ => h_id (m_hdr m) = 0x0102 /\ h_id (pk_hdr p) = 0x8100
     | _ => False
     end.
Proof. exact process_reply_spec. Qed.
Print Assumptions C51_reply.
(** the acknowledgement of a fragment *)
Theorem C51_fragment_reply : forall e sl s p m s', consistent s -> run (process e sl p) s = (Ok (Some m), s') ->
  fragment (pk_hdr p) = true -> pk_segdone p = false ->
  exists d x, devAt s (h_phone (pk_hdr p)) = Some d /\ d_phone d = h_phone (pk_hdr p) /\ sessAt s (d_sid d) = Some x
    /\ m = platform_msg d 0x8001 ((ss_sn x + 1) mod 65536) (B8001 (h_sn (pk_hdr p)) (h_id (pk_hdr p)) 0).
Proof. exact segment_reply. Qed.
Print Assumptions C51_fragment_reply.
Definition replied (r : res (option msg)) : bool := match r with Ok (Some _) => true | _ => false end.
Definition h_fr : header := mkHeader 0x0200 (mkAttr 0 0 1 0 0 EncNone true V2013) 0 phone12 7 (Some (mkFrag 3 2)).
Definition p_frag : packet := pk (mkMsg h_fr (B0200 loc_on)).
Example C51_ex : replied (fst (run (process e0 0 (unframe f_loc1)) s2)) = true
  /\ fragment (pk_hdr (unframe f_loc1)) = false
  /\ replied (fst (run (process e0 0 p_frag) s2)) = true
  /\ fragment (pk_hdr p_frag) = true /\ pk_segdone p_frag = false.
Proof. repeat (split; [vmr|]). vmr. Qed.

(** C52: [out] is what is written: nothing unless processing succeeds with an answer *)
Theorem C52_one_reply : forall e sl r w s x k, consistent s -> st_sess s !! sl = Some x -> st_conns s !! ss_conn x = Some k ->
  exists b s' o out, run (serveLoop e sl [(r, w)]) s = (Ok b, s')
    /\ (forall c, c <> ss_conn x -> st_conns s' !! c = st_conns s !! c)
    /\ st_conns s' !! ss_conn x = Some (mkConn o (cn_out k ++ out))
    /\ out = match fst (run (frm <- lift r ;; p <- decodeP e frm ;; process e sl p)%prog s) with
             | Ok (Some m) => match encodePacket (e_o e) m with
                              | Ok f => if cn_open k then [match w with None => f | Some (n, _) => take n f end] else []
                              | _ => []
                              end
             | _ => []
             end.
Proof. exact one_reply. Qed.
Print Assumptions C52_one_reply.
Theorem C52_replies : forall e sl ins s x k, consistent s -> st_sess s !! sl = Some x -> st_conns s !! ss_conn x = Some k ->
  exists b s' o out, run (serveLoop e sl ins) s = (Ok b, s')
    /\ (forall c, c <> ss_conn x -> st_conns s' !! c = st_conns s !! c)
    /\ st_conns s' !! ss_conn x = Some (mkConn o (cn_out k ++ out)) /\ (length out <= length ins)%nat.
Proof. exact replies. Qed.
Print Assumptions C52_replies.
Example C52_ex : consistent s2 /\ st_sess s2 !! 0%nat = Some x1
  /\ (exists k, st_conns s2 !! ss_conn x1 = Some k /\ cn_open k = true /\ length (cn_out k) = 3%nat)
  /\ (exists f, decodePacket o0 f_loc1 = Ok f).
Proof.
  split; [exact s2_ok|]. split; [exact s2_x1|]. split.
  - eexists. split; [vmr|]. split; reflexivity.
  - eexists. vmr.
Qed.

(** C53 *)
Theorem C53_ignored : forall e sl s x frm p w, st_sess s !! sl = Some x ->
  decodePacket (e_o e) frm = Ok p -> fragment (pk_hdr p) = false ->
  ~ In (h_id (pk_hdr p)) [0x0001; 0x0002; 0x0003; 0x0100; 0x0102; 0x0104; 0x0200; 0x1205;
                          0x8001; 0x8100; 0x8103; 0x8104; 0x9205] ->
  run (serveLoop e sl [(Ok frm, w)]) s = (Ok false, s).
Proof. exact unsupported_frame. Qed.
Print Assumptions C53_ignored.
Definition f_odd : bytes := frame (mkMsg (hid 0x0900) B0002).
Example C53_ex : st_sess s2 !! 0%nat = Some x1 /\ decodePacket o0 f_odd = Ok (unframe f_odd)
  /\ fragment (pk_hdr (unframe f_odd)) = false /\ h_id (pk_hdr (unframe f_odd)) = 0x0900.
Proof. split; [exact s2_x1|]. repeat (split; [vmr|]). vmr. Qed.

(** C61: while no two connections being served have the same address, every open session is
    found under its id, and every session found is being served; a session ends with its
    entry.  Accepting a connection with the address of one being served replaces its entry,
    and when the older one ends the newer one, still open, is no longer found. *)
Theorem C61_registry_partial : forall e now evs, fresh_addrs e (world0 now) evs ->
  let w := history e now evs in let s := w_st w in
  (forall l x k, l ∈ w_live w -> st_sess s !! l = Some x -> st_conns s !! ss_conn x = Some k -> cn_open k = true ->
     st_byID s !! ss_id x = Some l)
  /\ (forall l l' x x', l ∈ w_live w -> l' ∈ w_live w -> st_sess s !! l = Some x -> st_sess s !! l' = Some x' ->
        ss_id x = ss_id x' -> l = l').
Proof. exact registry. Qed.
Print Assumptions C61_registry_partial.
Theorem C61_looked_up_partial : forall e now evs i l, let w := history e now evs in st_byID (w_st w) !! i = Some l ->
  l ∈ w_live w /\ exists x, st_sess (w_st w) !! l = Some x /\ ss_id x = i.
Proof. exact looked_up. Qed.
Print Assumptions C61_looked_up_partial.
Theorem C61_accepted_partial : forall e now evs c a, let w := history e now evs in st_conns (w_st w) !! c = None ->
  let w' := history e now (evs ++ [EAccept c a]) in
  exists l, st_byID (w_st w') !! a = Some l /\ l ∈ w_live w' /\ l ∉ w_live w
    /\ st_sess (w_st w') !! l = Some (mkSession a c 0)
    /\ st_conns (w_st w') !! c = Some (mkConn true [])
    /\ forall i, i <> a -> st_byID (w_st w') !! i = st_byID (w_st w) !! i.
Proof. exact accepted. Qed.
Print Assumptions C61_accepted_partial.
Theorem C61_gone_partial : forall e sl s x k r w, consistent s -> st_sess s !! sl = Some x -> st_conns s !! ss_conn x = Some k ->
  fst (run (serveLoop e sl [(r, w)]) s) = Ok true ->
  st_byID (snd (run (serveLoop e sl [(r, w)]) s)) !! ss_id x = None
  /\ exists k', st_conns (snd (run (serveLoop e sl [(r, w)]) s)) !! ss_conn x = Some k' /\ cn_open k' = false.
Proof. exact gone. Qed.
Print Assumptions C61_gone_partial.
Theorem C61_refuted : forall e now a, exists sl sl',
  let w := history e now [EAccept 0 a; EAccept 1 a; EFrame sl (Err ErrEOF) None] in
  sl' ∈ w_live w /\ (exists x, st_sess (w_st w) !! sl' = Some x /\ ss_id x = a /\ ss_conn x = 1%nat)
  /\ st_conns (w_st w) !! 1%nat = Some (mkConn true []) /\ st_byID (w_st w) !! a = None.
Proof. exact reused. Qed.
Print Assumptions C61_refuted.
Example C61_ex : fresh_addrs e0 (world0 1000) [EAccept 0 addr1; EAccept 1 addr2; EFrame 0 (Err ErrEOF) None]
  /\ st_byID s2 !! addr1 = Some 0%nat /\ st_conns s2 !! 2%nat = None
  /\ fst (run (serveLoop e0 0 [(Err ErrEOF, None)]) s2) = Ok true.
Proof.
  split; [|repeat (split; [vmr|]); vmr]. cbn [fresh_addrs]. split; [|split; [|repeat split]].
  - intros l x Hl. cbn in Hl. set_solver.
  - intros l x Hl. assert (Hl' : l ∈ ({[0%nat]} ∪ ∅ : gset nat)) by exact Hl.
    assert (l = 0%nat) as -> by set_solver. vm_compute. intros [= <-]. discriminate.
Qed.

(** C64: after authenticating on a session with another id than the one it registered on, no
    command for the device goes there; a command goes to the session now registered under the
    id (remote address) the device registered with *)
Theorem C64_refuted : forall e sl s p al code imei sw d x, consistent s ->
  carries e s p 0x0102 (B0102 al code imei sw) -> devAt s (h_phone (pk_hdr p)) = Some d ->
  is_code (d_id d) (d_plate d) (d_phone d) code -> st_sess s !! sl = Some x -> ss_id x <> d_sid d ->
  exists m s', run (process e sl p) s = (Ok (Some m), s') /\ consistent s'
    /\ answers p 0x8001 (B8001 (h_sn (pk_hdr p)) 0x0102 0) m
    /\ st_conns s' !! ss_conn x = st_conns s !! ss_conn x
    /\ (forall w, st_conns (snd (run (apiGetParams e (h_phone (pk_hdr p)) w) s')) !! ss_conn x = st_conns s' !! ss_conn x)
    /\ (forall bad ps w, st_conns (snd (run (apiPutParams e (h_phone (pk_hdr p)) bad ps w) s')) !! ss_conn x
                         = st_conns s' !! ss_conn x)
    /\ (st_byID s !! d_sid d = None -> forall w, fst (run (apiGetParams e (h_phone (pk_hdr p)) w) s') = Panic).
Proof. exact reconnect. Qed.
Print Assumptions C64_refuted.
Theorem C64_get_params_partial : forall e s ph d x k, consistent s -> devAt s ph = Some d -> sessAt s (d_sid d) = Some x ->
  st_conns s !! ss_conn x = Some k -> cn_open k = true ->
  exists f s', encodePacket (e_o e) (platform_msg d 0x8104 ((ss_sn x + 1) mod 65536) B8104) = Ok f
    /\ run (apiGetParams e ph None) s = (Ok [], s')
    /\ st_conns s' !! ss_conn x = Some (mkConn true (cn_out k ++ [f])).
Proof.
  intros e s ph d x k C Hd Hx Hk Ho. rewrite <- platform_cmd. destruct (get_params e s ph d x k C Hd Hx Hk Ho) as (f & s' & H1 & H2 & H3 & _).
  exists f, s'. auto.
Qed.
Print Assumptions C64_get_params_partial.
(** in every history in which live connections have distinct addresses: a device is commanded over
    the connection it registered on for as long as that connection is open *)
Theorem C64_history_partial : forall e now evs l x k ph d, fresh_addrs e (world0 now) evs ->
  let w := history e now evs in let s := w_st w in
  devAt s ph = Some d -> l ∈ w_live w -> st_sess s !! l = Some x -> ss_id x = d_sid d ->
  st_conns s !! ss_conn x = Some k -> cn_open k = true ->
  (exists f s', encodePacket (e_o e) (platform_msg d 0x8104 ((ss_sn x + 1) mod 65536) B8104) = Ok f
     /\ run (apiGetParams e ph None) s = (Ok [], s')
     /\ st_conns s' !! ss_conn x = Some (mkConn true (cn_out k ++ [f])))
  /\ (forall ps b bad, paramsEncode (e_o e) ps = Ok b ->
      exists f s', encodePacket (e_o e) (platform_msg d 0x8103 ((ss_sn x + 1) mod 65536) (B8103 0 (Some ps))) = Ok f
        /\ run (apiPutParams e ph bad ps None) s = (Ok (if bad then [400] else []), s')
        /\ st_conns s' !! ss_conn x = Some (mkConn true (cn_out k ++ [f]))).
Proof.
  intros e now evs l x k ph d Hf w s Hd Hl Hx Hi Hk Ho.
  assert (C : consistent s) by exact (wo_ok _ (history_ok e now evs)).
  assert (Hs : sessAt s (d_sid d) = Some x).
  { unfold sessAt. rewrite <- Hi. destruct (registry e now evs Hf) as (R & _). pose proof (R l x k Hl Hx Hk Ho) as E. fold w in E. fold s in E. rewrite E. exact Hx. }
  split.
  - rewrite <- platform_cmd. destruct (get_params e s ph d x k C Hd Hs Hk Ho) as (f & s' & H1 & H2 & H3 & _). exists f, s'. auto.
  - intros ps b bad Hb. rewrite <- platform_cmd.
    destruct (put_params e s ph d x k ps b bad C Hd Hs Hk Ho Hb) as (f & s' & H1 & H2 & H3 & _). exists f, s'. auto.
Qed.
Print Assumptions C64_history_partial.
Example C64_history_ex :
  fresh_addrs e0 (world0 1000) [EAccept 0 addr1; EAccept 1 addr2; EFrame 0 (Ok f_reg1) None; EFrame 1 (Ok f_reg2) None;
    EClock 2000; EFrame 0 (Ok f_auth1) None; EFrame 0 (Ok f_loc1) None]
  /\ devAt s2 phone12 = Some d1 /\ 0%nat ∈ w_live w2 /\ st_sess s2 !! 0%nat = Some x1 /\ ss_id x1 = d_sid d1
  /\ option_map cn_open (st_conns s2 !! ss_conn x1) = Some true.
Proof.
  split; [|split; [exact s2_d1|]; split; [apply elem_of_elements; vm_compute; constructor|]; split; [exact s2_x1|]; split; vmr].
  cbn [fresh_addrs]. split; [|split; [|repeat split]].
  - intros l x Hl. cbn in Hl. set_solver.
  - intros l x Hl. assert (Hl' : l ∈ ({[0%nat]} ∪ ∅ : gset nat)) by exact Hl.
    assert (l = 0%nat) as -> by set_solver. vm_compute. intros [= <-]. discriminate.
Qed.
Example C64_ex : consistent s2 /\ st_sess s2 !! 1%nat = Some x2 /\ ss_id x2 <> d_sid d1
  /\ h_phone (pk_hdr (unframe f_auth1)) = phone12 /\ devAt s2 phone12 = Some d1
  /\ carries e0 s2 (unframe f_auth1) 0x0102 (B0102 0 code1 [] [])
  /\ is_code (d_id d1) (d_plate d1) (d_phone d1) code1 /\ sessAt s2 (d_sid d1) = Some x1.
Proof.
  split; [exact s2_ok|]. split; [exact s2_x2|]. split; [discriminate|]. split; [vmr|]. split; [exact s2_d1|].
  split; [carried|]. split; [|vmr]. apply (code_iff d1). vmr.
Qed.

(** C65: an unknown phone is refused with 400; a known one whose session is registered gets
    one frame.  A parameter list that cannot be encoded, and a device whose session is gone,
    make the request panic. *)
Theorem C65_unknown_partial : forall e s ph w, devAt s ph = None -> consistent s ->
  run (apiGetParams e ph w) s = (Ok [400], s)
  /\ forall bad ps, exists l, run (apiPutParams e ph bad ps w) s = (Ok l, s) /\ List.head l = Some 400.
Proof. exact command_none. Qed.
Print Assumptions C65_unknown_partial.
Theorem C65_get_partial : forall e s ph d x k, consistent s -> devAt s ph = Some d -> sessAt s (d_sid d) = Some x ->
  st_conns s !! ss_conn x = Some k -> cn_open k = true ->
  exists f s', encodePacket (e_o e) (platform_msg d 0x8104 ((ss_sn x + 1) mod 65536) B8104) = Ok f
    /\ run (apiGetParams e ph None) s = (Ok [], s')
    /\ st_conns s' !! ss_conn x = Some (mkConn true (cn_out k ++ [f]))
    /\ (forall c, c <> ss_conn x -> st_conns s' !! c = st_conns s !! c)
    /\ (forall q, devAt s' q = devAt s q /\ ringOf s' q = ringOf s q /\ st_params s' !! q = st_params s !! q)
    /\ consistent s'.
Proof. intros e s ph d x k. rewrite <- platform_cmd. apply get_params. Qed.
Print Assumptions C65_get_partial.
Theorem C65_put_partial : forall e s ph d x k ps b bad, consistent s -> devAt s ph = Some d -> sessAt s (d_sid d) = Some x ->
  st_conns s !! ss_conn x = Some k -> cn_open k = true -> paramsEncode (e_o e) ps = Ok b ->
  exists f s', encodePacket (e_o e) (platform_msg d 0x8103 ((ss_sn x + 1) mod 65536) (B8103 0 (Some ps))) = Ok f
    /\ run (apiPutParams e ph bad ps None) s = (Ok (if bad then [400] else []), s')
    /\ st_conns s' !! ss_conn x = Some (mkConn true (cn_out k ++ [f]))
    /\ (forall c, c <> ss_conn x -> st_conns s' !! c = st_conns s !! c)
    /\ (forall q, devAt s' q = devAt s q /\ ringOf s' q = ringOf s q /\ st_params s' !! q = st_params s !! q)
    /\ consistent s'.
Proof. intros e s ph d x k ps b bad. rewrite <- platform_cmd. apply put_params. Qed.
Print Assumptions C65_put_partial.
Theorem C65_refuted : forall e s ph d x ps bad w, consistent s -> devAt s ph = Some d -> sessAt s (d_sid d) = Some x ->
  paramsEncode (e_o e) ps = Panic ->
  exists s', run (apiPutParams e ph bad ps w) s = (Panic, s') /\ st_conns s' = st_conns s.
Proof. exact put_params_panics. Qed.
Print Assumptions C65_refuted.
Theorem C65_refuted_session : forall e s ph d, consistent s -> devAt s ph = Some d -> st_byID s !! d_sid d = None ->
  (forall w, run (apiGetParams e ph w) s = (Panic, s))
  /\ forall bad ps w, run (apiPutParams e ph bad ps w) s = (Panic, s).
Proof. exact command_lost. Qed.
Print Assumptions C65_refuted_session.
(** a number from JSON; a JSON string where the parameter is a number; the first connection ends *)
Definition ps_ok : devparams := mkParams phone12 1 [mkParam 1 4 (VF64 10)].
Definition ps_bad : devparams := mkParams phone12 1 [mkParam 1 4 (VStr abc)].
Definition s_end : st := snd (run (serveLoop e0 0 [(Err ErrEOF, None)]) s2).
Example C65_ex : consistent s2 /\ devAt s2 phone20 = None /\ devAt s2 phone12 = Some d1
  /\ sessAt s2 (d_sid d1) = Some x1 /\ (exists k, st_conns s2 !! ss_conn x1 = Some k /\ cn_open k = true)
  /\ (exists b, paramsEncode o0 ps_ok = Ok b) /\ paramsEncode o0 ps_bad = Panic
  /\ consistent s_end /\ devAt s_end phone12 = Some d1 /\ st_byID s_end !! d_sid d1 = None.
Proof.
  split; [exact s2_ok|]. split; [vmr|]. split; [exact s2_d1|]. split; [vmr|].
  split; [eexists; split; [vmr|reflexivity]|]. split; [eexists; vmr|]. split; [vmr|].
  split; [|split; vmr]. unfold s_end.
  destruct (contained e0 0 [(Err ErrEOF, None)] s2 x1 s2_ok s2_x1) as (b & s' & E & C & _). rewrite E. exact C.
Qed.

(** C66: a server time query is never answered *)
Theorem C66_refuted : forall e sl s x frm p w, st_sess s !! sl = Some x ->
  decodePacket (e_o e) frm = Ok p -> fragment (pk_hdr p) = false -> h_id (pk_hdr p) = 0x0004 ->
  run (serveLoop e sl [(Ok frm, w)]) s = (Ok false, s).
Proof.
  intros e sl s x frm p w Hx Hd Hf Hi. apply (unsupported_frame e sl s x frm p w Hx Hd Hf). rewrite Hi.
  cbn. intuition discriminate.
Qed.
Print Assumptions C66_refuted.
Definition f_time : bytes := frame (mkMsg (hid 0x0004) B0002).
Example C66_ex : st_sess s2 !! 0%nat = Some x1 /\ decodePacket o0 f_time = Ok (unframe f_time)
  /\ fragment (pk_hdr (unframe f_time)) = false /\ h_id (pk_hdr (unframe f_time)) = 0x0004.
Proof. split; [exact s2_x1|]. repeat (split; [vmr|]). vmr. Qed.

(** C67 *)
Theorem C67_server : forall e sl r w s x k q s1, consistent s -> st_sess s !! sl = Some x ->
  st_conns s !! ss_conn x = Some k -> run (processConnRead e sl (ss_conn x) r w) s = (q, s1) ->
  exists b s', run (serveLoop e sl [(r, w)]) s = (Ok b, s')
    /\ (b = true <-> q = Panic \/ exists er, q = Err er /\ In er [ErrEOF; ErrClosedPipe; ErrNetClosed; ErrDeviceNotFound])
    /\ (b = false -> s' = s1)
    /\ (b = true -> st_byID s' !! ss_id x = None
                    /\ exists k', st_conns s' !! ss_conn x = Some k' /\ cn_open k' = false).
Proof. exact error_policy. Qed.
Print Assumptions C67_server.
Theorem C67_client : forall e sl r w s x q s1, st_sess s !! sl = Some x ->
  run (processConnRead e sl (ss_conn x) r w) s = (q, s1) ->
  match q with
  | Panic => run (clientLoop e sl [(r, w)]) s = (Panic, s1)
  | _ => exists b, run (clientLoop e sl [(r, w)]) s = (Ok b, s1)
           /\ (b = true <-> exists er, q = Err er /\ In er [ErrEOF; ErrClosedPipe; ErrNetClosed; ErrActiveClose])
  end.
Proof. exact client_policy. Qed.
Print Assumptions C67_client.
Example C67_ex : consistent s2 /\ st_sess s2 !! 0%nat = Some x1 /\ is_Some (st_conns s2 !! ss_conn x1)
  /\ fst (run (processConnRead e0 0 0 (Err ErrEOF) None) s2) = Err ErrEOF
  /\ fst (run (processConnRead e0 0 0 (Ok f_odd) None) s2) = Err ErrMsgIDNotSupportted
  /\ fst (run (processConnRead e0 0 0 (Ok [126; 1; 2; 126]) None) s2) = Err ErrVerifyFailed.
Proof.
  split; [exact s2_ok|]. split; [exact s2_x1|]. split; [vm_compute; eauto|]. repeat (split; [vmr|]). vmr.
Qed.

(** C68 *)
Theorem C68_decodable : forall e sl s c p m s' w, bytes_ok c = true -> decodePacket (e_o e) (framed c) = Ok p ->
  fragment (pk_hdr p) = false -> digits (h_phone (pk_hdr p)) = true ->
  length (h_phone (pk_hdr p)) = phone_digits (a_ver (h_attr (pk_hdr p))) ->
  run (process e sl p) s = (Ok (Some m), s') -> encBody (e_o e) (m_hdr m) (m_body m) = Ok w -> (length w < 1024)%nat ->
  exists frm p', encodePacket (e_o e) m = Ok frm /\ decodePacket (e_o e) frm = Ok p'
    /\ h_id (pk_hdr p') = h_id (m_hdr m) /\ h_phone (pk_hdr p') = h_phone (pk_hdr p)
    /\ a_ver (h_attr (pk_hdr p')) = a_ver (h_attr (pk_hdr p)) /\ h_proto (pk_hdr p') = h_proto (pk_hdr p)
    /\ h_sn (pk_hdr p') = h_sn (pk_hdr p) /\ fragment (pk_hdr p') = false
    /\ a_len (h_attr (pk_hdr p')) = N.of_nat (length w) /\ sl_data (pk_body p') = w.
Proof. exact reply_decodable. Qed.
Print Assumptions C68_decodable.
(** the replies that are always short enough *)
Theorem C68_short : forall e sl s p m s', run (process e sl p) s = (Ok (Some m), s') ->
  fragment (pk_hdr p) = false -> In (h_id (pk_hdr p)) [0x0002; 0x0003; 0x0100; 0x0102; 0x0200; 0x8103] ->
  exists w, encBody (e_o e) (m_hdr m) (m_body m) = Ok w /\ (length w < 1024)%nat.
Proof. exact reply_short. Qed.
Print Assumptions C68_short.
Example C68_ex : bytes_ok (tl (removelast f_loc1)) = true /\ framed (tl (removelast f_loc1)) = f_loc1
  /\ decodePacket o0 f_loc1 = Ok (unframe f_loc1) /\ digits (h_phone (pk_hdr (unframe f_loc1))) = true
  /\ length (h_phone (pk_hdr (unframe f_loc1))) = phone_digits (a_ver (h_attr (pk_hdr (unframe f_loc1))))
  /\ replied (fst (run (process e0 0 (unframe f_loc1)) s2)) = true.
Proof. repeat (split; [vmr|]). vmr. Qed.

(** C70: all levels but "FATAL", for which the switch has "FATAl": it selects debug *)
Theorem C70_levels_partial : parseLevel "DEBUG" = 0 /\ parseLevel "INFO" = 1 /\ parseLevel "WARN" = 2 /\ parseLevel "ERROR" = 3.
Proof. exact levels. Qed.
Print Assumptions C70_levels_partial.
Theorem C70_others_partial : forall s, ~ In s ["DEBUG"; "INFO"; "WARN"; "ERROR"; "FATAl"]%string -> parseLevel s = 0.
Proof. exact other_level. Qed.
Print Assumptions C70_others_partial.
Theorem C70_refuted : parseLevel "FATAL" = 0.
Proof. reflexivity. Qed.
Print Assumptions C70_refuted.
Example C70_ex : ~ In "FATAL"%string ["DEBUG"; "INFO"; "WARN"; "ERROR"; "FATAl"]%string.
Proof. cbn. intuition discriminate. Qed.
