(** Property theorems C98-C106: answers to queries, sending, codes of later registrations, the
    accept loop, log output, configuration. *)
From Coq Require Import String.
From stdpp Require Import gmap.
From Verif Require Import Base HexM TimeM HashM HeaderM ParamsM GeoM MsgM PacketM FrameM ProgM RingM
  StateM ProcM ServerM ConcM MainM SpecCodec SpecState SpecConc SpecAnswer StateP ServerP EffectP HandshakeP
  AnswerP MoreP MainP LinkP ExampleData ExampleState.
Local Open Scope N_scope.
Ltac vmr := vm_compute; reflexivity.
Ltac carried := split; [vmr|split; [left; vmr|vmr]].

(** C98: a media query is answered by one resource with the channel and the time range of the
    query; the answer reaches the other side.  A query without time range (zeros) is answered
    with the clock of the one who answers. *)
Theorem C98_answer_partial : forall e sl s p q qw, carries e s p 0x9205 (B9205 q) -> query_layout q qw -> hdr_wf (pk_hdr p) ->
  let a := B1205 (h_sn (pk_hdr p)) 1 (mkMQ (q_chan q) (q_start q) (q_end q) 0 0 0 0 0) 0 in
  exists m, run (process e sl p) s = (Ok (Some m), s) /\ answers p 0x1205 a m
    /\ delivered (e_o e) (m_hdr m) (m_body m) a.
Proof. exact media_answer. Qed.
Print Assumptions C98_answer_partial.
Theorem C98_refuted : forall e sl s p c rest, h_id (pk_hdr p) = 0x9205 -> fragment (pk_hdr p) = false ->
  sl_data (pk_body p) = [c] ++ repeat 0 12 ++ rest -> length rest = 11%nat ->
  let now := e_civil e (st_clock s) in
  exists m, run (process e sl p) s = (Ok (Some m), s)
    /\ answers p 0x1205 (B1205 (h_sn (pk_hdr p)) 1 (mkMQ c (Some now) (Some now) 0 0 0 0 0) 0) m.
Proof. exact media_zero. Qed.
Print Assumptions C98_refuted.
Definition p_media : packet := pk (mkMsg (hid 0x9205) (B9205 q1)).
Definition p_media0 : packet := mkPacket (hid 0x9205) (mkSlice (1 :: repeat 0 23) [7]) 7 false.
Example C98_ex : carries e0 s2 p_media 0x9205 (B9205 q1) /\ (exists w, query_layout q1 w) /\ hdr_wf (pk_hdr p_media)
  /\ h_id (pk_hdr p_media0) = 0x9205 /\ fragment (pk_hdr p_media0) = false
  /\ sl_data (pk_body p_media0) = [1] ++ repeat 0 12 ++ repeat 0 11.
Proof.
  split; [carried|]. split; [eexists; unfold q1; apply ql; try apply t_leap_ok; try apply t_now_ok; lia|].
  split; [vm_compute; repeat split; auto; lia|]. repeat split.
Qed.

(** C99: what a terminal without stored parameters answers, and stores.  The last entry of the
    built-in table announces 35 bytes where 15 are left: the value continues with 20 characters
    of the program text. *)
Theorem C99_defaults_partial : forall e sl s p, carries e s p 0x8104 B8104 -> let ph := h_phone (pk_hdr p) in
  st_params s !! ph = None ->
  exists m last, let d := mkParams ph 39 (built_in (e_o e) ++ [last]) in
    run (process e sl p) s = (Ok (Some m), set_params (<[ph := d]>) s)
    /\ answers p 0x0104 (B0104 (h_sn (pk_hdr p)) 0 (Some d)) m
    /\ p_id last = 0x76.
Proof.
  intros e sl s p Hc ph Hn. destruct (defaults_answer e sl s p Hc Hn) as (m & last & H1 & H2 & ->).
  exists m, (mkParam 0x76 35 (VStr (strOf (built_in_last ++ leaked)))). auto.
Qed.
Print Assumptions C99_defaults_partial.
Theorem C99_refuted : forall e sl s p, carries e s p 0x8104 B8104 -> let ph := h_phone (pk_hdr p) in
  st_params s !! ph = None ->
  exists m d, fst (run (process e sl p) s) = Ok (Some m)
    /\ answers p 0x0104 (B0104 (h_sn (pk_hdr p)) 0 (Some d)) m
    /\ value_of d 0x76 = Some (mkParam 0x76 35 (VStr (strOf (built_in_last ++ leaked)))).
Proof.
  intros e sl s p Hc ph Hn. destruct (defaults_answer e sl s p Hc Hn) as (m & last & H1 & H2 & ->).
  eexists m, _. rewrite H1. split; [reflexivity|]. split; [exact H2|]. reflexivity.
Qed.
Print Assumptions C99_refuted.
Definition p_query : packet := pk (mkMsg (hid 0x8104) B8104).
Example C99_ex : carries e0 s2 p_query 0x8104 B8104 /\ st_params s2 !! h_phone (pk_hdr p_query) = None.
Proof. split; [carried|]. vmr. Qed.

(** C100: sending to a session *)
Theorem C100_send : forall e s i m f w sl x k, consistent s -> st_byID s !! i = Some sl -> st_sess s !! sl = Some x ->
  st_conns s !! ss_conn x = Some k -> encodePacket (e_o e) m = Ok f ->
  run (serverSend e i m w) s =
    (Ok tt, set_byID (fun b => if broken k w then delete i b else b)
              (set_conns (<[ss_conn x := mkConn (negb (broken k w) && cn_open k) (cn_out k ++ on_wire k f w)]>) s)).
Proof. exact send_known. Qed.
Print Assumptions C100_send.
Theorem C100_nobody : forall e s i m w, st_byID s !! i = None -> run (serverSend e i m w) s = (Ok tt, s).
Proof. exact send_unknown. Qed.
Print Assumptions C100_nobody.
Theorem C100_unencodable : forall e s i m w sl x k er, st_byID s !! i = Some sl -> st_sess s !! sl = Some x ->
  st_conns s !! ss_conn x = Some k -> encodePacket (e_o e) m = Err er -> er <> ErrClosedPipe -> er <> ErrNetClosed ->
  run (serverSend e i m w) s = (Ok tt, s).
Proof. exact send_unencodable. Qed.
Print Assumptions C100_unencodable.
Example C100_ex : consistent s2 /\ st_byID s2 !! addr1 = Some 0%nat /\ st_sess s2 !! 0%nat = Some x1
  /\ (exists k, st_conns s2 !! ss_conn x1 = Some k /\ cn_open k = true /\ broken k None = false
                /\ broken k (Some (3%nat, ErrNetClosed)) = true)
  /\ (exists f, encodePacket (e_o e0) (mkMsg (hid 0x8104) B8104) = Ok f) /\ st_byID s2 !! phone12 = None.
Proof.
  split; [exact s2_ok|]. split; [vmr|]. split; [exact s2_x1|].
  split; [eexists; split; [vmr|]; repeat split|]. split; [eexists; vmr|]. vmr.
Qed.

(** C101: after a logout the same device gets the same code again *)
Theorem C101_refuted : forall e sl sl' s x p r p3 p' r', consistent s -> st_sess s !! sl = Some x ->
  carries e s p 0x0100 (B0100 r) -> carries e s p3 0x0003 B0003 -> carries e s p' 0x0100 (B0100 r') ->
  h_phone (pk_hdr p3) = h_phone (pk_hdr p) -> h_phone (pk_hdr p') = h_phone (pk_hdr p) ->
  r_devid r' = r_devid r -> r_plate r' = r_plate r ->
  devAt s (h_phone (pk_hdr p)) = None -> devWithPlate s (r_plate r) = None ->
  exists c m m3 m' s1 s2 s3,
    run (process e sl p) s = (Ok (Some m), s1) /\ answers p 0x8100 (B8100 (h_sn (pk_hdr p)) 0 c) m
    /\ run (process e sl' p3) s1 = (Ok (Some m3), s2) /\ devAt s2 (h_phone (pk_hdr p)) = None
    /\ run (process e sl p') s2 = (Ok (Some m'), s3) /\ answers p' 0x8100 (B8100 (h_sn (pk_hdr p')) 0 c) m'.
Proof. exact same_code. Qed.
Print Assumptions C101_refuted.
(** a third device *)
Definition phone12c : str := [48; 49; 51; 57; 49; 50; 51; 52; 53; 54; 56; 48].
Definition hidc (id : N) : header := mkHeader id attr13 0 phone12c 4 None.
Definition p_regc : packet := pk (mkMsg (hidc 0x0100) (B0100 (mkReg 1 2 abc abc [68; 51] 1 [65; 51] []))).
Definition p_outc : packet := pk (mkMsg (hidc 0x0003) B0003).
Example C101_ex : consistent s2 /\ st_sess s2 !! 0%nat = Some x1
  /\ (exists r, carries e0 s2 p_regc 0x0100 (B0100 r) /\ devWithPlate s2 (r_plate r) = None)
  /\ carries e0 s2 p_outc 0x0003 B0003 /\ h_phone (pk_hdr p_outc) = h_phone (pk_hdr p_regc)
  /\ devAt s2 (h_phone (pk_hdr p_regc)) = None.
Proof.
  split; [exact s2_ok|]. split; [exact s2_x1|]. split; [eexists; split; [carried|vmr]|].
  split; [carried|]. split; vmr.
Qed.

(** C102: a keepalive check that has decided to clear an offline device does so although the device has
    authenticated in the meantime *)
Theorem C102_refuted : forall e sl s p al code imei sw d k, consistent s -> carries e s p 0x0102 (B0102 al code imei sw) ->
  let ph := h_phone (pk_hdr p) in
  devAt s ph = Some d -> is_code (d_id d) (d_plate d) ph code ->
  d_status d = Offline -> (d_last d + d_keep d < st_clock s)%Z -> st_conns s !! d_conn d = Some k ->
  exists sch q s1 sch' s2 d1,
    running e [GMsg sl p; GTick ph] s sch = ([Ret (Ok tt); q], s1)
    /\ devAt s1 ph = Some d1 /\ d_status d1 = Online /\ d_last d1 = st_clock s1 /\ st_clock s1 = st_clock s
    /\ psteps [Ret (Ok tt); q] s1 sch' = ([Ret (Ok tt); Ret (Ok tt)], s2)
    /\ devAt s2 ph = None /\ devWithPlate s2 (d_plate d) = None /\ ~ ph ∈ st_jobs s2
    /\ st_conns s2 !! d_conn d = Some (mkConn false (cn_out k)).
Proof. exact late_clear. Qed.
Print Assumptions C102_refuted.
Definition code2 : str := genAuthCode d2.
Definition p_auth2 : packet := pk (mkMsg (hidb 0x0102) (B0102 0 code2 [] [])).
Definition s_due : st := set_clock 61001 s2.
Example C102_ex : consistent s_due
  /\ carries e0 s_due p_auth2 0x0102 (B0102 0 code2 [] [])
  /\ devAt s_due (h_phone (pk_hdr p_auth2)) = Some d2 /\ is_code (d_id d2) (d_plate d2) (h_phone (pk_hdr p_auth2)) code2
  /\ d_status d2 = Offline /\ (d_last d2 + d_keep d2 < st_clock s_due)%Z /\ is_Some (st_conns s_due !! d_conn d2).
Proof.
  split; [apply consistent_clock, s2_ok|]. split; [carried|]. split; [vmr|].
  split; [apply (proj2 (code_iff d2 code2)); reflexivity|]. split; [vmr|]. split; [vmr|]. vm_compute. eauto.
Qed.

(** C103: every connection accepted gets a session of its own and is served, whatever Accept
    calls fail in between *)
Theorem C103_accept_loop : forall rs s, exists ls s', run (startLoop rs) s = (Ok ls, s')
  /\ length ls = length (accepted rs) /\ base.NoDup ls
  /\ (forall i sl c addr, ls !! i = Some sl -> accepted rs !! i = Some (c, addr) ->
        st_sess s !! sl = None /\ st_sess s' !! sl = Some (mkSession addr c 0))
  /\ (forall sl x, st_sess s !! sl = Some x -> st_sess s' !! sl = Some x)
  /\ (forall i sl c addr, ls !! i = Some sl -> accepted rs !! i = Some (c, addr) ->
        (forall j c', (i < j)%nat -> accepted rs !! j <> Some (c', addr)) -> st_byID s' !! addr = Some sl)
  /\ (forall a, (forall c, ~ In (c, a) (accepted rs)) -> st_byID s' !! a = st_byID s !! a)
  /\ exists f g, s' = set_byID f (set_sess g s).
Proof. exact start_loop. Qed.
Print Assumptions C103_accept_loop.
Example C103_ex : accepted [Some (5%nat, addr1); None; None; Some (6%nat, addr2)] = [(5%nat, addr1); (6%nat, addr2)]
  /\ fst (run (startLoop [Some (5%nat, addr1); None; None; Some (6%nat, addr2)]) (init 0)) = Ok [0%nat; 1%nat].
Proof. split; vmr. Qed.

(** C104: a line goes once to each enabled output when its level is high enough.  When the log
    directory cannot be created the first such line panics, the one of Configure itself included. *)
Theorem C104_lines_partial : forall c level, lc_dir c = true ->
  exists l, logEvent c level = (l, false) /\ base.NoDup l
    /\ (WConsole ∈ l <-> lc_level c <= level /\ lc_console c = true)
    /\ (forall j, WFile j ∈ l <-> lc_level c <= level /\ lc_file c = true /\ j = lc_json c)
    /\ ~ WNil ∈ l.
Proof. exact log_event. Qed.
Print Assumptions C104_lines_partial.
Theorem C104_refuted : forall c, lc_dir c = false -> lc_file c = true ->
  (forall level, lc_level c <= level -> snd (logEvent c level) = true)
  /\ (lc_level c <= 1 -> snd (configure c) = true).
Proof.
  intros c Hd Hf. split; [intros level Hl; exact (log_dies c level Hd Hf Hl)|].
  intros Hl. exact (log_dies c 1 Hd Hf Hl).
Qed.
Print Assumptions C104_refuted.
Example C104_ex : logEvent (mkLogCfg true false true 1 true) 3 = ([WConsole; WFile false], false)
  /\ configure (mkLogCfg true false true 0 false) = ([WConsole], true).
Proof. split; reflexivity. Qed.

(** C105: the caller in a log line is the file name without its directory, and the line.  A file
    directly under the root keeps its slash. *)
Theorem C105_caller_partial : forall dir name line, dir <> [] -> ~ In 47 name ->
  callerMarshal (dir ++ [47] ++ name) line = name ++ [58] ++ itoa line
  /\ callerMarshal name line = name ++ [58] ++ itoa line.
Proof.
  intros dir name line Hd Hn. split; [exact (caller_dir dir name line Hd Hn)|].
  apply caller_none. destruct name; cbn; [tauto|]. intros H. apply Hn. right. exact H.
Qed.
Print Assumptions C105_caller_partial.
Theorem C105_refuted : forall name line, ~ In 47 name ->
  callerMarshal ([47] ++ name) line = [47] ++ name ++ [58] ++ itoa line.
Proof. intros name line Hn. exact (caller_none (47 :: name) line Hn). Qed.
Print Assumptions C105_refuted.
(** "a/b/c.go", line 12 *)
Example C105_ex : callerMarshal [97; 47; 98; 47; 99; 46; 103; 111] 12 = [99; 46; 103; 111; 58; 49; 50]
  /\ callerMarshal [47; 99; 46; 103; 111] 12 = [47; 99; 46; 103; 111; 58; 49; 50].
Proof. split; reflexivity. Qed.

(** C106: the first Load returns the configuration at its path; every later one returns the
    same, whatever its path, even when the first one failed *)
Theorem C106_first_partial : forall (cfg : Type) (empty : cfg) asset file parse servKey servPath cliKey cliPath path t c,
  (path = servKey /\ asset servPath = Some t)
  \/ (path = cliKey /\ path <> servKey /\ asset cliPath = Some t)
  \/ (path <> cliKey /\ path <> servKey /\ file path = Some t) ->
  parse t = (c, true) ->
  load empty asset file parse servKey servPath cliKey cliPath path None = (Ok c, Some c).
Proof.
  intros cfg empty asset file parse servKey servPath cliKey cliPath path t c H Hp. unfold load, readConf.
  destruct H as [(-> & H)|[(-> & Hn & H)|(H1 & H2 & H)]].
  - rewrite bool_decide_true by reflexivity. rewrite H, Hp. reflexivity.
  - rewrite bool_decide_false by exact Hn. rewrite bool_decide_true by reflexivity. rewrite H, Hp. reflexivity.
  - rewrite !bool_decide_false by assumption. rewrite H, Hp. reflexivity.
Qed.
Print Assumptions C106_first_partial.
Theorem C106_refuted : forall (cfg : Type) (empty : cfg) asset file parse servKey servPath cliKey cliPath path,
  exists c, snd (load empty asset file parse servKey servPath cliKey cliPath path None) = Some c
    /\ (forall path', load empty asset file parse servKey servPath cliKey cliPath path' (Some c) = (Ok c, Some c))
    /\ (path <> servKey -> path <> cliKey -> file path = None ->
        fst (load empty asset file parse servKey servPath cliKey cliPath path None) = Panic /\ c = empty).
Proof.
  intros cfg empty asset file parse servKey servPath cliKey cliPath path.
  destruct (load empty asset file parse servKey servPath cliKey cliPath path None) as [r st] eqn:E.
  unfold load in E. destruct (readConf _ _ _ _ _ _ _) as [t|] eqn:R.
  - destruct (parse t) as [c ok] eqn:P. injection E as <- <-. exists c. split; [reflexivity|]. split; [reflexivity|].
    intros H1 H2 H3. unfold readConf in R. rewrite !bool_decide_false in R by assumption. congruence.
  - injection E as <- <-. exists empty. auto.
Qed.
Print Assumptions C106_refuted.
Example C106_ex :
  let ld := load (cfg := str) [] (fun p => Some p) (fun p => if bool_decide (p = [1]) then Some [2] else None)
                 (fun t => (t, true)) [8] [80] [9] [90] in
  ld [1] None = (Ok [2], Some [2]) /\ ld [8] None = (Ok [80], Some [80]) /\ ld [9] (Some [2]) = (Ok [2], Some [2])
  /\ ld [5] None = (Panic, Some []).
Proof. vm_compute. auto. Qed.
