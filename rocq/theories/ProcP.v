(** Message processing in a consistent state: what is kept, what changes *)
From stdpp Require Import gmap.
From Verif Require Import Base HexM TimeM HeaderM ParamsM GeoM MsgM PacketM ProgM ProgP RingM SpecRing RingP
  StateM ProcM ServerM SpecState StateP ParamsP.
Local Open Scope N_scope.

(** the selection of the handler, msg_processor.go:174-199 *)
Definition handler (e : env) (sl : nat) (inc out : msg) : sp msg :=
  match m_body inc with
  | B0002 => process0002 inc out
  | B0003 => process0003 inc out
  | B0100 r => process0100 sl inc r out
  | B0102 _ code imei sw => process0102 inc code imei sw out
  | B0200 m => process0200 e inc m out
  | B8100 _ _ _ => process8100 inc out
  | B8103 _ ps => process8103 inc ps out
  | B8104 => process8104 e out
  | B9205 q => process9205 q out
  | _ => ret out
  end.
Definition okSome (x : res msg * st) : res (option msg) * st :=
  match x with (Ok m, s) => (Ok (Some m), s) | (Err er, s) => (Err er, s) | (Panic, s) => (Panic, s) end.

Lemma run_process e sl p s : run (process e sl p) s =
  match lookupN optionTable (h_id (pk_hdr p)) with
  | None => (Err ErrMsgIDNotSupportted, s)
  | Some (ik, ok) =>
      if isFragmented (pk_hdr p) && negb (pk_segdone p) then run (processSegment p) s
      else match msgDecode (e_o e) (e_civil e (st_clock s)) ik p with
           | Err er => (Err er, s)
           | Panic => (Panic, s)
           | Ok inc =>
               match ok with
               | None =>
                   match m_body inc with
                   | B8001 _ _ r => match run (process8001 inc r) s with
                                    | (Ok _, s') => (Ok None, s')
                                    | (Err er, s') => (Err er, s')
                                    | (Panic, s') => (Panic, s')
                                    end
                   | _ => (Ok None, s)
                   end
               | Some k =>
                   match genOutgoing (e_civil e (st_clock s)) k inc with
                   | Err er => (Err er, s)
                   | Panic => (Panic, s)
                   | Ok None => (Ok None, s)
                   | Ok (Some out) => okSome (run (handler e sl inc out) s)
                   end
               end
           end
  end.
Proof.
  unfold process. destruct (lookupN _ _) as [[ik ok]|]; [|reflexivity].
  destruct (isFragmented _ && _); [reflexivity|].
  rewrite run_bind. unfold getNow, rd1. cbn [run ret]. rewrite run_bind. unfold lift. cbn [run].
  destruct (msgDecode _ _ _ _) as [inc|er|]; [|reflexivity..].
  destruct ok as [k|].
  - rewrite run_bind. cbn [run ret]. rewrite run_bind. cbn [run].
    destruct (genOutgoing _ _ _) as [[out|]|er|]; [|reflexivity..].
    rewrite run_bind. change (match m_body inc with
      | B0002 => process0002 inc out | B0003 => process0003 inc out | B0100 r => process0100 sl inc r out
      | B0102 _ code imei sw => process0102 inc code imei sw out | B0200 m => process0200 e inc m out
      | B8100 _ _ _ => process8100 inc out | B8103 _ ps => process8103 inc ps out
      | B8104 => process8104 e out | B9205 q => process9205 q out | _ => ret out end)
      with (handler e sl inc out).
    destruct (run (handler e sl inc out) s) as [[m|er|] s']; reflexivity.
  - destruct (m_body inc); try reflexivity. rewrite run_bind.
    destruct (run (process8001 inc res) s) as [[m|er|] s']; reflexivity.
Qed.

(** * What a decoded body is *)
Lemma rd_bind_ok {A B} (m : rd A) (f : A -> rd B) sl i r : rd_bind m f sl i = Ok r ->
  exists a j, m sl i = Ok (a, j) /\ f a sl j = Ok r.
Proof. unfold rd_bind. destruct (m sl i) as [[a j]|er|]; intros H; [eauto|discriminate..]. Qed.

Ltac rd_inv H :=
  repeat (apply rd_bind_ok in H; let a := fresh "a" in let j := fresh "j" in let E := fresh "E" in
          destruct H as (a & j & E & H)).
Lemma decBody_kind o now k h sl i b j : decBody o now k h sl i = Ok (b, j) -> kind_of b = k.
Proof.
  destruct k; cbn [decBody]; intros H.
  all: try (injection H as <- _; reflexivity).
  - rd_inv H. injection H as <- _. reflexivity.
  - unfold dec0100 in H. rd_inv H. destruct a2 as [[? ?] ?]. rd_inv H. injection H as <- _. reflexivity.
  - unfold dec0102 in H. destruct (a_ver (h_attr h)); [injection H as <- _; reflexivity| |];
      rd_inv H; injection H as <- _; reflexivity.
  - rd_inv H. injection H as <- _. reflexivity.
  - unfold dec0200 in H. rd_inv H. injection H as <- _. reflexivity.
  - rd_inv H. injection H as <- _. reflexivity.
  - rd_inv H. injection H as <- _. reflexivity.
  - rd_inv H. injection H as <- _. reflexivity.
  - rd_inv H. injection H as <- _. reflexivity.
  - rd_inv H. injection H as <- _. reflexivity.
  - rd_inv H. injection H as <- _. reflexivity.
Qed.
Lemma msgDecode_ok o now k p m : msgDecode o now k p = Ok m ->
  m_hdr m = pk_hdr p /\ kind_of (m_body m) = k.
Proof.
  unfold msgDecode, rmap. destruct (decBody _ _ _ _ _ _) as [[b j]|er|] eqn:E; [|discriminate..].
  intros [= <-]. cbn. split; [reflexivity|]. eapply decBody_kind; eassumption.
Qed.
Lemma rd_lift_params o ph cnt sl s i a j :
  rd_lift (paramsDecode o ph cnt sl) s i = Ok (a, j) -> dp_phone a = ph.
Proof.
  unfold rd_lift, paramsDecode, rmap. destruct (paramsDecodeLoop _ _ _ _) as [?|?|]; [|discriminate..].
  intros [= <- _]. reflexivity.
Qed.
Lemma msgDecode_8103 o now p m cnt ps : msgDecode o now K8103 p = Ok m -> m_body m = B8103 cnt ps ->
  exists d, ps = Some d /\ dp_phone d = h_phone (pk_hdr p).
Proof.
  unfold msgDecode, rmap. destruct (decBody _ _ _ _ _ _) as [[b j]|er|] eqn:E; [|discriminate..].
  intros [= <-]. cbn. intros ->. cbn [decBody] in E. rd_inv E. injection E as <- <- _.
  eexists. split; [reflexivity|]. eapply rd_lift_params; eassumption.
Qed.

(** * What message processing keeps *)
(** what processing a message of the phone [ph] may change *)
Record kept (ph : str) (s s' : st) : Prop := {
  kp_ok : consistent s';
  kp_iso : isolated ph s s';
  kp_conns : conns_kept s s';
  kp_segs : st_segs s' = st_segs s
}.
Lemma conns_kept_refl s : conns_kept s s.
Proof. unfold conns_kept. auto. Qed.
Lemma conns_kept_trans a b c : conns_kept a b -> conns_kept b c -> conns_kept a c.
Proof.
  intros (H1 & H2 & H3 & H4) (K1 & K2 & K3 & K4).
  split; [congruence|]. split; [congruence|]. split; [congruence|]. intros l.
  destruct (H4 l), (K4 l). split; congruence.
Qed.
Lemma isolated_refl ph s : isolated ph s s.
Proof. unfold isolated. auto. Qed.
Lemma isolated_trans ph a b c : isolated ph a b -> isolated ph b c -> isolated ph a c.
Proof.
  intros H K q Hq. destruct (H q Hq) as (? & ? & ?), (K q Hq) as (? & ? & ?).
  split_and!; congruence.
Qed.
Lemma kept_refl ph s : consistent s -> kept ph s s.
Proof. intros C. split; auto using isolated_refl, conns_kept_refl. Qed.
Lemma kept_trans ph a b c : kept ph a b -> kept ph b c -> kept ph a c.
Proof.
  intros [] []. split; eauto using isolated_trans, conns_kept_trans. congruence.
Qed.

Lemma rest_kept_conns s s' : rest_kept s s' -> conns_kept s s'.
Proof.
  intros (H1 & H2 & H3 & H4 & H5 & H6 & H7 & H8). split_and!; auto. intros l. rewrite H5. auto.
Qed.
Lemma kept_devs ph pl s s' : consistent s' -> others_kept ph pl s s' -> rest_kept s s' -> kept ph s s'.
Proof.
  intros C' (Ho & _) R. pose proof (rest_kept_conns _ _ R) as Hc.
  destruct R as (H1 & H2 & H3 & H4 & H5 & H6 & H7 & H8). split; auto.
  intros q Hq. unfold ringOf. rewrite H1, H2, H3. auto.
Qed.
Lemma rest_kept_devs f s : rest_kept s (set_devs f s).
Proof. unfold rest_kept. cbn. auto 10. Qed.

Lemma kept_touch f ph l d s : consistent s -> st_byPhone s !! ph = Some l -> st_devs s !! l = Some d ->
  d_phone (f d) = d_phone d -> d_plate (f d) = d_plate d -> kept ph s (set_devs (alter f l) s).
Proof.
  intros C H H1 Hp Hq. destruct (touch_spec s C f ph l d H H1) as (_ & _ & Ho).
  eapply kept_devs; [eapply touch_ok; eassumption|exact Ho|apply rest_kept_devs].
Qed.
Lemma kept_added d s : consistent s -> st_byPhone s !! d_phone d = None ->
  st_byPlate s !! d_plate d = None -> kept (d_phone d) s (added s d).
Proof.
  intros C H1 H2. destruct (added_spec s C d H1 H2) as (_ & _ & Ho & _ & R).
  eapply kept_devs; [apply added_ok; assumption|exact Ho|exact R].
Qed.
Lemma kept_dropped d l s : consistent s -> st_byPhone s !! d_phone d = Some l ->
  st_devs s !! l = Some d -> kept (d_phone d) s (dropped s d).
Proof.
  intros C H1 H2. destruct (dropped_spec s d l H1 H2) as (_ & _ & Ho & _ & R).
  eapply kept_devs; [eapply dropped_ok; eassumption|exact Ho|exact R].
Qed.
Lemma kept_geo ph s s' : consistent s' -> onlyGeo s s' ->
  (forall q, q <> ph -> ringOf s' q = ringOf s q) -> kept ph s s'.
Proof.
  intros C' (H1 & H2 & H3 & H4 & H5 & H6 & H7 & H8 & H9 & H10) Hr.
  split; auto.
  - intros q Hq. unfold devAt. rewrite H1, H3, H4. auto.
  - split_and!; auto. intros l. rewrite H6. auto.
Qed.
Lemma kept_params ph d s : consistent s -> dp_phone d = ph -> kept ph s (set_params (<[dp_phone d := d]>) s).
Proof.
  intros C Hd. split; auto.
  - destruct C. constructor; cbn; try assumption.
    intros p d' H. destruct (decide (p = dp_phone d)) as [->|Hn].
    + rewrite lookup_insert in H. congruence.
    + rewrite lookup_insert_ne in H by congruence. auto.
  - intros q Hq. unfold devAt, ringOf. cbn. rewrite lookup_insert_ne by congruence. auto.
  - unfold conns_kept. cbn. auto.
Qed.
Lemma serial_bound n : (n + 1) mod 65536 <= 65535.
Proof. pose proof (N.mod_upper_bound (n + 1) 65536). lia. Qed.
Definition bumped (sl : nat) (x : session) (s : st) : st :=
  set_sess (<[sl := mkSession (ss_id x) (ss_conn x) ((ss_sn x + 1) mod 65536)]>) s.
Lemma kept_bumped ph sl x s : consistent s -> st_sess s !! sl = Some x -> kept ph s (bumped sl x s).
Proof.
  intros C Hx. unfold bumped. split; auto.
  - destruct C as [H1 H2 H3 H4 H5 H6 H7 H8 H9 H10]. constructor; cbn; try assumption.
    + intros i l H. destruct (H8 i l H) as (y & Hy & Hi). destruct (decide (l = sl)) as [->|Hn].
      * eexists. rewrite lookup_insert. split; [reflexivity|]. cbn. congruence.
      * exists y. rewrite lookup_insert_ne by congruence. auto.
    + intros l y Hy. destruct (decide (l = sl)) as [->|Hn].
      * rewrite lookup_insert in Hy. injection Hy as <-. cbn. destruct (H9 sl x Hx) as (Hc & _).
        split; [exact Hc|]. apply serial_bound.
      * rewrite lookup_insert_ne in Hy by congruence. exact (H9 l y Hy).
    + intros l l' y y'. destruct (decide (l = sl)) as [->|Hn], (decide (l' = sl)) as [->|Hm];
        rewrite ?lookup_insert, ?lookup_insert_ne by congruence; intros Hy Hy' E; auto.
      * injection Hy as <-. cbn in E. eapply H10; eassumption.
      * injection Hy' as <-. cbn in E. eapply H10; eassumption.
      * eapply H10; eassumption.
  - intros q Hq. unfold devAt, ringOf. cbn. auto.
  - split_and!; auto. intros l. cbn. destruct (decide (l = sl)) as [->|Hn].
    + rewrite lookup_insert, Hx. auto.
    + rewrite lookup_insert_ne by congruence. auto.
Qed.

(** ** Each handler *)
Lemma run_8001 s inc r : consistent s ->
  run (process8001 inc r) s =
  if r =? 0 then
    match st_byPhone s !! h_phone (m_hdr inc) with
    | None => (Err ErrActiveClose, s)
    | Some l => match st_devs s !! l with
                | Some d => if d_status d =? Offline
                            then (Ok tt, set_devs (alter (fun d => dset_last (dset_status d Online) (st_clock s)) l) s)
                            else (Ok tt, s)
                | None => (Panic, s)
                end
    end
  else (Ok tt, s).
Proof.
  intros C. unfold process8001. destruct (r =? 0); [|reflexivity]. cbn.
  destruct (st_byPhone s !! h_phone (m_hdr inc)) as [l|] eqn:E; [|reflexivity]. cbn.
  destruct (cs_phone s C _ _ E) as (d & H1 & H2 & H3). rewrite H1. cbn.
  destruct (d_status d =? Offline); [|reflexivity]. cbn. rewrite !lookup_alter, H1. cbn. f_equal.
  unfold set_index, set_devs. cbn. rewrite <- alter_compose. cbn.
  rewrite !insert_id by congruence. reflexivity.
Qed.
Lemma kept_8001 s inc r : consistent s -> kept (h_phone (m_hdr inc)) s (snd (run (process8001 inc r) s)).
Proof.
  intros C. rewrite run_8001 by exact C. destruct (r =? 0); [|apply kept_refl; exact C].
  destruct (st_byPhone s !! h_phone (m_hdr inc)) as [l|] eqn:E; [|apply kept_refl; exact C].
  destruct (st_devs s !! l) as [d|] eqn:E'; [|apply kept_refl; exact C].
  destruct (d_status d =? Offline); [|apply kept_refl; exact C]. cbn.
  eapply kept_touch; [exact C|exact E|exact E'|reflexivity..].
Qed.

Lemma run_8103 s inc d out : run (process8103 inc (Some d) out) s =
  (Ok out, set_params (<[dp_phone (match st_params s !! h_phone (m_hdr inc) with
                                   | None => d | Some old => paramsUpdate old d end) :=
                         match st_params s !! h_phone (m_hdr inc) with
                         | None => d | Some old => paramsUpdate old d end]>) s).
Proof. reflexivity. Qed.

Lemma run_segment s p : consistent s ->
  run (processSegment p) s =
  match devAt s (h_phone (pk_hdr p)) with
  | None => (Err ErrDeviceNotFound, s)
  | Some d =>
      match st_byID s !! d_sid d with
      | None => (Panic, s)
      | Some sl =>
          match st_sess s !! sl with
          | None => (Panic, s)
          | Some x => (Ok (Some (mkMsg (genMsgHeader (d_ver d) (d_proto d) (d_phone d) 0x8001 ((ss_sn x + 1) mod 65536))
                                       (B8001 (h_sn (pk_hdr p)) (h_id (pk_hdr p)) 0))),
                       bumped sl x s)
          end
      end
  end.
Proof.
  intros C. unfold processSegment. rewrite run_bind. unfold getDeviceByPhone, rd1. cbn [run ret].
  unfold devAt. destruct (st_byPhone s !! _) as [l|] eqn:E; [|reflexivity].
  destruct (cs_phone s C _ _ E) as (d & H1 & H2 & H3). rewrite H1.
  rewrite run_bind. unfold readConst. cbn [run]. rewrite H1. cbn [run ret].
  rewrite run_bind. unfold getSession, rd1. cbn [run ret].
  destruct (st_byID s !! d_sid d) as [sl|] eqn:E'; [|reflexivity].
  destruct (cs_sess s C _ _ E') as (x & Hx & _). rewrite Hx.
  destruct (cs_conn s C _ _ Hx) as (_ & Hb).
  rewrite run_bind, (run_nextSerial sl s x Hx Hb). reflexivity.
Qed.
Lemma kept_segment s p : consistent s -> kept (h_phone (pk_hdr p)) s (snd (run (processSegment p) s)).
Proof.
  intros C. rewrite run_segment by exact C.
  destruct (devAt s (h_phone (pk_hdr p))) as [d|]; [|apply kept_refl; exact C].
  destruct (st_byID s !! d_sid d) as [sl|]; [|apply kept_refl; exact C].
  destruct (st_sess s !! sl) as [x|] eqn:E; [|apply kept_refl; exact C].
  apply kept_bumped; assumption.
Qed.

Lemma genOutgoing_phone now k inc out : genOutgoing now k inc = Ok (Some out) ->
  h_phone (m_hdr out) = h_phone (m_hdr inc).
Proof.
  destruct k; cbn; try discriminate; try (intros [= <-]; reflexivity);
    destruct (m_body inc); try discriminate; intros [= <-]; reflexivity.
Qed.

Lemma kept_handler e sl s inc out : consistent s -> is_Some (st_sess s !! sl) ->
  h_phone (m_hdr out) = h_phone (m_hdr inc) ->
  (forall cnt ps, m_body inc = B8103 cnt ps -> exists d, ps = Some d /\ dp_phone d = h_phone (m_hdr inc)) ->
  (forall r, m_body inc = B0100 r -> exists sn c code, m_body out = B8100 sn c code) ->
  kept (h_phone (m_hdr inc)) s (snd (run (handler e sl inc out) s)).
Proof.
  intros C (x & Hx) Hph Hps Ho. unfold handler. set (ph := h_phone (m_hdr inc)) in *.
  assert (Hr : kept ph s s) by (apply kept_refl; exact C).
  assert (Hd : forall l, st_byPhone s !! ph = Some l -> exists d, st_devs s !! l = Some d /\ d_phone d = ph).
  { intros l H. destruct (cs_phone s C _ _ H) as (d & ? & ? & _). eauto. }
  destruct (m_body inc) eqn:Eb; try exact Hr.
  - destruct (st_byPhone s !! ph) as [l|] eqn:E.
    + rewrite (run_0002 s C inc out l E). destruct (Hd l eq_refl) as (d & H1 & H2). cbn.
      eapply kept_touch; [exact C|exact E|exact H1|reflexivity..].
    + rewrite run_0002_none by exact E. exact Hr.
  - destruct (st_byPhone s !! ph) as [l|] eqn:E.
    + destruct (Hd l eq_refl) as (d & H1 & H2). rewrite (run_0003 s C inc out l d E H1). cbn.
      rewrite <- H2. rewrite <- H2 in E. eapply kept_dropped; [exact C|exact E|exact H1].
    + rewrite run_0003_none by exact E. exact Hr.
  - destruct (Ho r eq_refl) as (sn & c & code & Eo). destruct out as [h bo]. cbn in Eo. subst bo.
    rewrite (run_0100 s sl x inc r h sn c code Hx). fold ph.
    destruct (st_byPlate s !! r_plate r) as [l|] eqn:Eq; [exact Hr|].
    destruct (st_byPhone s !! ph) as [l|] eqn:Ep; [exact Hr|]. cbn [snd].
    change ph with (d_phone (newDevice (m_hdr inc) r x (st_clock s))).
    apply kept_added; [exact C|exact Ep|exact Eq].
  - destruct (st_byPhone s !! ph) as [l|] eqn:E.
    + destruct (Hd l eq_refl) as (d & H1 & H2).
      rewrite (run_0102 s C inc code imei sw out l d E H1). case_bool_decide; cbn [snd].
      * eapply kept_touch; [exact C|exact E|exact H1|reflexivity..].
      * rewrite <- H2. rewrite <- H2 in E. eapply kept_dropped; [exact C|exact E|exact H1].
    + rewrite run_0102_none by exact E. exact Hr.
  - destruct (st_byPhone s !! ph) as [l'|] eqn:E.
    + destruct (Hd l' eq_refl) as (d & H1 & H2).
      destruct (run_0200 e s inc l out l' d C E H1) as (s' & Er & C1 & _ & Ho' & Hon & C').
      rewrite Er. cbn [snd].
      eapply (kept_trans _ _ (set_devs (alter (dozed (st_clock s) l) l') s)).
      * eapply kept_touch; [exact C|exact E|exact H1|..]; unfold dozed; destruct (N.testbit _ _); reflexivity.
      * apply kept_geo; [exact C'|exact Hon|exact Ho'].
    + rewrite run_0200_none by exact E. exact Hr.
  - unfold process8100. rewrite run_bind. unfold getDeviceByPhone, rd1. cbn [run ret].
    destruct (st_byPhone s !! _) as [l|]; [|exact Hr]. rewrite run_bind. unfold readDev. cbn [run].
    destruct (st_devs s !! l); exact Hr.
  - destruct (Hps cnt ps eq_refl) as (d & -> & Hp). rewrite run_8103. cbn [snd]. fold ph.
    apply kept_params; [exact C|]. destruct (st_params s !! ph) as [old|] eqn:E; [|exact Hp].
    cbn. exact (cs_params s C _ _ E).
  - unfold process8104. rewrite run_bind. unfold getDeviceParamsByPhone, rd1. cbn [run ret].
    rewrite Hph. destruct (st_params s !! ph) as [d|] eqn:E; [exact Hr|].
    rewrite run_bind. unfold lift. cbn [run].
    destruct (paramsDecode (e_o e) ph 39 (Str2Byte_slice paramByteStr)) as [d|er|] eqn:Ep; [|exact Hr..].
    cbn. apply kept_params; [exact C|]. revert Ep. unfold paramsDecode, rmap.
    destruct (paramsDecodeLoop _ _ _ _); [|discriminate..]. intros [= <-]. reflexivity.
Qed.

Lemma kept_process e sl s p : consistent s -> is_Some (st_sess s !! sl) ->
  kept (h_phone (pk_hdr p)) s (snd (run (process e sl p) s)).
Proof.
  intros C Hs. assert (Hr : kept (h_phone (pk_hdr p)) s s) by (apply kept_refl; exact C).
  rewrite run_process. destruct (lookupN _ _) as [[ik ok]|] eqn:El; [|exact Hr].
  destruct (isFragmented _ && _); [apply kept_segment; exact C|].
  destruct (msgDecode _ _ _ _) as [inc|er|] eqn:Ed; [|exact Hr..].
  pose proof (msgDecode_ok _ _ _ _ _ Ed) as (Hh & Hk).
  destruct ok as [k|].
  - destruct (genOutgoing _ _ _) as [[out|]|er|] eqn:Eg; [|exact Hr..].
    assert (Hkeep : kept (h_phone (m_hdr inc)) s (snd (run (handler e sl inc out) s))).
    { apply kept_handler; auto.
      - eapply genOutgoing_phone; eassumption.
      - intros cnt ps Eb. rewrite Hh. rewrite Eb in Hk. cbn in Hk. subst ik.
        eapply msgDecode_8103; eassumption.
      - intros r Eb. rewrite Eb in Hk. cbn in Hk. subst ik.
        assert (k = K8100) as ->.
        { clear -El. revert El. unfold optionTable. cbn [lookupN].
          repeat (destruct (_ =? _); [intros [= <-]; reflexivity || discriminate|]). discriminate. }
        cbn in Eg. rewrite Eb in Eg. injection Eg as <-. cbn. eauto. }
    rewrite Hh in Hkeep. destruct (run (handler e sl inc out) s) as [[m|er|] s']; exact Hkeep.
  - destruct (m_body inc) eqn:Eb; try exact Hr.
    pose proof (kept_8001 s inc res C) as Hk8. rewrite Hh in Hk8.
    destruct (run (process8001 inc res) s) as [[m|er|] s']; exact Hk8.
Qed.
