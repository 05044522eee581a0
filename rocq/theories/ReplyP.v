(** Which messages change what, and the replies *)
From stdpp Require Import gmap.
From Verif Require Import Base HexM TimeM HashM HeaderM ParamsM GeoM MsgM PacketM FrameM ProgM ProgP RingM SpecRing RingP
  StateM ProcM ServerM SpecState SpecCodec HexP HeaderP MsgP CodecP CodecP3 StateP ProcP ServerP ParamsP EffectP.
Local Open Scope N_scope.

(** * The option table *)
(** the message ids the server handles *)
Definition handled : list N :=
  [0x0001; 0x0002; 0x0003; 0x0100; 0x0102; 0x0104; 0x0200; 0x1205; 0x8001; 0x8100; 0x8103; 0x8104; 0x9205].
Lemma lookupN_In {A} (l : list (N * A)) i a : lookupN l i = Some a -> In (i, a) l.
Proof.
  induction l as [|(j, b) l IH]; cbn; [discriminate|]. destruct (N.eqb_spec j i) as [->|_].
  - intros [= ->]. left; reflexivity.
  - intros H. right. apply IH, H.
Qed.
Lemma lookupN_None {A} (l : list (N * A)) i : lookupN l i = None <-> ~ In i (List.map fst l).
Proof.
  induction l as [|(j, b) l IH]; cbn; [tauto|]. destruct (N.eqb_spec j i) as [->|Hn].
  - split; [discriminate|]. intros H. exfalso. apply H. left; reflexivity.
  - rewrite IH. intuition congruence.
Qed.
Lemma handled_iff i : lookupN optionTable i = None <-> ~ In i handled.
Proof. apply lookupN_None. Qed.

(** C53 *)
Lemma unsupported e sl s p : isFragmented (pk_hdr p) = false -> ~ In (h_id (pk_hdr p)) handled ->
  run (process e sl p) s = (Err ErrMsgIDNotSupportted, s).
Proof. intros Hf Hi. rewrite run_process. apply handled_iff in Hi. rewrite Hi. reflexivity. Qed.
Lemma unsupported_frame e sl s x frm p w : st_sess s !! sl = Some x ->
  decodePacket (e_o e) frm = Ok p -> isFragmented (pk_hdr p) = false -> ~ In (h_id (pk_hdr p)) handled ->
  run (serveLoop e sl [(Ok frm, w)]) s = (Ok false, s).
Proof.
  intros Hx Hd Hf Hi. cbn [serveLoop]. rewrite run_bindR. unfold serveOne. rewrite run_bind. cbn [readSess run].
  rewrite Hx. cbn [run ret]. rewrite run_bindR, run_read. unfold frameOut. rewrite run_bind. cbn [lift run].
  rewrite run_bind. unfold decodeP. rewrite run_bind. cbn [lift run]. rewrite Hd, Hf. cbn [run ret].
  rewrite (unsupported e sl s p Hf Hi). reflexivity.
Qed.

(** * Status changes *)
(** C47: the only ways out of the offline status *)
Lemma status_change e sl s p q d d' : consistent s -> is_Some (st_sess s !! sl) ->
  devAt s q = Some d -> d_status d = Offline ->
  devAt (snd (run (process e sl p) s)) q = Some d' -> d_status d' <> Offline ->
  q = h_phone (pk_hdr p) /\
  ((exists al c i w, carries e s p 0x0102 (B0102 al c i w) /\ is_code (d_id d) (d_plate d) (d_phone d) c)
   \/ (exists a b, carries e s p 0x8001 (B8001 a b 0))
   \/ (exists m, carries e s p 0x0200 (B0200 m) /\ N.testbit (l_status m) 0 = false)).
Proof.
  intros C Hsl Hd Ho Hd' Ho'. destruct (decide (q = h_phone (pk_hdr p))) as [Hq|Hq].
  2:{ destruct (kp_iso _ _ _ (kept_process e sl s p C Hsl) q Hq) as (E & _). congruence. }
  split; [exact Hq|]. subst q.
  assert (K : devAt (snd (run (process e sl p) s)) (h_phone (pk_hdr p)) <> devAt s (h_phone (pk_hdr p))) by congruence.
  destruct (devAt_Some s C _ _ Hd) as (l & H & H1 & Hp & Hpl).
  rewrite run_process in K. destruct (lookupN optionTable (h_id (pk_hdr p))) as [[ik ok]|] eqn:El; [|exfalso; apply K; reflexivity].
  destruct (isFragmented (pk_hdr p) && negb (pk_segdone p)) eqn:Ef.
  { rewrite run_segment in K by exact C. rewrite Hd in K.
    exfalso. apply K. rewrite <- Hd. destruct (st_byID s !! d_sid d); [|reflexivity].
    destruct (st_sess s !! n); reflexivity. }
  assert (Hfr : isFragmented (pk_hdr p) = false \/ pk_segdone p = true).
  { destruct (isFragmented (pk_hdr p)); [|auto]. destruct (pk_segdone p); [auto|discriminate]. }
  destruct (msgDecode (e_o e) (e_civil e (st_clock s)) ik p) as [inc|er|] eqn:Ed; [|exfalso; apply K; reflexivity..].
  destruct (msgDecode_ok _ _ _ _ _ Ed) as (Hh & Hk). destruct inc as [h b]. cbn in Hh, Hk. subst h.
  apply lookupN_In in El.
  assert (Hc : forall b0 i, b = b0 -> h_id (pk_hdr p) = i -> ik = kind_of b0 -> carries e s p i b0).
  { intros b0 i -> Hi ->. split; [exact Hi|]. split; [exact Hfr|exact Ed]. }
  destruct El as [El|[El|[El|[El|[El|[El|[El|[El|[El|[El|[El|[El|[El|[]]]]]]]]]]]]]]; injection El as Hid <- <-.
  all: destruct b; try discriminate Hk; cbn [m_body m_hdr] in K.
  - exfalso; apply K; reflexivity.
  - exfalso. cbn [genOutgoing] in K. unfold handler in K. cbn [m_body] in K.
    rewrite (run_0002 s C (mkMsg (pk_hdr p) B0002) _ l H) in K. clear K.
    destruct (heartbeat e sl s p d C (Hc _ _ eq_refl (eq_sym Hid) eq_refl) Hd) as (rp & s' & E & _ & _ & E' & _).
    rewrite E in Hd'. cbn [snd] in Hd'. rewrite E' in Hd'. injection Hd' as <-. cbn in Ho'. congruence.
  - exfalso. destruct (logout e sl s p d C (Hc _ _ eq_refl (eq_sym Hid) eq_refl) Hd) as (rp & s' & E & _ & _ & E' & _).
    rewrite E in Hd'. cbn [snd] in Hd'. congruence.
  - exfalso. destruct Hsl as (x & Hx).
    destruct (registration e sl s p _ x C (Hc _ _ eq_refl (eq_sym Hid) eq_refl) Hx) as (rp & s' & E & E').
    rewrite E in Hd'. cbn [snd] in Hd'. rewrite Hd in E'.
    destruct (devWithPlate s _); destruct E' as (_ & ->); congruence.
  - left. destruct (authentication e sl s p _ _ _ _ d C (Hc _ _ eq_refl (eq_sym Hid) eq_refl) Hd)
      as (rp & s' & E & _ & _ & _ & A & B). rewrite E in Hd'. cbn [snd] in Hd'.
    eexists _, _, _, _. split; [apply (Hc _ _ eq_refl (eq_sym Hid) eq_refl)|].
    destruct (decide (code = genAuthCode d)) as [->|Hn]; [apply code_iff; reflexivity|].
    destruct B as (_ & B & _); [|congruence]. intros Hy. apply Hn. apply (code_iff d). exact Hy.
  - exfalso; apply K; reflexivity.
  - right. right. eexists. split; [apply (Hc _ _ eq_refl (eq_sym Hid) eq_refl)|].
    destruct (N.testbit (l_status l0) 0) eqn:Eb; [|reflexivity]. exfalso.
    assert (Ht : exists ws, track s (h_phone (pk_hdr p)) ws).
    { unfold track, ringOf. destruct (st_geo s !! h_phone (pk_hdr p)) as [g|] eqn:Eg; [|eauto].
      destruct (cs_geo s C _ _ Eg) as (r & ws & Hr & Hw & _). rewrite Hr. eauto. }
    destruct Ht as (ws & Ht).
    destruct (location e sl s p l0 d ws C (Hc _ _ eq_refl (eq_sym Hid) eq_refl) Hd Ht) as (r & s' & g & E & _ & _ & _ & _ & E' & _).
    rewrite E in Hd'. cbn [snd] in Hd'. rewrite E', Eb in Hd'. congruence.
  - exfalso; apply K; reflexivity.
  - right. left. match type of Ed with _ = Ok (mkMsg _ (B8001 _ _ ?x)) => rename x into r end. destruct (N.eq_dec r 0) as [->|Hr].
    + eexists _, _. apply (Hc _ _ eq_refl (eq_sym Hid) eq_refl).
    + exfalso. rewrite run_8001 in K by exact C. replace (r =? 0) with false in K; [|symmetry; apply N.eqb_neq; exact Hr].
      apply K. reflexivity.
  - exfalso. cbn [genOutgoing m_body] in K. unfold handler in K. cbn in K. rewrite H in K. cbn in K. rewrite H1 in K. apply K. reflexivity.
  - exfalso. destruct (msgDecode_8103 _ _ _ _ _ _ Ed eq_refl) as (dp & -> & _).
    cbn [genOutgoing m_body] in K. unfold handler in K. cbn [m_body] in K. rewrite run_8103 in K. cbn in K. apply K. reflexivity.
  - exfalso. cbn [genOutgoing m_body] in K. unfold handler in K. cbn [m_body] in K.
    apply K. unfold process8104. cbn [m_hdr]. rewrite run_bind. cbn [getDeviceParamsByPhone rd1 run ret].
    destruct (st_params s !! _); [reflexivity|]. rewrite run_bind. cbn [lift run].
    destruct (paramsDecode _ _ _ _); reflexivity.
  - exfalso. apply K. reflexivity.
Qed.

Lemma reply_wakes e sl s p a b d : consistent s -> carries e s p 0x8001 (B8001 a b 0) ->
  devAt s (h_phone (pk_hdr p)) = Some d -> d_status d = Offline ->
  exists s', run (process e sl p) s = (Ok None, s') /\ consistent s'
    /\ devAt s' (h_phone (pk_hdr p)) =
       Some (mkDevice (d_id d) (d_plate d) (d_phone d) (d_sid d) (d_conn d) (d_keep d) (st_clock s)
                      Online (d_ver d) (d_proto d) (d_auth d) (d_imei d) (d_sw d)).
Proof.
  intros C (Hid & Hf & Hd) Hdv Hs. destruct (devAt_Some s C _ _ Hdv) as (l & H & H1 & Hp & Hq).
  rewrite run_process, Hid. cbn [lookupN optionTable N.eqb Pos.eqb].
  replace (isFragmented (pk_hdr p) && negb (pk_segdone p)) with false.
  2:{ unfold fragment in Hf; fold (isFragmented (pk_hdr p)) in Hf; destruct Hf as [-> | ->]; [reflexivity|]. rewrite andb_false_r. reflexivity. }
  cbn [kind_of] in Hd. rewrite Hd. cbn [m_body]. rewrite run_8001 by exact C. cbn [m_hdr N.eqb]. rewrite H, H1, Hs. cbn [N.eqb Offline].
  eexists. split; [reflexivity|].
  destruct (touch_spec s C (fun d => dset_last (dset_status d Online) (st_clock s)) _ l d H H1) as (T1 & _).
  split; [eapply touch_ok; [exact C|exact H1|reflexivity..]|]. exact T1.
Qed.

(** * The outgoing message *)
(** every result of the program satisfies P *)
Definition results {A} (P : A -> Prop) (p : sp A) : Prop :=
  forall s a s', run p s = (Ok a, s') -> P a.
Lemma results_bind {A B} (P : B -> Prop) (p : sp A) g : (forall a, results P (g a)) -> results P (pbind p g).
Proof.
  intros H s b s' E. rewrite run_bind in E. destruct (run p s) as [[a|er|] s1] eqn:E1; [|discriminate..].
  exact (H a s1 b s' E).
Qed.
Lemma results_ret {A} (P : A -> Prop) a : P a -> results P (ret a).
Proof. intros H s b s' E. injection E as <- _. exact H. Qed.
Lemma results_err {A} (P : A -> Prop) e : results P (fail e).
Proof. intros s b s' E. discriminate. Qed.
Lemma results_panic {A} (P : A -> Prop) : results P panic.
Proof. intros s b s' E. discriminate. Qed.

(** "AuthCode" *)
Definition noCode : str := [65; 117; 116; 104; 67; 111; 100; 101].
(** what a handler makes of the message GenOutgoing prepared *)
Definition filled (out m : msg) : Prop :=
  m_hdr m = m_hdr out /\
  match m_body out with
  | B8001 sn id _ => exists r, m_body m = B8001 sn id r
  | B8100 sn _ c => exists r c', m_body m = B8100 sn r c' /\ (c' = c \/ exists d, c' = genAuthCode d)
  | B0102 al c _ _ => exists i w, m_body m = B0102 al c i w
  | B0104 sn cnt _ => exists d, m_body m = B0104 sn cnt d
  | B1205 sn _ _ z => exists q n, m_body m = B1205 sn n q z
  | b => m_body m = b
  end.
Lemma filled_same out : filled out out.
Proof. split; [reflexivity|]. destruct (m_body out); eauto 6. Qed.
Lemma handler_filled e sl inc out : results (filled out) (handler e sl inc out).
Proof.
  unfold handler, process0002, process0003, process0100, process0102, process0200, process8100, process8103,
    process8104, process9205, set8100.
  destruct (m_body inc);
    repeat first
      [ apply results_bind; intros
      | apply results_err | apply results_panic
      | match goal with
        | |- results _ (match ?x with _ => _ end) => destruct x
        | |- results _ (if ?x then _ else _) => destruct x
        | |- results _ (let _ := _ in _) => cbv zeta
        end ].
  all: apply results_ret; try apply filled_same.
  all: destruct out as [h b]; cbn [m_hdr m_body]; split; destruct b; cbn [m_hdr m_body]; eauto 8.
Qed.

Lemma process_filled e sl s p m s' : run (process e sl p) s = (Ok (Some m), s') ->
  isFragmented (pk_hdr p) = false \/ pk_segdone p = true ->
  exists k b out, In (h_id (pk_hdr p), (kind_of b, Some k)) optionTable
    /\ carries e s p (h_id (pk_hdr p)) b
    /\ genOutgoing (e_civil e (st_clock s)) k (mkMsg (pk_hdr p) b) = Ok (Some out) /\ filled out m.
Proof.
  intros E Hf. rewrite run_process in E.
  destruct (lookupN optionTable (h_id (pk_hdr p))) as [[ik ok]|] eqn:El; [|discriminate].
  replace (isFragmented (pk_hdr p) && negb (pk_segdone p)) with false in E.
  2:{ unfold fragment in Hf; fold (isFragmented (pk_hdr p)) in Hf; destruct Hf as [-> | ->]; [reflexivity|]. rewrite andb_false_r. reflexivity. }
  destruct (msgDecode (e_o e) (e_civil e (st_clock s)) ik p) as [inc|er|] eqn:Ed; [|discriminate..].
  destruct (msgDecode_ok _ _ _ _ _ Ed) as (Hh & Hk). destruct inc as [h b]. cbn in Hh, Hk. subst h ik.
  apply lookupN_In in El. destruct ok as [k|].
  2:{ destruct (m_body _); try discriminate. destruct (run _ s) as [[|er|] ?]; discriminate. }
  destruct (genOutgoing _ k _) as [[out|]|er|] eqn:Eg; [|discriminate..].
  exists k, b, out. split; [exact El|]. split; [split; [reflexivity|split; assumption]|]. split; [exact Eg|].
  destruct (run (handler _ _ _ _) s) as [[m'|er|] s1] eqn:Er; [|discriminate..].
  cbn in E. injection E as <- <-. eapply handler_filled. exact Er.
Qed.
Lemma process_reply e sl s p m s' : run (process e sl p) s = (Ok (Some m), s') ->
  isFragmented (pk_hdr p) = false \/ pk_segdone p = true ->
  m_hdr m = hdr_set_id (pk_hdr p) (h_id (m_hdr m))
  /\ match m_body m with
     | B8001 sn id r => h_id (m_hdr m) = 0x8001 /\ sn = h_sn (pk_hdr p) /\ id = h_id (pk_hdr p)
                        /\ In id [0x0002; 0x0003; 0x0102; 0x0200]
     | B8100 sn r c => h_id (m_hdr m) = 0x8100 /\ sn = h_sn (pk_hdr p) /\ h_id (pk_hdr p) = 0x0100
                       /\ (c = noCode \/ exists d, c = genAuthCode d)
     | B0001 sn id r => h_id (m_hdr m) = 0x0001 /\ sn = h_sn (pk_hdr p) /\ id = h_id (pk_hdr p) /\ r = 0
                        /\ id = 0x8103
     | B0104 sn _ _ => h_id (m_hdr m) = 0x0104 /\ sn = h_sn (pk_hdr p) /\ h_id (pk_hdr p) = 0x8104
     | B1205 sn _ _ _ => h_id (m_hdr m) = 0x1205 /\ sn = h_sn (pk_hdr p) /\ h_id (pk_hdr p) = 0x9205
     | B0102 _ _ _ _ => h_id (m_hdr m) = 0x0102 /\ h_id (pk_hdr p) = 0x8100
     | _ => False
     end.
Proof.
  intros E Hf. destruct (process_filled e sl s p m s' E Hf) as (k & b & out & Ht & Hc & Hg & (Fh & Fb)).
  destruct m as [mh mb]. cbn [m_hdr m_body] in *.
  destruct Ht as [Ht|[Ht|[Ht|[Ht|[Ht|[Ht|[Ht|[Ht|[Ht|[Ht|[Ht|[Ht|[Ht|[]]]]]]]]]]]]]];
    try discriminate Ht; injection Ht as Hid Hk <-;
    destruct b; try discriminate Hk; cbn in Hg; injection Hg as <-; cbn [m_hdr m_body] in *; subst mh.
  all: try (destruct Fb as (r1 & ->)); try (destruct Fb as (r1 & c1 & -> & Fc)); try (destruct Fb as (i1 & w1 & ->));
       try subst mb; cbn [h_id hdr_set_id]; rewrite <- ?Hid; (split; [reflexivity|]); cbn [In]; intuition.
Qed.

(** ** Decoded headers are well formed *)
Lemma be16_bound w : bytes_ok w = true -> be16 w < 65536.
Proof.
  intros H. destruct w as [|a [|b [|]]]; cbn; try lia.
  apply bytes_ok_cons in H as (Ha & H). apply bytes_ok_cons in H as (Hb & _). lia.
Qed.
Lemma forallb_firstn {A} (f : A -> bool) n l : forallb f l = true -> forallb f (firstn n l) = true.
Proof.
  revert l. induction n as [|n IH]; intros [|x l] H; cbn in *; auto. apply andb_prop in H as (H1 & H2). rewrite H1. apply IH, H2.
Qed.
Lemma forallb_skipn {A} (f : A -> bool) n l : forallb f l = true -> forallb f (skipn n l) = true.
Proof.
  revert l. induction n as [|n IH]; intros [|x l] H; cbn in *; auto. apply andb_prop in H as (H1 & H2). apply IH, H2.
Qed.
Lemma readSub_ok n sl i w j : bytes_ok (sl_data sl ++ sl_spare sl) = true -> readSub n sl i = Ok (w, j) -> bytes_ok w = true.
Proof.
  intros Hb. unfold readSub, sl_sub. intros H. destruct (_ && _)%bool in H; [|discriminate].
  injection H as <- _. apply forallb_firstn, forallb_skipn, Hb.
Qed.
Lemma ReadWord_bound sl i w j : bytes_ok (sl_data sl ++ sl_spare sl) = true -> ReadWord sl i = Ok (w, j) -> w < 65536.
Proof.
  intros Hb H. unfold ReadWord in H. rd_inv H. injection H as <- _. apply be16_bound. eapply readSub_ok; eassumption.
Qed.
Lemma ReadByte_bound sl i w j : bytes_ok (sl_data sl ++ sl_spare sl) = true -> ReadByte sl i = Ok (w, j) -> w < 256.
Proof.
  intros Hb H. unfold ReadByte, sl_at in H. apply bytes_ok_app in Hb as (Hb & _).
  destruct (nth_error (sl_data sl) i) as [x|] eqn:E; [|discriminate]. injection H as <- _.
  rewrite bytes_ok_In in Hb. apply Hb. eapply nth_error_In. exact E.
Qed.
Lemma decodeHeader_wf sl i h j : bytes_ok (sl_data sl ++ sl_spare sl) = true -> decodeHeader sl i = Ok (h, j) ->
  digits (h_phone h) = true -> length (h_phone h) = phone_digits (a_ver (h_attr h)) -> hdr_wf h.
Proof.
  intros Hb H Hd Hl. unfold decodeHeader in H.
  rd_inv H. injection H as <- _. cbn [h_phone h_attr h_id h_proto h_frag h_sn] in *.
  assert (Hid : a < 65536) by (eapply ReadWord_bound; eassumption).
  assert (Hw : a0 < 65536) by (eapply ReadWord_bound; eassumption).
  assert (Hsn : a3 < 65536) by (eapply ReadWord_bound; eassumption).
  unfold hdr_wf. cbn [h_phone h_attr h_id h_proto h_frag h_sn].
  split; [exact Hid|]. split; [apply attrDecode_wf; exact Hw|]. split; [exact Hsn|]. split; [exact Hd|]. split; [exact Hl|]. split.
  - destruct (version_eqb _ _); [eapply ReadByte_bound; eassumption|]. injection E1 as <- _. reflexivity.
  - destruct (a_fragd _).
    + apply rd_bind_ok in E4 as (f & j' & E4 & E5). injection E5 as <- _. exists f. split; [reflexivity|].
      unfold fragDecode in E4. rd_inv E4. injection E4 as <- _.
      split; cbn; eapply ReadWord_bound; eassumption.
    + injection E4 as <- _. reflexivity.
Qed.
Lemma decodePacket_wf o c p : bytes_ok c = true -> decodePacket o (framed c) = Ok p ->
  digits (h_phone (pk_hdr p)) = true -> length (h_phone (pk_hdr p)) = phone_digits (a_ver (h_attr (pk_hdr p))) ->
  hdr_wf (pk_hdr p).
Proof.
  intros Hb H Hd Hl. pose proof (unescape_framed_ok c Hb) as Hu. unfold decodePacket in H.
  destruct (framed c) as [|x t] eqn:Ef; [discriminate|]. rewrite <- Ef in *. unfold rbind in H.
  destruct (verify o (unescape (framed c))) as [sl|er|] eqn:Ev; [|discriminate..].
  destruct (decodeHeader sl O) as [[h j]|er|] eqn:Eh; [|discriminate..].
  destruct (sl_from sl (snd (h, j))); [|discriminate..]. injection H as <-. cbn [pk_hdr fst] in *.
  eapply decodeHeader_wf; [|exact Eh|exact Hd|exact Hl].
  revert Hu Ev. generalize (unescape (framed c)). intros u Hu Ev.
  unfold verify in Ev. destruct (length u) as [|n] eqn:En; [discriminate|].
  destruct (_ =? _); [|discriminate]. injection Ev as <-. cbn [sl_data sl_spare].
  apply bytes_ok_app. split; [apply forallb_firstn; exact Hu|]. apply bytes_ok_cons. split.
  - rewrite bytes_ok_In in Hu. apply Hu. apply nth_In. lia.
  - apply bytes_ok_In. intros b Hi. apply repeat_spec in Hi. subst. reflexivity.
Qed.
Lemma hdr_set_id_wf h i : hdr_wf h -> i < 65536 -> hdr_wf (hdr_set_id h i).
Proof. intros (H1 & H2 & H3 & H4 & H5 & H6 & H7) Hi. unfold hdr_wf. cbn. auto 10. Qed.
Lemma itoa_fuel_length fuel : forall n acc, (length (itoa_fuel fuel n acc) <= fuel + length acc)%nat.
Proof.
  induction fuel as [|f IH]; intros n acc; cbn; [lia|]. destruct (n <? 10); [cbn; lia|].
  specialize (IH (n / 10) ((48 + n mod 10) :: acc)). cbn [length] in IH. lia.
Qed.

(** C68 *)
Lemma reply_decodable e sl s c p m s' w : bytes_ok c = true -> decodePacket (e_o e) (framed c) = Ok p ->
  isFragmented (pk_hdr p) = false -> digits (h_phone (pk_hdr p)) = true ->
  length (h_phone (pk_hdr p)) = phone_digits (a_ver (h_attr (pk_hdr p))) ->
  run (process e sl p) s = (Ok (Some m), s') -> encBody (e_o e) (m_hdr m) (m_body m) = Ok w -> (length w < 1024)%nat ->
  exists frm p', encodePacket (e_o e) m = Ok frm /\ decodePacket (e_o e) frm = Ok p'
    /\ h_id (pk_hdr p') = h_id (m_hdr m) /\ h_phone (pk_hdr p') = h_phone (pk_hdr p)
    /\ a_ver (h_attr (pk_hdr p')) = a_ver (h_attr (pk_hdr p)) /\ h_proto (pk_hdr p') = h_proto (pk_hdr p)
    /\ h_sn (pk_hdr p') = h_sn (pk_hdr p) /\ isFragmented (pk_hdr p') = false
    /\ a_len (h_attr (pk_hdr p')) = N.of_nat (length w) /\ sl_data (pk_body p') = w.
Proof.
  intros Hb Hd Hf Hdig Hlen Hr He Hw.
  pose proof (decodePacket_wf _ _ _ Hb Hd Hdig Hlen) as Hwf.
  destruct (process_reply _ _ _ _ _ _ Hr (or_introl Hf)) as (Hh & Hbd).
  assert (Hid : h_id (m_hdr m) < 65536).
  { destruct (m_body m); try contradiction; destruct Hbd as (-> & _); reflexivity. }
  assert (Hwf' : hdr_wf (m_hdr m)) by (rewrite Hh; apply hdr_set_id_wf; assumption).
  destruct m as [h b]. cbn [m_hdr m_body] in *.
  destruct (packet_delivered (e_o e) h b w Hwf' He Hw) as (frm & p' & E1 & E2 & E3 & E4).
  exists frm, p'. split; [exact E1|]. split; [exact E2|]. rewrite E3, Hh. cbn. auto 10.
Qed.
Lemma reply_short e sl s p m s' : run (process e sl p) s = (Ok (Some m), s') ->
  isFragmented (pk_hdr p) = false -> In (h_id (pk_hdr p)) [0x0002; 0x0003; 0x0100; 0x0102; 0x0200; 0x8103] ->
  exists w, encBody (e_o e) (m_hdr m) (m_body m) = Ok w /\ (length w < 1024)%nat.
Proof.
  intros Hr Hf Hin. destruct (process_reply _ _ _ _ _ _ Hr (or_introl Hf)) as (_ & Hbd).
  destruct (m_body m) eqn:Eb; try contradiction.
  - eexists. split; [reflexivity|]. cbn. lia.
  - destruct Hbd as (_ & Hi). rewrite Hi in Hin. cbn in Hin. intuition discriminate.
  - destruct Hbd as (_ & _ & Hi). rewrite Hi in Hin. cbn in Hin. intuition discriminate.
  - destruct Hbd as (_ & _ & Hi). rewrite Hi in Hin. cbn in Hin. intuition discriminate.
  - eexists. split; [reflexivity|]. cbn. lia.
  - eexists. split; [reflexivity|]. destruct Hbd as (_ & _ & _ & [->|(d & ->)]).
    + cbn. lia.
    + unfold genAuthCode, itoa. pose proof (itoa_fuel_length 20 (FNV32 (d_id d ++ 95 :: d_plate d ++ 95 :: d_phone d)) []) as L.
      cbn [length] in L. unfold WriteString, WriteByte, WriteWord, put16.
      rewrite !app_length. cbn [length app]. lia.
Qed.
