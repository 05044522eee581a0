(** A plate in use and a check that finds its device, under every schedule (C43, C59) *)
From stdpp Require Import gmap.
From Verif Require Import Base HexM TimeM HashM HeaderM ParamsM GeoM MsgM PacketM FrameM ProgM RingM SpecRing StateM ProcM ServerM ConcM
  SpecCodec SpecState SpecConc SpecReg SpecTimely ProgP StateP ProcP ServerP EffectP ConcP CmdP ReleaseP TimelyP.
Local Open Scope N_scope.

Section Plate.
Context (ph : str) (l0 : nat) (d0 : device) (jb spr : Prop).
Hypothesis Hph : d_phone d0 = ph.
Notation X := (X ph l0 d0 jb spr).
(** a registration of the plate *)
Lemma xs_refused e s sl p r : carries e s p 0x0100 (B0100 r) -> spr -> r_plate r = d_plate d0 ->
  xs X (fun _ o => exists m c, o = Ok (Some m) /\ answers p 0x8100 (B8100 (h_sn (pk_hdr p)) 1 c) m) s (process e sl p).
Proof.
  intros (Hid & Hf & Hd) Hsp Hr. unfold process. rewrite Hid. cbn [lookupN optionTable N.eqb Pos.eqb].
  replace (isFragmented (pk_hdr p) && negb (pk_segdone p)) with false
    by (unfold SpecCodec.fragment in Hf; fold (isFragmented (pk_hdr p)) in Hf; destruct Hf as [-> | ->]; [reflexivity|]; rewrite andb_false_r; reflexivity).
  unfold pbind at 1. cbn [pbindR getNow rd1 ret]. constructor; [auto|]. intros t _ X1 _ _ _ _. unfold lift.
  change (msgDecode (e_o e) (e_civil e (st_clock t)) K0100 p) with (msgDecode (e_o e) (e_civil e (st_clock s)) (kind_of (B0100 r)) p).
  rewrite Hd. unfold pbind at 1. cbn [pbindR getNow rd1 ret]. unfold pbind at 1. cbn [pbindR getNow rd1 ret m_body]. constructor; [auto|].
  intros t2 _ X2 _ _ _ _. unfold pbind at 1. cbn [pbindR getNow rd1 ret].
  cbn [genOutgoing m_body m_hdr]. unfold process0100, hasPlate, getDeviceByPlate, pbind, rd1, ret. cbn [pbindR].
  constructor; [auto|]. intros t3 _ X3 _ _ _ _. destruct X3 as (_ & _ & _ & _ & T). destruct (T Hsp) as (T1 & _).
  rewrite Hr, T1. constructor. intros u _ _ _. eexists _, _. split; reflexivity.
Qed.
(** a check of the phone *)
Lemma xs_check s : xs X (fun _ o => o = Ok tt) s (checkKeepalive ph).
Proof.
  unfold checkKeepalive, shouldTurnOffline, shouldClear, getDeviceByPhone, getNow, readDev, pbind, rd1, ret.
  assert (Hg : forall n dv, within d0 n -> good d0 dv -> (d_keep dv + d_last dv <? n)%Z = false).
  { intros n dv (_ & Hn) ((_ & _ & _ & _ & _ & Ek & _) & HL & _). apply Z.ltb_ge. rewrite Ek. lia. }
  cbn [pbindR]. constructor; [auto|]. intros t _ X1 _ _ _ _. destruct X1 as (C & B & _). rewrite B. cbn [pbindR].
  constructor; [auto|]. intros t2 _ X2 _ _ _ _. cbn [pbindR]. destruct X2 as (C2 & _).
  assert (Hs : forall dv, good d0 dv -> d_status dv =? Offline = false) by (intros dv (_ & _ & Hn); apply N.eqb_neq; exact Hn).
  constructor; [auto|]. intros t3 _ X3 _ _ _ _. destruct X3 as (C3 & _ & (d & D & G) & _). rewrite D. cbn [pbindR]. rewrite (Hs _ G). cbn [pbindR].
  constructor; [auto|]. intros t4 _ X4 _ _ _ _. destruct X4 as (C4 & _ & (d4 & D4 & G4) & _). rewrite D4. cbn [pbindR]. rewrite (Hg _ _ C2 G4). cbn [pbindR].
  constructor; [auto|]. intros t5 _ X5 _ _ _ _. cbn [pbindR].
  constructor; [auto|]. intros t6 _ X6 _ _ _ _. destruct X6 as (C6 & _ & (d6 & D6 & G6) & _). rewrite D6. cbn [pbindR]. rewrite (Hs _ G6).
  constructor. reflexivity.
Qed.
End Plate.

Lemma X_start s ph d l : consistent s -> st_byPhone s !! ph = Some l -> st_devs s !! l = Some d -> d_status d <> Offline -> within d (st_clock s) ->
  X ph l d True True s.
Proof.
  intros C Hb Hd Hon Hw. destruct (cs_phone s C _ _ Hb) as (d' & D' & Hph & Hpl). assert (d' = d) by congruence. subst d'.
  split_and!; auto.
  - exists d. split; [exact Hd|]. split_and!; [repeat split|lia|exact Hon].
  - intros _. apply (cs_jobs2 s C). eauto.
  - intros _. split; [exact Hpl|]. intros q l' d' Hq Hd' E. destruct (cs_phone s C _ _ Hq) as (d'' & D'' & _ & Hpl'). congruence.
Qed.
Lemma code_safe e gs s ph d l g : sane s -> X ph l d True True s -> d_phone d = ph -> In g gs ->
  (forall g, In g gs -> placed s g /\ harmless e ph d g) ->
  safe (xok (X ph l d True True)) grows (fun _ _ => True) s (code e g).
Proof.
  intros Hs Hx Hph Hin Hg. destruct (Hg g Hin) as (Hp & Hh).
  eapply safe_post; [exact grows_trans|eapply xs_safe; [apply (sf_code false); [exact Hs|exact Hp|discriminate]|]|auto].
  apply xs_code; [exact Hph|split; assumption|exact Hh].
Qed.
(** the plate of a device that stays: every registration of it is refused *)
Theorem plate_refused e gs s ph d sch sl p r o : consistent s -> sane s -> devAt s ph = Some d -> d_status d <> Offline ->
  within d (st_clock s) -> (forall g, In g gs -> placed s g /\ harmless e ph d g) ->
  is_Some (st_sess s !! sl) -> carries e s p 0x0100 (B0100 r) -> r_plate r = d_plate d ->
  nth_error (fst (beside e (process e sl p) gs s sch)) 0 = Some (Ret o) ->
  (exists m c, o = Ok (Some (Some m)) /\ answers p 0x8100 (B8100 (h_sn (pk_hdr p)) 1 c) m)
  /\ exists d', devWithPlate (snd (beside e (process e sl p) gs s sch)) (d_plate d) = Some d' /\ same_identity d d'.
Proof.
  intros C Hs Hd Hon Hw Hg Hsl Hc Hr Ho. unfold devAt in Hd. destruct (st_byPhone s !! ph) as [l|] eqn:Eb; [|discriminate].
  destruct (sn_phone s Hs _ _ Eb) as (d1 & D1 & Hph). assert (d1 = d) by congruence. subst d1.
  pose proof (X_start s ph d l C Eb D1 Hon Hw) as Hx.
  set (P := fun (_ : st) (o : res (option msg)) => exists m c, o = Ok (Some m) /\ answers p 0x8100 (B8100 (h_sn (pk_hdr p)) 1 c) m).
  set (Q := fun (_ : st) (o : res (option (option msg))) => exists m c, o = Ok (Some (Some m)) /\ answers p 0x8100 (B8100 (h_sn (pk_hdr p)) 1 c) m).
  assert (H0 : safe (xok (X ph l d True True)) grows Q s (x <- process e sl p ;; ret (Some x))%prog).
  { eapply (safe_bindR _ _ grows_refl grows_trans (fun t o => P t o)); [| |split; assumption].
    - eapply safe_post; [exact grows_trans|eapply xs_safe; [apply (sf_process false); [exact Hs|exact Hsl|discriminate]|]|intros t x _ _ (_ & H); exact H].
      apply (xs_refused ph l d True True e s sl p r Hc Logic.I Hr).
    - intros t x _ _ (m & c & -> & A). constructor. intros u _ _. exists m, c. auto. }
  destruct (psteps_safe_i (xok (X ph l d True True)) grows grows_refl grows_trans
    (fun i => match i with O => Q | _ => fun _ _ => True end) sch
    ((x <- process e sl p ;; ret (Some x))%prog :: List.map (fun g => (code e g ;;; ret None)%prog) gs) s) as (Hend & _ & H).
  - split; assumption.
  - intros [|j] q Hj; cbn in Hj; [injection Hj as <-; exact H0|]. rewrite nth_error_map in Hj.
    destruct (nth_error gs j) as [g|] eqn:E; [|discriminate]. injection Hj as <-. apply nth_error_In in E.
    eapply (safe_bindR _ _ grows_refl grows_trans (fun _ _ => True)); [eapply code_safe; eassumption| |split; assumption].
    intros t [u|er|] _ _ _; constructor; auto.
  - split.
    + specialize (H O _ Ho). inversion H as [? ? Hq|]; subst. exact (Hq _ Hend (grows_refl _)).
    + destruct Hend as (_ & _ & _ & (d' & D' & (I' & _)) & _ & T). exists d'. split; [|exact I'].
      unfold devWithPlate, beside. rewrite (proj1 (T Logic.I)). exact D'.
Qed.
(** its checks come to their end *)
Theorem checks_end e gs s ph d sch i r : consistent s -> sane s -> devAt s ph = Some d -> d_status d <> Offline ->
  within d (st_clock s) -> (forall g, In g gs -> placed s g /\ harmless e ph d g) ->
  nth_error gs i = Some (GTick ph) -> nth_error (fst (running e gs s sch)) i = Some (Ret r) -> r = Ok tt.
Proof.
  intros C Hs Hd Hon Hw Hg Hi Hr. unfold devAt in Hd. destruct (st_byPhone s !! ph) as [l|] eqn:Eb; [|discriminate].
  destruct (sn_phone s Hs _ _ Eb) as (d1 & D1 & Hph). assert (d1 = d) by congruence. subst d1.
  pose proof (X_start s ph d l C Eb D1 Hon Hw) as Hx.
  destruct (psteps_safe_i (xok (X ph l d True True)) grows grows_refl grows_trans
    (fun j => if Nat.eqb j i then fun _ o => o = Ok tt else fun _ _ => True) sch (List.map (code e) gs) s) as (Hend & _ & H).
  - split; assumption.
  - intros j q Hj. rewrite nth_error_map in Hj. destruct (nth_error gs j) as [g|] eqn:E; [|discriminate]. injection Hj as <-.
    destruct (Nat.eqb_spec j i) as [->|_].
    + rewrite Hi in E. injection E as <-.
      eapply safe_post; [exact grows_trans|eapply xs_safe; [apply sf_tick; exact Hs|apply xs_check]|intros t x _ _ (_ & Hq); exact Hq].
    + apply nth_error_In in E. eapply code_safe; eassumption.
  - specialize (H i _ Hr). rewrite Nat.eqb_refl in H. inversion H as [? ? Hq|]; subst. exact (Hq _ Hend (grows_refl _)).
Qed.

(** a code given by an earlier registration (C101) *)
Theorem old_code e sl s p al c imei sw id plate : consistent s -> carries e s p 0x0102 (B0102 al c imei sw) ->
  is_code id plate (h_phone (pk_hdr p)) c ->
  match devAt s (h_phone (pk_hdr p)) with
  | None => run (process e sl p) s = (Err ErrDeviceNotFound, s)
  | Some d => exists m s', run (process e sl p) s = (Ok (Some m), s')
      /\ (answers p 0x8001 (B8001 (h_sn (pk_hdr p)) 0x0102 0) m
          <-> fnv1a 0x811c9dc5 (id ++ [95] ++ plate ++ [95] ++ h_phone (pk_hdr p))
            = fnv1a 0x811c9dc5 (d_id d ++ [95] ++ d_plate d ++ [95] ++ h_phone (pk_hdr p)))
  end.
Proof.
  intros C Hc Hi. destruct (devAt s (h_phone (pk_hdr p))) as [d|] eqn:Ed.
  - destruct (authentication e sl s p al c imei sw d C Hc Ed) as (m & s' & R & _ & _ & _ & Hy & Hn). exists m, s'. split; [exact R|].
    destruct (devAt_Some _ C _ _ Ed) as (l & _ & _ & Hp & _). rewrite Hp in Hy, Hn.
    assert (Hk : exists c', is_code (d_id d) (d_plate d) (h_phone (pk_hdr p)) c').
    { exists (genAuthCode d). rewrite <- Hp. apply code_iff. reflexivity. }
    destruct Hk as (c' & Hc'). pose proof (codes_equal _ _ _ _ _ _ _ _ Hi Hc') as He. rewrite <- He. split.
    + intros A. destruct (decide (c = c')) as [->|Hne]; [reflexivity|]. exfalso.
      assert (Hno : ~ is_code (d_id d) (d_plate d) (h_phone (pk_hdr p)) c).
      { intros H. apply Hne. apply (codes_equal _ _ _ _ _ _ _ _ H Hc'). reflexivity. }
      destruct (Hn Hno) as (A' & _). unfold answers in A, A'. rewrite A in A'. discriminate A'.
    + intros ->. apply Hy. exact Hc'.
  - erewrite process_carries; [|exact Hc|reflexivity|reflexivity]. unfold handler. cbn [m_body].
    unfold process0102. rewrite run_bind. cbn [m_hdr]. cbn [run getDeviceByPhone rd1 ret fst snd].
    rewrite (proj1 (devAt_None s C _) Ed). reflexivity.
Qed.
