(** Races of the simulator's goroutines *)
From stdpp Require Import gmap.
From Verif Require Import Base HexM TimeM HeaderM ParamsM GeoM MsgM PacketM FrameM ProgM ProgP RingM
  StateM ProcM ServerM ConcM ClientM DatagenM SimConcM SpecState SpecHonest SpecOwn StateP ProcP ServerP EffectP RaceP InterP
  HonestP OwnP.
Local Open Scope N_scope.

(** ** Which synchronisation protects what *)
Lemma acc_csend e sl m w : all_acc disciplined (clientSend e sl m w).
Proof. unfold clientSend, clientStop, processConnWrite, connSend, connClose, readSess. acc. Qed.
Lemma acc_tcode e g : all_acc disciplined (tcode e g).
Proof.
  destruct g as [sl ins|c sl w|ph n|ph sl ws|other ph g sl rs|t]; cbn [tcode].
  - acc. induction ins as [|[r w] t IH]; cbn [clientLoop]; [exact Logic.I|].
    unfold processConnRead, decodeP, cacheSegment, processConnWrite, connSend, readSess. acc; first [apply acc_process|exact IH].
  - unfold begin, buildDevice, register, getSim, getDeviceByPhone, readConst, readSess, allocDev, cacheDevice. acc. apply acc_csend.
  - induction n as [|n IH]; cbn [statusLoop]; [exact Logic.I|]. unfold statusCheck, getDeviceByPhone, readDev. acc. exact IH.
  - unfold keepalive, getSim, getDeviceByPhone, readConst. acc.
    match goal with |- all_acc _ (beats0002 _ ?m _ _) => generalize m end. intros m.
    induction ws as [|w t IH]; cbn [beats0002]; [exact Logic.I|]. acc; [apply acc_csend|exact IH].
  - induction rs as [|[r w] t IH]; cbn [reportLocation]; [exact Logic.I|].
    unfold getSim, getDeviceByPhone, readConst, getNow. acc; first [apply acc_csend|exact IH].
  - acc.
Qed.
Lemma sim_race_free e gs s sch : ~ races_on guarded (fst (simulating e gs s sch)).
Proof.
  intros (i & j & p & q & x & y & _ & Hp & Hq & Hx & Hy & Hg & Hc).
  assert (Hall : forall k u, nth_error (fst (simulating e gs s sch)) k = Some u -> all_acc disciplined u).
  { apply acc_steps. intros k u Hu. apply nth_error_In, in_map_iff in Hu. destruct Hu as (g & <- & Hin). apply acc_tcode. }
  pose proof (acc_accesses _ _ _ (Hall i p Hp) Hx) as Dx.
  pose proof (acc_accesses _ _ _ (Hall j q Hq) Hy) as Dy.
  rewrite (disciplined_conflict x y Dx Dy Hg) in Hc. discriminate.
Qed.

(** ** The lists of accesses *)
Lemma hon_csend e sl m w : hon (clientSend e sl m w).
Proof. unfold clientSend, clientStop. hh. apply hon_write. Qed.
Lemma hon_tcode e g : hon (tcode e g).
Proof.
  destruct g as [sl ins|c sl w|ph n|ph sl ws|other ph g sl rs|t]; cbn [tcode].
  - hh. induction ins as [|[r w] t IH]; cbn [clientLoop]; [exact Logic.I|].
    unfold processConnRead, decodeP. hh; first [apply hon_process|apply hon_write|exact IH].
  - unfold begin, buildDevice, register, getSim. hh; apply hon_csend.
  - induction n as [|n IH]; cbn [statusLoop]; [exact Logic.I|]. unfold statusCheck. hh. exact IH.
  - unfold keepalive, getSim. hh.
    match goal with |- honest _ _ _ (beats0002 _ ?m _ _) => generalize m end. intros m.
    induction ws as [|w t IH]; cbn [beats0002]; [exact Logic.I|]. hh; [apply hon_csend|exact IH].
  - induction rs as [|[r w] t IH]; cbn [reportLocation]; [exact Logic.I|].
    unfold getSim. hh; first [apply hon_csend|exact IH].
  - hh.
Qed.
Lemma simulating_honest e gs s sch i p : nth_error (fst (simulating e gs s sch)) i = Some p ->
  honest_next with_cell here memory p.
Proof.
  intros H. apply honest_now. revert i p H. apply honest_steps. intros j q Hq. apply nth_error_In, in_map_iff in Hq.
  destruct Hq as (g & <- & _). apply hon_tcode.
Qed.

(** ** Two goroutines that do not race touch different memory *)
Lemma conflict_comm x y : conflict x y = conflict y x.
Proof.
  unfold conflict. f_equal; [f_equal|].
  - destruct (ac_cell x), (ac_cell y); cbn; try reflexivity; apply Nat.eqb_sym.
  - apply Bool.orb_comm.
  - f_equal. destruct (ac_sync x), (ac_sync y); cbn; try reflexivity. all: repeat match goal with m : mutex |- _ => destruct m end; reflexivity.
Qed.
Lemma no_clash_apart {A} P (p q : sp A) c : honest_next with_cell here memory p -> honest_next with_cell here memory q ->
  ~ clash P p q -> memory c -> P c -> apart with_cell here c p q.
Proof.
  intros Hp Hq Hc Hm HP. apply (honest_apart with_cell here memory P [p; q] memory_cells) with (i := 0%nat) (j := 1%nat); auto.
  - intros [|[|j]] u Hu; cbn in Hu; [injection Hu as <-; exact Hp|injection Hu as <-; exact Hq|destruct j; discriminate].
  - intros (i & j & u & v & x & y & Hij & Hu & Hv & Hx & Hy & Hg & K). apply Hc.
    assert (G : P (ac_cell y)).
    { unfold conflict in K. apply andb_prop in K as (K & _). apply andb_prop in K as (K & _).
      apply cell_eqb_eq in K. rewrite <- K. exact Hg. }
    destruct i as [|[|i]], j as [|[|j]]; cbn in Hu, Hv; try contradiction; try (destruct i; discriminate); try (destruct j; discriminate).
    + injection Hu as <-. injection Hv as <-. exists x, y. auto.
    + injection Hu as <-. injection Hv as <-. exists y, x. rewrite conflict_comm. auto.
Qed.

(** ** The status checker against the receiving goroutine *)
Lemma moves_8001 e sl s p a b l d : carries e s p 0x8001 (B8001 a b 0) ->
  st_byPhone s !! h_phone (pk_hdr p) = Some l -> st_devs s !! l = Some d -> d_status d = Offline ->
  exists f k, moves (process e sl p) s (Act [mkAcc (CDev l) true Plain] f k) s.
Proof.
  intros (Hid & Hf & Hd) Hl H1 Hs. do 2 eexists. unfold process. rewrite Hid. cbn [lookupN optionTable N.eqb Pos.eqb].
  replace (isFragmented (pk_hdr p) && negb (pk_segdone p)) with false
    by (unfold SpecCodec.fragment in Hf; fold (isFragmented (pk_hdr p)) in Hf; destruct Hf as [-> | ->]; [reflexivity|]; rewrite andb_false_r; reflexivity).
  eapply moves_trans; [apply (moves_seq getNow _ s (st_clock s) s); reflexivity|].
  eapply moves_trans; [apply (moves_seq (lift _) _ s (mkMsg (pk_hdr p) (B8001 a b 0)) s); unfold lift; cbn [kind_of] in Hd; rewrite Hd; reflexivity|].
  cbv beta iota. cbn [m_body]. unfold process8001. cbn [N.eqb m_hdr].
  eapply moves_trans; [apply moves_bind; apply (moves_seq (getDeviceByPhone _) _ s (Some l) s); cbn; rewrite Hl; reflexivity|].
  cbv beta iota.
  eapply moves_trans; [apply moves_bind; apply (moves_seq (readDev l) _ s d s); unfold readDev; cbn; rewrite H1; reflexivity|].
  cbv beta. rewrite Hs. cbn [N.eqb Offline]. apply mv_refl.
Qed.
Lemma sim_device_races e sl s frm w t n p a b l d x :
  st_sess s !! sl = Some x -> decodePacket (e_o e) frm = Ok p -> isFragmented (pk_hdr p) = false ->
  carries e s p 0x8001 (B8001 a b 0) ->
  st_byPhone s !! h_phone (pk_hdr p) = Some l -> st_devs s !! l = Some d -> d_status d = Offline ->
  exists sch, races_on (fun c => c = CDev l)
    (fst (simulating e [TStatus (h_phone (pk_hdr p)) (S n); TReceive sl ((Ok frm, w) :: t)] s sch)).
Proof.
  intros Hx Hdec Hfr Hc Hl H1 Hs. destruct (moves_8001 e sl s p a b l d Hc Hl H1 Hs) as (f & k & M).
  unfold simulating. cbn [List.map tcode].
  assert (T : exists f k, moves (statusLoop (h_phone (pk_hdr p)) (S n)) s (Act [mkAcc (CDev l) false Plain] f k) s).
  { do 2 eexists. cbn [statusLoop]. unfold statusCheck.
    eapply moves_trans; [apply moves_bind; apply (moves_seq (getDeviceByPhone (h_phone (pk_hdr p))) _ s (Some l) s); cbn; rewrite Hl; reflexivity|].
    cbv beta iota. apply mv_refl. }
  assert (R : exists f k, moves (clientLoop e sl ((Ok frm, w) :: t) ;;; ret tt)%prog s (Act [mkAcc (CDev l) true Plain] f k) s).
  { do 2 eexists. cbn [clientLoop].
    eapply moves_trans; [apply moves_bind; apply (moves_seq (readSess sl) _ s x s); unfold readSess; cbn; rewrite Hx; reflexivity|].
    cbv beta. unfold processConnRead. cbn [lift].
    eapply moves_trans; [apply moves_bind, moves_bindR; apply (moves_seq (Ret (Ok frm)) _ s frm s); reflexivity|].
    cbv beta.
    assert (D : run (decodeP e frm) s = (Ok p, s)).
    { unfold decodeP. rewrite run_bind, Hdec. cbn [lift run]. rewrite Hfr. reflexivity. }
    eapply moves_trans; [apply moves_bind, moves_bindR; apply (moves_seq (decodeP e frm) _ s p s D)|].
    cbv beta.
    eapply moves_trans; [apply moves_bind, moves_bindR, moves_bind; exact M|]. apply mv_refl. }
  destruct T as (fk & kk & T). destruct R as (fr & kr & R).
  destruct (psteps_then _ _ _ _ _ _ (reach_0 _ (clientLoop e sl ((Ok frm, w) :: t) ;;; ret tt)%prog _ _ _ T)
     (reach_1 _ _ _ _ _ R)) as (sch & St).
  exists sch. cbn [clientLoop pbind] in St |- *. rewrite St. cbn [fst].
  exists 0%nat, 1%nat. do 2 eexists. exists (mkAcc (CDev l) false Plain), (mkAcc (CDev l) true Plain).
  split; [discriminate|]. split; [reflexivity|]. split; [reflexivity|].
  split; [left; reflexivity|]. split; [left; reflexivity|]. split; [reflexivity|].
  unfold conflict. cbn. rewrite Nat.eqb_refl. reflexivity.
Qed.

(** ** Who can race on a device record *)
Definition unshared (x : access) : Prop := ~ personal (ac_cell x).
Definition onlyreads (x : access) : Prop := personal (ac_cell x) -> ac_write x = false.
Ltac acu := acc; repeat match goal with
  | |- unshared _ => let K := fresh in intros K; exact K
  | |- onlyreads _ => intros ?; reflexivity
  | |- all_acc _ (readConst _) => split; [constructor|intros ?]; destruct (_ !! _); exact Logic.I
  end.
Lemma uns_csend e sl m w : all_acc unshared (clientSend e sl m w).
Proof. unfold clientSend, clientStop, processConnWrite, connSend, connClose, readSess. acu. Qed.
Lemma uns_tcode e g : match g with TReceive _ _ | TStatus _ _ => False | _ => True end -> all_acc unshared (tcode e g).
Proof.
  intros Hg. destruct g as [sl ins|c sl w|ph n|ph sl ws|other ph g sl rs|t]; cbn [tcode]; try contradiction.
  - unfold begin, buildDevice, register, getSim, getDeviceByPhone, readConst, readSess, allocDev, cacheDevice. acu. apply uns_csend.
  - unfold keepalive, getSim, getDeviceByPhone, readConst. acu.
    match goal with |- all_acc _ (beats0002 _ ?m _ _) => generalize m end. intros m.
    induction ws as [|w t IH]; cbn [beats0002]; [exact Logic.I|]. acu; [apply uns_csend|exact IH].
  - induction rs as [|[r w] t IH]; cbn [reportLocation]; [exact Logic.I|].
    unfold getSim, getDeviceByPhone, readConst, getNow. acu; first [apply uns_csend|exact IH].
  - acu.
Qed.
Lemma reads_status e ph n : all_acc onlyreads (tcode e (TStatus ph n)).
Proof.
  cbn [tcode]. induction n as [|n IH]; cbn [statusLoop]; [exact Logic.I|]. unfold statusCheck, getDeviceByPhone, readDev. acu.
  all: try exact IH. all: intros K; destruct K.
Qed.
Lemma psteps_at {S A} (P : access -> Prop) sch i : forall (ps : list (prog S A)) s p q,
  nth_error ps i = Some p -> all_acc P p -> nth_error (fst (psteps ps s sch)) i = Some q -> all_acc P q.
Proof.
  induction sch as [|j t IH]; intros ps s p q Hp Ha Hq; cbn in Hq; [congruence|].
  destruct (pstep ps s j) as [ps' s'] eqn:E. unfold pstep in E. destruct (nth_error ps j) as [[r|a f k]|] eqn:Ej.
  - injection E as <- <-. eauto.
  - injection E as <- <-. destruct (Nat.eqb j i) eqn:Eji.
    + apply Nat.eqb_eq in Eji. subst j. assert (Hp' : p = Act a f k) by congruence. subst p. destruct Ha as (_ & Hk).
      eapply (IH _ _ (k s)); [|apply Hk|exact Hq]. rewrite (nth_error_upd ps i i (k s) _ Ej), Nat.eqb_refl. reflexivity.
    + eapply (IH _ _ p); [|exact Ha|exact Hq]. rewrite (nth_error_upd ps j i (k s) _ Ej), Eji. exact Hp.
  - injection E as <- <-. eauto.
Qed.
Lemma sim_pairs e gs s sch i j g h p q : nth_error gs i = Some g -> nth_error gs j = Some h ->
  nth_error (fst (simulating e gs s sch)) i = Some p -> nth_error (fst (simulating e gs s sch)) j = Some q ->
  clash personal p q ->
  (exists sl ins, g = TReceive sl ins) /\ (exists sl ins, h = TReceive sl ins)
  \/ (exists sl ins ph n, g = TReceive sl ins /\ h = TStatus ph n)
  \/ (exists sl ins ph n, h = TReceive sl ins /\ g = TStatus ph n).
Proof.
  intros Hg Hh Hp Hq (x & y & Hx & Hy & Hc & Hk).
  assert (Hcy : personal (ac_cell y)).
  { unfold conflict in Hk. apply andb_prop in Hk as (Hk & _). apply andb_prop in Hk as (Hk & _). apply cell_eqb_eq in Hk. rewrite <- Hk. exact Hc. }
  assert (T : forall P k c u, nth_error gs k = Some c -> all_acc P (tcode e c) ->
    nth_error (fst (simulating e gs s sch)) k = Some u -> all_acc P u).
  { intros P k c u Hk' Ha Hu. eapply psteps_at; [|exact Ha|exact Hu]. rewrite nth_error_map, Hk'. reflexivity. }
  assert (Ng : match g with TReceive _ _ | TStatus _ _ => False | _ => True end -> False).
  { intros Q. apply (acc_accesses unshared _ _ (T _ _ _ _ Hg (uns_tcode e g Q) Hp) Hx). exact Hc. }
  assert (Nh : match h with TReceive _ _ | TStatus _ _ => False | _ => True end -> False).
  { intros Q. apply (acc_accesses unshared _ _ (T _ _ _ _ Hh (uns_tcode e h Q) Hq) Hy). exact Hcy. }
  destruct g; try (exfalso; exact (Ng Logic.I)); destruct h; try (exfalso; exact (Nh Logic.I)); eauto 12.
  exfalso. pose proof (acc_accesses onlyreads _ _ (T _ _ _ _ Hg (reads_status e _ _) Hp) Hx Hc) as Wx.
  pose proof (acc_accesses onlyreads _ _ (T _ _ _ _ Hh (reads_status e _ _) Hq) Hy Hcy) as Wy.
  unfold conflict in Hk. rewrite Wx, Wy in Hk. cbn in Hk. rewrite andb_false_r in Hk. discriminate.
Qed.
