(** Interleavings of handlers that break what holds sequentially *)
From stdpp Require Import gmap.
From Verif Require Import Base HexM TimeM HeaderM ParamsM GeoM MsgM PacketM FrameM ProgM ProgP RingM RingP
  StateM ProcM ServerM ConcM SpecState StateP ProcP ServerP EffectP ReplyP CmdP RaceP.
Local Open Scope N_scope.

(** a goroutine performing some of its actions without interference *)
Inductive moves {S A} : prog S A -> S -> prog S A -> S -> Prop :=
| mv_refl p s : moves p s p s
| mv_act a f k s p' s' : moves (k s) (f s) p' s' -> moves (Act a f k) s p' s'.
Lemma moves_trans {S A} (p q r : prog S A) s t u : moves p s q t -> moves q t r u -> moves p s r u.
Proof. induction 1; intros Hr; [exact Hr|]. constructor. auto. Qed.
Lemma moves_bindR {S A B} (p p' : prog S A) (g : res A -> prog S B) s s' :
  moves p s p' s' -> moves (pbindR p g) s (pbindR p' g) s'.
Proof. induction 1; cbn; constructor. assumption. Qed.
Lemma moves_bind {S A B} (p p' : prog S A) (g : A -> prog S B) s s' :
  moves p s p' s' -> moves (pbind p g) s (pbind p' g) s'.
Proof. apply moves_bindR. Qed.
Lemma moves_run {S A} (p : prog S A) : forall s, moves p s (Ret (fst (run p s))) (snd (run p s)).
Proof. induction p as [r|a f k IH]; intros s; cbn; constructor. apply IH. Qed.
Lemma moves_done {S A} (p : prog S A) s r s' : run p s = (r, s') -> moves p s (Ret r) s'.
Proof. intros H. pose proof (moves_run p s) as M. rewrite H in M. exact M. Qed.
Lemma moves_seq {S A B} (p : prog S A) (g : A -> prog S B) s a s' : run p s = (Ok a, s') -> moves (pbind p g) s (g a) s'.
Proof. intros H. exact (moves_bind _ _ g _ _ (moves_done _ _ _ _ H)). Qed.
Lemma moves_0 {S A} (p q : prog S A) s p' s' : moves p s p' s' ->
  exists n, psteps [p; q] s (repeat 0%nat n) = ([p'; q], s').
Proof.
  induction 1 as [p s|a f k s p' s' _ (n & IH)]; [exists 0%nat; reflexivity|]. exists (Datatypes.S n). exact IH.
Qed.
Lemma moves_1 {S A} (p q : prog S A) s q' s' : moves q s q' s' ->
  exists n, psteps [p; q] s (repeat 1%nat n) = ([p; q'], s').
Proof.
  induction 1 as [q s|a f k s p' s' _ (n & IH)]; [exists 0%nat; reflexivity|]. exists (Datatypes.S n). exact IH.
Qed.
Lemma psteps_then {S A} (ps ps' ps'' : list (prog S A)) s s' s'' :
  (exists sch, psteps ps s sch = (ps', s')) -> (exists sch, psteps ps' s' sch = (ps'', s'')) ->
  exists sch, psteps ps s sch = (ps'', s'').
Proof. intros (a & Ha) (b & Hb). exists (a ++ b). rewrite psteps_app, Ha. exact Hb. Qed.
Lemma reach_0 {S A} (p q p' : prog S A) s s' : moves p s p' s' -> exists sch, psteps [p; q] s sch = ([p'; q], s').
Proof. intros H. destruct (moves_0 p q s p' s' H) as (n & Hn). eauto. Qed.
Lemma reach_1 {S A} (p q q' : prog S A) s s' : moves q s q' s' -> exists sch, psteps [p; q] s sch = ([p; q'], s').
Proof. intros H. destruct (moves_1 p q s q' s' H) as (n & Hn). eauto. Qed.

(** a message handler up to the call of its processing function *)
Lemma moves_handler e sl s p id b k out : carries e s p id b ->
  lookupN optionTable id = Some (kind_of b, Some k) ->
  genOutgoing (e_civil e (st_clock s)) k (mkMsg (pk_hdr p) b) = Ok (Some out) ->
  moves (process e sl p) s (pbind (handler e sl (mkMsg (pk_hdr p) b) out) (fun o => ret (Some o))) s.
Proof.
  intros (Hid & Hf & Hd) Hl Hg. unfold process. rewrite Hid, Hl.
  replace (isFragmented (pk_hdr p) && negb (pk_segdone p)) with false
    by (unfold SpecCodec.fragment in Hf; fold (isFragmented (pk_hdr p)) in Hf; destruct Hf as [-> | ->]; [reflexivity|]; rewrite andb_false_r; reflexivity).
  eapply moves_trans; [apply (moves_seq getNow _ s (st_clock s) s); reflexivity|].
  eapply moves_trans; [apply (moves_seq (lift _) _ s (mkMsg (pk_hdr p) b) s); unfold lift; cbn; rewrite Hd; reflexivity|].
  cbv beta iota. eapply moves_trans; [apply (moves_seq getNow _ s (st_clock s) s); reflexivity|].
  eapply moves_trans; [apply (moves_seq (lift _) _ s (Some out) s); unfold lift; cbn; rewrite Hg; reflexivity|].
  cbv beta iota. apply mv_refl.
Qed.

(** * C43: two registrations of one plate *)
(** the part of the registration after the two checks *)
Definition regTail (sl : nat) (inc : msg) (r : reg) (out : msg) : sp msg :=
  (x <- readSess sl ;;
   now <- getNow ;;
   let d := newDevice (m_hdr inc) r x now in
   l <- allocDev d ;;
   cacheDevice l ;;;
   timerRegister (d_phone d) ;;;
   ret (set8100 out 0 (genAuthCode d)))%prog.
Lemma run_regTail sl inc r h sn c code s x : st_sess s !! sl = Some x ->
  run (regTail sl inc r (mkMsg h (B8100 sn c code))) s =
  (Ok (mkMsg h (B8100 sn 0 (genAuthCode (newDevice (m_hdr inc) r x (st_clock s))))),
   added s (newDevice (m_hdr inc) r x (st_clock s))).
Proof.
  intros Hx. unfold regTail. cbn. rewrite Hx. cbn. rewrite lookup_insert. cbn. rewrite lookup_insert. reflexivity.
Qed.
Lemma moves_0100 e sl s p r : consistent s -> carries e s p 0x0100 (B0100 r) ->
  devWithPlate s (r_plate r) = None -> devAt s (h_phone (pk_hdr p)) = None ->
  exists h sn c code, moves (process e sl p) s
    (pbind (regTail sl (mkMsg (pk_hdr p) (B0100 r)) r (mkMsg h (B8100 sn c code))) (fun o => ret (Some o))) s
    /\ forall x, answers p 0x8100 (B8100 (h_sn (pk_hdr p)) 0 x) (mkMsg h (B8100 sn 0 x)).
Proof.
  intros C Hc Hq Hp. apply (devWithPlate_None s C) in Hq. apply (devAt_None s C) in Hp.
  eexists _, _, _, _. split.
  - eapply moves_trans; [eapply moves_handler; [exact Hc|reflexivity|reflexivity]|].
    unfold handler. cbn [m_body]. apply moves_bind. unfold process0100.
    eapply moves_trans; [apply (moves_seq (hasPlate (r_plate r)) _ s false s); cbn; rewrite Hq; reflexivity|].
    cbv beta iota. cbn [m_hdr].
    eapply moves_trans; [apply (moves_seq (hasPhone (h_phone (pk_hdr p))) _ s false s); cbn; rewrite Hp; reflexivity|].
    apply mv_refl.
  - intros x. reflexivity.
Qed.
Lemma double_registration e sl sl' s x x' p r p' r' : consistent s ->
  st_sess s !! sl = Some x -> st_sess s !! sl' = Some x' ->
  carries e s p 0x0100 (B0100 r) -> carries e s p' 0x0100 (B0100 r') ->
  r_plate r = r_plate r' -> h_phone (pk_hdr p) <> h_phone (pk_hdr p') ->
  devWithPlate s (r_plate r) = None ->
  devAt s (h_phone (pk_hdr p)) = None -> devAt s (h_phone (pk_hdr p')) = None ->
  exists sch m m' s' c c' d d', psteps [process e sl p; process e sl' p'] s sch = ([Ret (Ok (Some m)); Ret (Ok (Some m'))], s')
    /\ answers p 0x8100 (B8100 (h_sn (pk_hdr p)) 0 c) m
    /\ answers p' 0x8100 (B8100 (h_sn (pk_hdr p')) 0 c') m'
    /\ devAt s' (h_phone (pk_hdr p)) = Some d /\ devAt s' (h_phone (pk_hdr p')) = Some d'
    /\ d_plate d = r_plate r /\ d_plate d' = r_plate r
    /\ devWithPlate s' (r_plate r) = Some d' /\ ~ consistent s'.
Proof.
  intros C Hx Hx' Hc Hc' Hr Hn Hq Hp Hp'.
  destruct (moves_0100 e sl s p r C Hc Hq Hp) as (h & sn & c0 & k0 & M & A).
  rewrite Hr in Hq. destruct (moves_0100 e sl' s p' r' C Hc' Hq Hp') as (h' & sn' & c0' & k0' & M' & A').
  set (d := newDevice (pk_hdr p) r x (st_clock s)).
  set (d' := newDevice (pk_hdr p') r' x' (st_clock s)).
  assert (T : run (pbind (regTail sl (mkMsg (pk_hdr p) (B0100 r)) r (mkMsg h (B8100 sn c0 k0))) (fun o => ret (Some o))) s
              = (Ok (Some (mkMsg h (B8100 sn 0 (genAuthCode d)))), added s d)).
  { rewrite run_bind, (run_regTail _ _ _ _ _ _ _ s x Hx). reflexivity. }
  assert (T' : run (pbind (regTail sl' (mkMsg (pk_hdr p') (B0100 r')) r' (mkMsg h' (B8100 sn' c0' k0'))) (fun o => ret (Some o))) (added s d)
              = (Ok (Some (mkMsg h' (B8100 sn' 0 (genAuthCode d')))), added (added s d) d')).
  { rewrite run_bind, (run_regTail _ _ _ _ _ _ _ (added s d) x' Hx'). reflexivity. }
  assert (S : exists sch, psteps [process e sl p; process e sl' p'] s sch
    = ([Ret (Ok (Some (mkMsg h (B8100 sn 0 (genAuthCode d))))); Ret (Ok (Some (mkMsg h' (B8100 sn' 0 (genAuthCode d')))))],
       added (added s d) d')).
  { eapply psteps_then; [apply reach_0; exact M|]. eapply psteps_then; [apply reach_1; exact M'|].
    eapply psteps_then; [apply reach_0; apply moves_done; exact T|]. apply reach_1. apply moves_done. exact T'. }
  destruct S as (sch & S).
  assert (Hf : st_devs s !! fresh (dom (st_devs s)) = None) by (apply not_elem_of_dom, is_fresh).
  assert (Hf' : fresh (dom (<[fresh (dom (st_devs s)) := d]> (st_devs s))) <> fresh (dom (st_devs s))).
  { intros E. pose proof (is_fresh (dom (<[fresh (dom (st_devs s)) := d]> (st_devs s)))) as F.
    rewrite E, dom_insert in F. set_solver. }
  assert (D : devAt (added (added s d) d') (h_phone (pk_hdr p)) = Some d).
  { unfold devAt, added. cbn. rewrite lookup_insert_ne by congruence. rewrite lookup_insert, lookup_insert_ne by exact Hf'.
    rewrite lookup_insert. reflexivity. }
  assert (D' : devAt (added (added s d) d') (h_phone (pk_hdr p')) = Some d').
  { unfold devAt, added. cbn. rewrite !lookup_insert. reflexivity. }
  assert (W : devWithPlate (added (added s d) d') (r_plate r) = Some d').
  { unfold devWithPlate, added. cbn. rewrite Hr, !lookup_insert. reflexivity. }
  exists sch. do 7 eexists. split; [exact S|]. split; [apply A|]. split; [apply A'|].
  split; [exact D|]. split; [exact D'|]. split; [reflexivity|]. split; [symmetry; exact Hr|]. split; [exact W|].
  intros C'. destruct (devAt_Some _ C' _ _ D) as (l & _ & L2 & _ & L4). change (d_plate d) with (r_plate r) in L4.
  assert (E : devWithPlate (added (added s d) d') (r_plate r) = Some d) by (unfold devWithPlate; rewrite L4; exact L2).
  rewrite W in E. apply Hn. symmetry. exact (f_equal (fun o => match o with Some y => d_phone y | None => [] end) E).
Qed.
(** one after the other, the second is refused with code 1 and changes nothing *)
Lemma second_registration e sl sl' s x x' p r p' r' m s1 c : consistent s ->
  st_sess s !! sl = Some x -> st_sess s !! sl' = Some x' ->
  carries e s p 0x0100 (B0100 r) -> carries e s p' 0x0100 (B0100 r') -> r_plate r = r_plate r' ->
  run (process e sl p) s = (Ok (Some m), s1) -> answers p 0x8100 (B8100 (h_sn (pk_hdr p)) 0 c) m ->
  exists m' c', run (process e sl' p') s1 = (Ok (Some m'), s1)
    /\ answers p' 0x8100 (B8100 (h_sn (pk_hdr p')) 1 c') m'.
Proof.
  intros C Hx Hx' Hc Hc' Hr R A.
  destruct (registration e sl s p r x C Hc Hx) as (m0 & s0 & R0 & H). rewrite R in R0. injection R0 as <- <-.
  destruct (devWithPlate s (r_plate r)) eqn:E1.
  { destruct H as ((c0 & A0) & _). unfold answers in *. subst m. discriminate. }
  destruct (devAt s (h_phone (pk_hdr p))) eqn:E2.
  { destruct H as ((c0 & A0) & _). unfold answers in *. subst m. discriminate. }
  destruct H as (_ & H1 & H2 & _ & _ & (_ & _ & _ & _ & H5 & _ & _ & H6) & C1).
  assert (Hc1 : carries e s1 p' 0x0100 (B0100 r')) by (unfold carries; rewrite H6; exact Hc').
  rewrite <- H5 in Hx'. destruct (registration e sl' s1 p' r' x' C1 Hc1 Hx') as (m' & s2 & R' & H').
  rewrite <- Hr, H2, H1 in H'. destruct H' as ((c' & A') & ->). eauto.
Qed.

(** * C58: a heartbeat in flight brings a logged out device back *)
Lemma moves_0002 e sl s p l : carries e s p 0x0002 B0002 -> st_byPhone s !! h_phone (pk_hdr p) = Some l ->
  exists out, moves (process e sl p) s
    (pbind (now <- getNow ;; writeDev l (fun d => dset_last d now) ;;; cacheDevice l ;;; ret out)%prog
           (fun o => ret (Some o))) s
    /\ answers p 0x8001 (B8001 (h_sn (pk_hdr p)) 0x0002 0) out.
Proof.
  intros Hc Hl. destruct Hc as (Hid & Hf & Hd). eexists. split.
  - eapply moves_trans; [eapply moves_handler; [split; [exact Hid|split; [exact Hf|exact Hd]]|reflexivity|reflexivity]|].
    unfold handler. cbn [m_body]. apply moves_bind. unfold process0002. cbn [m_hdr].
    eapply moves_trans; [apply (moves_seq (getDeviceByPhone (h_phone (pk_hdr p))) _ s (Some l) s); cbn; rewrite Hl; reflexivity|].
    apply mv_refl.
  - cbn. unfold answers. rewrite Hid. reflexivity.
Qed.
Lemma ghost e sl sl' s p p' d : consistent s ->
  carries e s p 0x0002 B0002 -> carries e s p' 0x0003 B0003 -> h_phone (pk_hdr p') = h_phone (pk_hdr p) ->
  devAt s (h_phone (pk_hdr p)) = Some d ->
  exists sch m m' s' d', psteps [process e sl p; process e sl' p'] s sch = ([Ret (Ok (Some m)); Ret (Ok (Some m'))], s')
    /\ answers p' 0x8001 (B8001 (h_sn (pk_hdr p')) 0x0003 0) m'
    /\ devAt s' (h_phone (pk_hdr p)) = Some d' /\ devWithPlate s' (d_plate d) = Some d'
    /\ h_phone (pk_hdr p) ∉ st_jobs s'.
Proof.
  intros C Hc Hc' Hph Hd. destruct (devAt_Some s C _ _ Hd) as (l & Hl & H1 & Hp & Hq).
  destruct (moves_0002 e sl s p l Hc Hl) as (out & M & A).
  rewrite <- Hph in Hd. destruct (logout e sl' s p' d C Hc' Hd) as (m' & s1 & R & _ & A' & _ & _ & _ & J & K).
  assert (E : st_devs s1 = st_devs s).
  { assert (R' := R). erewrite process_carries in R'; [|exact Hc'|reflexivity|reflexivity].
    unfold handler in R'. cbn [m_body] in R'. rewrite <- Hph in Hl.
    rewrite (run_0003 s C (mkMsg (pk_hdr p') B0003) _ l d Hl H1) in R'. injection R' as <- <-. reflexivity. }
  set (f := fun d => dset_last d (st_clock s1)). rewrite Hph in J.
  set (s2 := set_index (<[d_plate d := l]>) (<[d_phone d := l]>) (set_devs (alter f l) s1)).
  assert (T : run (pbind (now <- getNow ;; writeDev l (fun d => dset_last d now) ;;; cacheDevice l ;;; ret out)%prog
           (fun o => ret (Some o))) s1 = (Ok (Some out), s2)).
  { cbn. rewrite lookup_alter, E, H1. reflexivity. }
  assert (S : exists sch, psteps [process e sl p; process e sl' p'] s sch = ([Ret (Ok (Some out)); Ret (Ok (Some m'))], s2)).
  { eapply psteps_then; [apply reach_0; exact M|]. eapply psteps_then; [apply reach_1; apply moves_done; exact R|].
    apply reach_0. apply moves_done. exact T. }
  destruct S as (sch & S). exists sch, out, m', s2, (f d). split; [exact S|]. split; [exact A'|].
  unfold devAt, devWithPlate, s2. cbn. rewrite Hp, !lookup_insert, lookup_alter, E, H1.
  split; [reflexivity|]. split; [reflexivity|]. intros Hin. apply J in Hin. tauto.
Qed.

(** * C59: a keepalive check that was already started when the device logs out *)
Lemma late_check e sl s p d : consistent s -> carries e s p 0x0003 B0003 -> devAt s (h_phone (pk_hdr p)) = Some d ->
  exists sch s', running e [GMsg sl p; GTick (h_phone (pk_hdr p))] s sch = ([Ret (Ok tt); Ret Panic], s').
Proof.
  intros C Hc Hd. destruct (logout e sl s p d C Hc Hd) as (m & s1 & R & C1 & _ & N & _).
  apply (devAt_None s1 C1) in N. unfold running. cbn [List.map code].
  assert (T : run (process e sl p ;;; ret tt)%prog s = (Ok tt, s1)) by (rewrite run_bind, R; reflexivity).
  pose proof (tick_unknown _ _ N) as U.
  edestruct (psteps_then [(process e sl p ;;; ret tt)%prog; checkKeepalive (h_phone (pk_hdr p))]) as (sch & S);
    [apply reach_0; apply moves_done; exact T|apply reach_1; apply moves_done; exact U|].
  eexists sch, _. exact S.
Qed.

(** * C71: the device list is read without the lock *)
Lemma list_races e sl s p l : carries e s p 0x0002 B0002 -> st_byPhone s !! h_phone (pk_hdr p) = Some l ->
  exists sch, races_on (fun c => c = CDevMaps) (fst (running e [GList; GMsg sl p] s sch)).
Proof.
  intros Hc Hl. destruct (moves_0002 e sl s p l Hc Hl) as (out & M & _).
  unfold running. cbn [List.map code].
  destruct (reach_1 (apiList ;;; ret tt)%prog (process e sl p ;;; ret tt)%prog _ s _ (moves_trans _ _ _ _ _ _
     (moves_bind _ _ (fun _ => ret tt) _ _ M)
     (mv_act _ _ _ _ _ _ (mv_act _ _ _ _ _ _ (mv_refl _ _))))) as (sch & S).
  exists sch. rewrite S. cbn [fst].
  exists 0%nat, 1%nat. do 2 eexists. exists (mkAcc CDevMaps false Plain), (mkAcc CDevMaps true (Locked MDev)).
  split; [discriminate|]. split; [reflexivity|]. split; [reflexivity|].
  split; [left; reflexivity|]. split; [left; reflexivity|]. split; reflexivity.
Qed.
(** so is the session map, by the connection counter *)
Lemma count_races e c addr ins s :
  exists sch, races_on (fun x => x = CSessMap) (fst (running e [GCount; GConn c addr ins] s sch)).
Proof.
  exists [1; 1; 1]%nat. cbn.
  exists 0%nat, 1%nat. do 2 eexists. exists (mkAcc CSessMap false Plain), (mkAcc CSessMap true (Locked MSess)).
  split; [discriminate|]. split; [reflexivity|]. split; [reflexivity|].
  split; [left; reflexivity|]. split; [left; reflexivity|]. split; reflexivity.
Qed.
(** the fields of a device record are not protected at all *)
Lemma device_races e sl s p l d : carries e s p 0x0002 B0002 -> st_byPhone s !! h_phone (pk_hdr p) = Some l ->
  st_devs s !! l = Some d ->
  exists sch, races_on (fun c => c = CDev l) (fst (running e [GTick (h_phone (pk_hdr p)); GMsg sl p] s sch)).
Proof.
  intros Hc Hl H1. destruct (moves_0002 e sl s p l Hc Hl) as (out & M & _).
  unfold running. cbn [List.map code].
  assert (T : exists f k, moves (checkKeepalive (h_phone (pk_hdr p))) s (Act [mkAcc (CDev l) false Plain] f k) s).
  { do 2 eexists. unfold checkKeepalive.
    eapply moves_trans; [apply (moves_seq (getDeviceByPhone (h_phone (pk_hdr p))) _ s (Some l) s); cbn; rewrite Hl; reflexivity|].
    cbv beta iota. eapply moves_trans; [apply moves_bind; apply (moves_seq getNow _ s (st_clock s) s); reflexivity|]. apply mv_refl. }
  destruct T as (fk & kk & T).
  destruct (psteps_then _ _ _ _ _ _ (reach_0 _ (process e sl p ;;; ret tt)%prog _ _ _ T)
     (reach_1 _ _ _ _ _ (moves_trans _ _ _ _ _ _
     (moves_bind _ _ (fun _ => ret tt) _ _ M)
     (mv_act _ _ _ _ _ _ (mv_refl _ _))))) as (sch & S).
  exists sch. rewrite S. cbn [fst].
  exists 0%nat, 1%nat. do 2 eexists. exists (mkAcc (CDev l) false Plain), (mkAcc (CDev l) true Plain).
  split; [discriminate|]. split; [reflexivity|]. split; [reflexivity|].
  split; [left; reflexivity|]. split; [left; reflexivity|]. split; [reflexivity|].
  unfold conflict. cbn. rewrite Nat.eqb_refl. reflexivity.
Qed.
