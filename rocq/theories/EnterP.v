(** Terminals that come at the same time (C111) *)
From stdpp Require Import gmap.
From Verif Require Import Base HexM TimeM HashM HeaderM ParamsM GeoM MsgM PacketM FrameM ProgM ProgP RingM StateM ProcM ServerM ConcM
  SpecCodec SpecState SpecConc SpecSplit HexP HeaderP FrameP MsgP CodecP StateP ProcP ServerP EffectP ReplyP HandshakeP ConcP IsoP SplitP.
Local Open Scope N_scope.

(** ** One of them alone *)
Lemma reply_encodes e sl s f p m s' : whole e f p -> run (process e sl p) s = (Ok (Some m), s') ->
  In (h_id (pk_hdr p)) [0x0002; 0x0003; 0x0100; 0x0102; 0x0200; 0x8103] -> exists g, encodePacket (e_o e) m = Ok g.
Proof.
  intros ((c & Hb & ->) & Hd & Hf & Hg & Hl) Hr Hi. destruct (reply_short e sl s p m s' Hr Hf Hi) as (w & Hw & Hlt).
  destruct (reply_decodable e sl s c p m s' w Hb Hd Hf Hg Hl Hr Hw Hlt) as (g & _ & E & _). eauto.
Qed.
Lemma entrant_alone e s t : consistent s -> unused s t -> entering e s t ->
  exists s', run (code e (entry t)) s = (Ok tt, s') /\ inside e s t s'.
Proof.
  intros C (U1 & U2 & U3 & U4 & U5) (p1 & p2 & r & al & cd & imei & sw & W1 & W2 & C1 & C2 & Hp1 & Hp2 & Hpl & Hcode).
  unfold code, entry. rewrite run_bind. cbn [opened wr1 run ret]. rewrite run_bind. unfold connThread. rewrite run_bind.
  destruct (accept_ok s (en_conn t) (en_addr t) C U4) as (A1 & A2 & A3). rewrite A1.
  set (l := fresh (dom (st_sess s))) in *. set (x := mkSession (en_addr t) (en_conn t) 0) in *.
  match type of A2 with consistent ?u => set (sa := u) in * end.
  assert (Hx : st_sess sa !! l = Some x) by (cbn; apply lookup_insert).
  assert (Hk : st_conns sa !! ss_conn x = Some (mkConn true [])) by (cbn; apply lookup_insert).
  assert (Hda : forall q, devAt sa q = devAt s q) by reflexivity.
  assert (Hwa : forall q, devWithPlate sa q = devWithPlate s q) by reflexivity.
  (* registration *)
  destruct (registration e l sa p1 r x A2 C1 Hx) as (m1 & sb & R1 & R2).
  rewrite Hp1, Hpl, Hda, Hwa, U1, U2 in R2. destruct R2 as ((code1 & Hc1 & An1) & Rd & Rp & Roth & Rj & Rr & Cb).
  destruct (reply_encodes e l sa _ _ m1 sb W1 R1) as (f1 & E1). { destruct C1 as (-> & _). cbn; tauto. }
  destruct W1 as (Wc1 & D1 & F1 & Wd1 & Wl1). destruct W2 as (Wc2 & D2 & F2 & Wd2 & Wl2).
  pose proof (serve_reply e l sa x _ _ p1 m1 sb f1 Hx Hk eq_refl D1 F1 R1 ltac:(apply Rr) E1) as S1.
  cbn [serveLoop].
  rewrite run_bindR, S1.
  set (sc := set_conns (<[ss_conn x := mkConn true (cn_out (mkConn true []) ++ [f1])]>) sb).
  assert (Cc : consistent sc) by (apply consistent_conns_insert; exact Cb).
  assert (Hx2 : st_sess sc !! l = Some x). { destruct Rr as (_ & _ & _ & _ & Rs & _). cbn. rewrite Rs. exact Hx. }
  assert (Hk2 : st_conns sc !! ss_conn x = Some (mkConn true [f1])) by (cbn; apply lookup_insert).
  assert (Hclk : st_clock sc = st_clock s). { destruct Rr as (_ & _ & _ & _ & _ & _ & _ & Rc). cbn. rewrite Rc. reflexivity. }
  (* authentication *)
  assert (C2' : carries e sc p2 0x0102 (B0102 al cd imei sw)). { destruct C2 as (I1 & I2 & I3). split; [exact I1|]. split; [exact I2|]. rewrite Hclk. exact I3. }
  assert (Hd2 : devAt sc (h_phone (pk_hdr p2)) = devAt sb (en_phone t)) by (rewrite Hp2; reflexivity). rewrite Rd in Hd2.
  destruct (authentication e l sc p2 al cd imei sw _ Cc C2' Hd2) as (m2 & sd & B1 & Cd & Both & Br & Bok & _).
  destruct Bok as (An2 & Bd & Bp & Bj); [exact Hcode|]. rewrite Hp2 in Bd, Bp. cbn [d_plate d_id d_sid d_conn d_keep d_ver d_proto] in Bd, Bp.
  destruct (reply_encodes e l sc (en_auth t) p2 m2 sd) as (f2 & E2); [repeat split; assumption|exact B1| |].
  { destruct C2 as (-> & _). cbn; tauto. }
  pose proof (serve_reply e l sc x _ _ p2 m2 sd f2 Hx2 Hk2 eq_refl D2 F2 B1 ltac:(apply Br) E2) as S2. cbn [cn_out app] in S2.
  cbn [fst snd]. rewrite run_bindR. rewrite S2. cbn [fst snd run ret]. eexists. split; [reflexivity|].
  assert (code1 = cd) as ->.
  { set (D := mkDevice (r_devid r) (en_plate t) (en_phone t) [] 0 0 0 0 V2013 0 [] [] []).
    rewrite (proj1 (code_iff D code1) Hc1). symmetry. exact (proj1 (code_iff D cd) Hcode). }
  unfold inside. do 9 eexists. split; [exact Bd|]. split; [rewrite <- Bd; exact Bp|]. do 4 (split; [reflexivity|]).
  split; [reflexivity|]. split; [exact Hclk|]. split; [reflexivity|].
  split. { cbn. rewrite Bj. cbn. rewrite Rj. apply elem_of_app. right. apply elem_of_list_here. }
  split. { unfold sessAt. destruct Br as (_ & _ & _ & _ & Bs & Bi & _), Rr as (_ & _ & _ & _ & Rs & Ri & _).
    cbn. rewrite Bs, Bi. cbn. rewrite Rs, Ri. cbn. rewrite !lookup_insert. reflexivity. }
  split; [reflexivity|]. split; [exact D1|]. split; [exact D2|]. split; [exact An1|]. split; [exact An2|].
  split; [exact E1|]. split; [exact E2|]. cbn. apply lookup_insert.
Qed.

(** ** All of them *)
Lemma own_parted s t : consistent s -> unused s t -> parted (own t) s.
Proof.
  intros C (U1 & U2 & U3 & U4 & U5).
  assert (Hd : forall ph d, devAt s ph = Some d -> dev_in (own t) false d).
  { intros ph d Hd. destruct (U5 ph d Hd) as (S1 & S2). revert Hd. unfold devAt. destruct (st_byPhone s !! ph) as [l|] eqn:El; [|discriminate].
    intros Ed. destruct (cs_phone s C ph l El) as (d' & E1 & E2 & E3). rewrite Ed in E1. injection E1 as <-. subst ph.
    assert (Hn : d_phone d <> en_phone t). { intros E. rewrite <- E in U1. unfold devAt in U1. rewrite El in U1. congruence. }
    assert (Hw : d_plate d <> en_plate t). { intros E. rewrite <- E in U2. unfold devWithPlate in U2. rewrite E3 in U2. congruence. }
    repeat split; apply bool_decide_eq_false; assumption. }
  split; [|split].
  - intros ph d E. replace (in_phone (own t) ph) with false; [exact (Hd ph d E)|]. symmetry. apply bool_decide_eq_false. intros ->. congruence.
  - intros w d E. replace (in_plate (own t) w) with false. 2:{ symmetry. apply bool_decide_eq_false. intros ->. congruence. }
    revert E. unfold devWithPlate. destruct (st_byPlate s !! w) as [l|] eqn:El; [|discriminate]. intros Ed.
    destruct (cs_plate s C w l El) as (d' & E1 & _ & E3). rewrite Ed in E1. injection E1 as <-.
    apply (Hd (d_phone d)). unfold devAt. rewrite E3. exact Ed.
  - intros a x E. assert (Ha : a <> en_addr t) by (intros ->; congruence).
    replace (in_addr (own t) a) with false. 2:{ symmetry. apply bool_decide_eq_false. exact Ha. }
    revert E. unfold sessAt. destruct (st_byID s !! a) as [l|] eqn:El; [|discriminate]. intros Ex.
    destruct (cs_sess s C a l El) as (x' & E1 & E2). rewrite Ex in E1. injection E1 as <-. subst a.
    split; apply bool_decide_eq_false; [exact Ha|]. intros Hc. destruct (cs_conn s C l x Ex) as ((k & Hk) & _). rewrite Hc in Hk. congruence.
Qed.
Lemma own_entry e s t : entering e s t -> belongs e (own t) s true (entry t).
Proof.
  intros (p1 & p2 & r & al & cd & imei & sw & W1 & W2 & C1 & C2 & Hp1 & Hp2 & Hpl & Hcode).
  split; [apply bool_decide_eq_true; reflexivity|]. split; [apply bool_decide_eq_true; reflexivity|].
  destruct W1 as (_ & D1 & _). destruct W2 as (_ & D2 & _).
  intros frm w p Hin Hp. assert (Hc : p = p1 \/ p = p2).
  { destruct Hin as [E|[E|[]]]; injection E as <- <-; [left|right]; congruence. }
  destruct Hc as [-> | ->].
  - split; [rewrite Hp1; apply bool_decide_eq_true; reflexivity|]. intros _ now m r' Hm Hb. destruct C1 as (_ & _ & Hd).
    change (msgDecode (e_o e) now K0100 p1) with (msgDecode (e_o e) (e_civil e (st_clock s)) (kind_of (B0100 r)) p1) in Hm.
    rewrite Hd in Hm. injection Hm as <-. cbn in Hb. injection Hb as <-. apply bool_decide_eq_true. exact Hpl.
  - split; [rewrite Hp2; apply bool_decide_eq_true; reflexivity|]. intros Hid. destruct C2 as (Hi & _). rewrite Hi in Hid. discriminate.
Qed.
Lemma other_entry e s t t' : unlike t t' -> entering e s t' -> belongs e (own t) s false (entry t').
Proof.
  intros (N1 & N2 & N3 & N4) (p1 & p2 & r & al & cd & imei & sw & W1 & W2 & C1 & C2 & Hp1 & Hp2 & Hpl & Hcode).
  split; [apply bool_decide_eq_false; congruence|]. split; [apply bool_decide_eq_false; congruence|].
  destruct W1 as (_ & D1 & _). destruct W2 as (_ & D2 & _).
  intros frm w p Hin Hp. assert (Hc : p = p1 \/ p = p2).
  { destruct Hin as [E|[E|[]]]; injection E as <- <-; [left|right]; congruence. }
  destruct Hc as [-> | ->].
  - split; [rewrite Hp1; apply bool_decide_eq_false; congruence|]. intros _ now m r' Hm Hb. destruct C1 as (_ & _ & Hd).
    change (msgDecode (e_o e) now K0100 p1) with (msgDecode (e_o e) (e_civil e (st_clock s)) (kind_of (B0100 r)) p1) in Hm.
    rewrite Hd in Hm. injection Hm as <-. cbn in Hb. injection Hb as <-. apply bool_decide_eq_false. congruence.
  - split; [rewrite Hp2; apply bool_decide_eq_false; congruence|]. intros Hid. destruct C2 as (Hi & _). rewrite Hi in Hid. discriminate.
Qed.
Lemma entries_only e s ts more i t : all_unlike ts -> Forall (entering e s) ts ->
  Forall (fun g => forall t, In t ts -> belongs e (own t) s false g) more -> nth_error ts i = Some t ->
  only e (own t) s (List.map entry ts ++ more) i.
Proof.
  intros Hu He Hm Ei j g Ej. assert (Hi : (i < length ts)%nat) by (apply nth_error_Some; congruence).
  destruct (Nat.lt_ge_cases j (length ts)) as [Hj|Hj].
  - rewrite nth_error_app1 in Ej by (rewrite map_length; exact Hj). rewrite nth_error_map in Ej.
    destruct (nth_error ts j) as [t'|] eqn:Et; [|discriminate]. injection Ej as <-.
    destruct (Nat.eqb_spec i j) as [->|Hn].
    + rewrite Ei in Et. injection Et as <-. apply own_entry. eapply List.Forall_forall; [exact He|eapply nth_error_In; exact Ei].
    + apply other_entry; [exact (Hu i j t t' Ei Et Hn)|]. eapply List.Forall_forall; [exact He|eapply nth_error_In; exact Et].
  - destruct (Nat.eqb_spec i j) as [->|Hn]; [lia|]. rewrite nth_error_app2 in Ej by (rewrite map_length; exact Hj).
    apply nth_error_In in Ej. rewrite List.Forall_forall in Hm. apply (Hm g Ej). eapply nth_error_In. exact Ei.
Qed.
Lemma inside_agree e s t u v : inside e s t u -> agree_on (own t) true u v -> inside e s t v.
Proof.
  intros (d & x & p1 & p2 & cd & m1 & m2 & f1 & f2 & H1 & H2 & H3 & H4 & H5 & H6 & H7 & H8 & H9 & H10 & H11 & H12 & H) A.
  assert (T1 : in_phone (own t) (en_phone t) = true) by (apply bool_decide_eq_true; reflexivity).
  exists d, x, p1, p2, cd, m1, m2, f1, f2.
  rewrite (ag_dev _ _ _ _ A), (ag_plate _ _ _ _ A), (ag_sess _ _ _ _ A), (ag_conn _ _ _ _ A) by (apply bool_decide_eq_true; reflexivity).
  do 9 (split; [assumption|]). split; [|do 2 (split; [assumption|]); exact H].
  assert (Hf : en_phone t ∈ base.filter (fun ph => in_phone (own t) ph = true) (st_jobs u)) by (apply elem_of_list_filter; auto).
  rewrite <- (ag_jobs _ _ _ _ A) in Hf. apply elem_of_list_filter in Hf. apply Hf.
Qed.
(** a goroutine whose turn comes often enough ends *)
Lemma ends_alone e gs s sch i g : nth_error gs i = Some g ->
  exists n r, nth_error (fst (running e gs s (sch ++ repeat i n))) i = Some (Ret r).
Proof.
  intros Ei. unfold running. destruct (psteps (List.map (code e) gs) s sch) as [ps u] eqn:Ep.
  assert (Hl : length ps = length gs). { pose proof (psteps_length sch (List.map (code e) gs) s) as L. rewrite Ep, map_length in L. exact L. }
  assert (Hi : (i < length gs)%nat) by (apply nth_error_Some; congruence).
  destruct (nth_error ps i) as [p|] eqn:E; [|apply nth_error_None in E; lia].
  destruct (psteps_alone p ps u i E) as (n & E1 & _). exists n, (fst (run p u)).
  rewrite psteps_app, Ep. 
  change (nth_error (fst (psteps ps u (repeat i n))) i = Some (Ret (fst (run p u)))). rewrite E1. rewrite nth_error_app2 by (rewrite firstn_length; lia). rewrite firstn_length, Nat.min_l by lia.
  rewrite Nat.sub_diag. reflexivity.
Qed.
Lemma entrants e s ts more : consistent s -> sane s -> all_unlike ts -> Forall (unused s) ts -> Forall (entering e s) ts ->
  Forall timeless more -> Forall (fun g => forall t, In t ts -> belongs e (own t) s false g) more ->
  forall sch i t, nth_error ts i = Some t ->
  (forall r, nth_error (fst (running e (List.map entry ts ++ more) s sch)) i = Some (Ret r) ->
     r = Ok tt /\ inside e s t (snd (running e (List.map entry ts ++ more) s sch)))
  /\ exists n, nth_error (fst (running e (List.map entry ts ++ more) s (sch ++ repeat i n))) i = Some (Ret (Ok tt)).
Proof.
  intros C Hs Hu Hun Hen Htm Hm sch i t Ei.
  assert (Hin : In t ts) by (eapply nth_error_In; exact Ei). rewrite List.Forall_forall in Hun. pose proof (Hun t Hin) as Ut.
  pose proof (entries_only e s ts more i t Hu Hen Hm Ei) as Hon. rewrite List.Forall_forall in Hen. pose proof (Hen t Hin) as Et.
  destruct (entrant_alone e s t C Ut Et) as (s' & Er & Hi).
  set (gs := List.map entry ts ++ more) in *.
  assert (Eg : nth_error gs i = Some (entry t)).
  { unfold gs. rewrite nth_error_app1; [rewrite nth_error_map, Ei; reflexivity|]. rewrite map_length. apply nth_error_Some. congruence. }
  assert (Htg : Forall timeless gs).
  { unfold gs. apply Forall_app. split; [|exact Htm]. clear. induction ts; constructor; [exact Logic.I|assumption]. }
  assert (Hall : forall sch r, nth_error (fst (running e gs s sch)) i = Some (Ret r) -> r = Ok tt /\ inside e s t (snd (running e gs s sch))).
  { intros sc r E. destruct (one_among (own t) e gs s sc i (entry t) r Hs (cs_geo_inj s C) (own_parted s t C Ut) Hon Htg Eg E) as (<- & A).
    rewrite Er in A |- *. cbn [fst snd] in *. split; [reflexivity|]. eapply inside_agree; eassumption. }
  split; [exact (Hall sch)|]. destruct (ends_alone e gs s sch i (entry t) Eg) as (n & r & E). exists n. rewrite E. f_equal. f_equal.
  exact (proj1 (Hall _ r E)).
Qed.
