(** Parameter requests for one device: serial numbers and the order of the frames (C136) *)
From Coq Require Import Permutation.
From stdpp Require Import gmap.
From Verif Require Import Base HexM TimeM HeaderM ParamsM GeoM MsgM PacketM FrameM ProgM ProgP RingM RingP
  StateM ProcM ServerM ConcM SpecState SpecCmd StateP ProcP ServerP EffectP ReplyP CmdP SessP LinkP InterP.
Local Open Scope N_scope.

Section Dev.
Context (e : env) (s0 : st) (ph : str) (l : nat) (d : device) (sl : nat) (x : session) (reqs : list request).
Context (Hl : st_byPhone s0 !! ph = Some l) (Hd : st_devs s0 !! l = Some d)
  (Hi : st_byID s0 !! d_sid d = Some sl) (Hid : ss_id x = d_sid d).
Notation at_ := (ordered s0 sl x).

Lemma at_phone sn out : st_byPhone (at_ sn out) !! ph = Some l. Proof. exact Hl. Qed.
Lemma at_dev sn out : st_devs (at_ sn out) !! l = Some d. Proof. exact Hd. Qed.
Lemma at_id sn out : st_byID (at_ sn out) !! d_sid d = Some sl. Proof. exact Hi. Qed.
Lemma at_sess sn out : st_sess (at_ sn out) !! sl = Some (mkSession (ss_id x) (ss_conn x) sn).
Proof. unfold ordered, set_sess. cbn [st_sess]. apply lookup_insert. Qed.
Lemma at_conn sn out : st_conns (at_ sn out) !! ss_conn x = Some (mkConn true out).
Proof. unfold ordered, set_sess, set_conns. cbn [st_conns]. apply lookup_insert. Qed.
Lemma at_serial sn out n : set_sess (alter (fun y => sset_sn y n) sl) (at_ sn out) = at_ n out.
Proof.
  unfold ordered, set_sess, set_conns. cbn [st_sess st_conns st_devs st_byPlate st_byPhone st_rings st_geo st_params st_segs st_byID st_jobs st_clock].
  rewrite alter_insert. reflexivity.
Qed.
Lemma at_sends sn out f : set_conns (alter (fun y => if cn_open y then mkConn true (cn_out y ++ [f]) else y) (ss_conn x)) (at_ sn out)
  = at_ sn (out ++ [f]).
Proof.
  unfold ordered, set_sess, set_conns. cbn [st_sess st_conns st_devs st_byPlate st_byPhone st_rings st_geo st_params st_segs st_byID st_jobs st_clock].
  rewrite alter_insert. reflexivity.
Qed.

(** how far a request is: it will write the frame [f] and finish; or it will take a serial number before that *)
Inductive writes (f : bytes) : sp unit -> Prop :=
| wr_read a g k : (forall sn out, g (at_ sn out) = at_ sn out /\ writes f (k (at_ sn out))) -> writes f (Act a g k)
| wr_send a g k : (forall sn out, g (at_ sn out) = at_ sn (out ++ [f]) /\ k (at_ sn out) = Ret (Ok tt)) -> writes f (Act a g k).
Inductive asks (F : N -> bytes) : sp unit -> Prop :=
| as_read a g k : (forall sn out, g (at_ sn out) = at_ sn out /\ asks F (k (at_ sn out))) -> asks F (Act a g k)
| as_take a g k : (forall sn out, sn + 1 <= 65535 -> g (at_ sn out) = at_ (sn + 1) out /\ writes (F (sn + 1)) (k (at_ sn out))) ->
    (forall out, run (Act a g k) (at_ 65535 out) = (Ok tt, at_ 0 (out ++ [F 0]))) ->
    asks F (Act a g k).
Lemma run_writes f p : writes f p -> forall sn out, run p (at_ sn out) = (Ok tt, at_ sn (out ++ [f])).
Proof.
  induction p as [q|a g k IH]; intros W sn out; inversion W as [a' g' k' H|a' g' k' H]; subst; cbn [run].
  - destruct (H sn out) as (-> & Hk). apply IH. exact Hk.
  - destruct (H sn out) as (-> & ->). reflexivity.
Qed.

(** the frame of a request *)
Definition frame_for (r : request) (sn : N) : bytes :=
  match encodePacket (e_o e) (order_for d r sn) with Ok f => f | _ => [] end.
Lemma frame_ok r sn : sendable e r -> encodePacket (e_o e) (order_for d r sn) = Ok (frame_for r sn).
Proof.
  intros H. unfold frame_for.
  assert (exists f, encodePacket (e_o e) (order_for d r sn) = Ok f) as (f & ->); [|reflexivity].
  destruct r as [|bad ps]; cbn [order_for].
  - rewrite <- platform_cmd. eexists. reflexivity.
  - destruct H as (b & H). rewrite <- platform_cmd. unfold encodePacket, msgEncode. cbn. rewrite H. eexists. reflexivity.
Qed.

(** the part of a request after the serial number was taken *)
Lemma send_writes (m : msg) f (post : list N) : encodePacket (e_o e) m = Ok f ->
  writes f ((y <- readSess sl ;; serverSend e (ss_id y) m None ;;; ret post) ;;; ret tt)%prog.
Proof.
  intros Hf. apply wr_read. intros sn out. split; [reflexivity|]. rewrite at_sess. cbn.
  apply wr_read. intros sn1 out1. split; [reflexivity|]. rewrite Hid, at_id. cbn.
  apply wr_read. intros sn2 out2. split; [reflexivity|]. rewrite at_sess. cbn. rewrite Hf. cbn.
  apply wr_send. intros sn3 out3. split; [apply at_sends|]. rewrite at_conn. cbn. reflexivity.
Qed.

Lemma request_asks r : sendable e r -> asks (frame_for r) (code e (handling ph r)).
Proof.
  intros Hs.
  assert (G : forall id b (post : list N), (forall sn, encodePacket (e_o e) (platform_msg d id sn b) = Ok (frame_for r sn)) ->
    asks (frame_for r)
      ((dv <- readConst l ;; y <- apiSession dv ;; z <- readSess (fst y) ;;
        serverSend e (ss_id z) (mkMsg (genMsgHeader (d_ver dv) (d_proto dv) (d_phone dv) id (snd y)) b) None ;;; ret post) ;;; ret tt)%prog).
  { intros id b post Hf. apply as_read. intros sn out. split; [reflexivity|]. rewrite at_dev.
    apply as_read. intros sn1 out1. split; [reflexivity|]. rewrite at_id.
    apply as_take.
    2:{ intros out2. cbn [run]. unfold serialAt at 1 2. rewrite !at_sess.
        cbn [fmap option_fmap option_map default from_option Datatypes.id ss_sn]. rewrite !at_serial.
        change ((65535 + 1) mod 4294967296) with 65536. change (65536 <=? 65535) with false. cbv iota.
        cbn [run pbind pbindR zoom wr1 rd1 ret]. rewrite !at_serial. unfold serialAt. rewrite !at_sess.
        cbn [fmap option_fmap option_map default from_option Datatypes.id ss_sn].
        change (0 mod 65536) with 0.
        apply (run_writes (frame_for r 0)
          ((z <- readSess sl ;; serverSend e (ss_id z) (mkMsg (genMsgHeader (d_ver d) (d_proto d) (d_phone d) id 0) b) None ;;; ret post) ;;; ret tt)%prog).
        apply send_writes. rewrite platform_cmd. apply Hf. }
    intros sn2 out2 Hn. unfold serialAt. rewrite at_sess.
    cbn [fmap option_fmap option_map default from_option Datatypes.id ss_sn].
    rewrite (N.mod_small (sn2 + 1) 4294967296) by lia. split; [apply at_serial|].
    destruct (N.leb_spec (sn2 + 1) 65535) as [_|Hx]; [|lia]. rewrite (N.mod_small (sn2 + 1) 65536) by lia.
    apply (send_writes (mkMsg (genMsgHeader (d_ver d) (d_proto d) (d_phone d) id (sn2 + 1)) b)).
    rewrite platform_cmd. apply Hf. }
  destruct r as [|bad ps]; cbn [handling code].
  - apply as_read. intros sn out. split; [reflexivity|]. rewrite at_phone. apply (G 0x8104 B8104 []).
    intros n. exact (frame_ok RGet n Hs).
  - apply as_read. intros sn out. split; [reflexivity|]. rewrite at_phone.
    apply (G 0x8103 (B8103 0 (Some ps)) (if bad then [400] else [])). intros n. exact (frame_ok (RPut bad ps) n Hs).
Qed.

(** ** Any schedule *)
Context (c0 : N) (out0 : list bytes) (Hall : Forall (sendable e) reqs) (Hb : c0 + N.of_nat (length reqs) <= 65535).
(** [tk]: the requests that took a serial number; [ord]: those that have written their frame *)
Definition where_ (tk ord : list (nat * N)) (i : nat) (r : request) (p : sp unit) : Prop :=
  (~ In i (List.map fst tk) /\ asks (frame_for r) p)
  \/ (exists n, In (i, n) tk /\ ~ In i (List.map fst ord) /\ writes (frame_for r n) p)
  \/ (exists n, In (i, n) tk /\ In (i, n) ord /\ p = Ret (Ok tt)).
Definition frm (o : nat * N) : bytes := match nth_error reqs (fst o) with Some r => frame_for r (snd o) | None => [] end.
Definition oinv (ps : list (sp unit)) (s : st) : Prop := exists sn tk ord,
  s = at_ sn (out0 ++ List.map frm ord)
  /\ c0 <= sn /\ N.of_nat (length tk) = sn - c0
  /\ List.NoDup (List.map fst tk) /\ List.NoDup (List.map snd tk)
  /\ (forall i n, In (i, n) tk -> (i < length reqs)%nat /\ c0 < n <= sn)
  /\ List.NoDup (List.map fst ord) /\ incl ord tk
  /\ length ps = length reqs
  /\ forall i r p, nth_error reqs i = Some r -> nth_error ps i = Some p -> where_ tk ord i r p.

Lemma tk_length (tk : list (nat * N)) : List.NoDup (List.map fst tk) -> (forall i n, In (i, n) tk -> (i < length reqs)%nat) ->
  (length tk <= length reqs)%nat.
Proof.
  clear Hb. intros Hn Hlt. rewrite <- (map_length fst tk), <- (seq_length (length reqs) 0). apply NoDup_incl_length; [exact Hn|].
  intros i Hin. apply in_map_iff in Hin. destruct Hin as ((i' & n) & <- & Hin). apply in_seq. specialize (Hlt _ _ Hin). cbn. lia.
Qed.
Lemma same_fst (tk : list (nat * N)) i n m : List.NoDup (List.map fst tk) -> In (i, n) tk -> In (i, m) tk -> n = m.
Proof.
  induction tk as [|(j & k) t IH]; cbn; [intros _ []|]. intros Hn. apply NoDup_cons_iff in Hn. destruct Hn as (Hx & Hn).
  intros [[= -> ->]|H1] [[= ->]|H2]; auto.
  - exfalso. apply Hx. apply in_map_iff. exists (i, m). auto.
  - subst. exfalso. apply Hx. apply in_map_iff. eexists (i, n). split; [|exact H1]. cbn. congruence.
Qed.

Lemma oinv_step ps s i : oinv ps s -> oinv (fst (pstep ps s i)) (snd (pstep ps s i)).
Proof.
  intros Inv. unfold pstep. destruct (nth_error ps i) as [p|] eqn:E; [|exact Inv].
  destruct p as [q|a g k]; [exact Inv|]. cbn [fst snd].
  destruct Inv as (sn & tk & ord & -> & Hc & Hlen & Hn1 & Hn2 & Hlt & Ho & Hinc & Hps & Hp).
  assert (exists r, nth_error reqs i = Some r) as (r & Hr).
  { destruct (nth_error reqs i) eqn:E'; [eauto|]. apply nth_error_None in E'.
    assert (i < length ps)%nat by (apply nth_error_Some; congruence). lia. }
  assert (Hs : sendable e r) by (rewrite List.Forall_forall in Hall; apply Hall; eapply nth_error_In; eassumption).
  assert (Hother : forall tk' ord' q, (forall j rj pj, j <> i -> where_ tk ord j rj pj -> where_ tk' ord' j rj pj) ->
    where_ tk' ord' i r q -> forall j rj pj, nth_error reqs j = Some rj ->
    nth_error (firstn i ps ++ q :: skipn (i + 1) ps) j = Some pj -> where_ tk' ord' j rj pj).
  { intros tk' ord' q H1 H2 j rj pj Hj Hpj. rewrite (nth_error_upd ps i j _ _ E) in Hpj.
    destruct (Nat.eqb_spec i j) as [<-|Hij].
    - injection Hpj as <-. assert (rj = r) by congruence. subst rj. exact H2.
    - apply H1; [congruence|]. exact (Hp j rj pj Hj Hpj). }
  destruct (Hp i r _ Hr E) as [(Hni & HA)|[(n & Hin & Hno & HW)|(n & _ & _ & [=])]].
  - inversion HA as [a' g' k' HR|a' g' k' HT _]; subst.
    + destruct (HR sn (out0 ++ List.map frm ord)) as (Hg & Hk). rewrite Hg. exists sn, tk, ord.
      repeat (split; [first [reflexivity|assumption]|]). split; [rewrite (upd_length ps i _ _ E); exact Hps|].
      apply Hother; [intros; assumption|]. left. split; assumption.
    + assert (Hle : (S (length tk) <= length reqs)%nat).
      { apply (tk_length ((i, 0) :: tk)); cbn [List.map fst]; [constructor; assumption|].
        intros j m [[= <- _]|Hj]; [|exact (proj1 (Hlt j m Hj))]. apply nth_error_Some. congruence. }
      destruct (HT sn (out0 ++ List.map frm ord)) as (Hg & Hk); [lia|]. rewrite Hg.
      exists (sn + 1), ((i, sn + 1) :: tk), ord. split; [reflexivity|]. split; [lia|].
      split; [cbn [length]; lia|]. split; [cbn; constructor; assumption|].
      split. { cbn. constructor; [|exact Hn2]. intros Hin. apply in_map_iff in Hin. destruct Hin as ((j & m) & Hm & Hin).
               cbn in Hm. specialize (Hlt j m Hin). lia. }
      split. { intros j m [[= <- <-]|Hj]; [split; [apply nth_error_Some; congruence|lia]|]. specialize (Hlt j m Hj). split; [tauto|lia]. }
      split; [exact Ho|]. split; [intros z Hz; right; apply Hinc; exact Hz|].
      split; [rewrite (upd_length ps i _ _ E); exact Hps|].
      apply Hother.
      * intros j rj pj Hj [(H1 & H2)|[(m & H1 & H2 & H3)|(m & H1 & H2 & H3)]].
        -- left. split; [|exact H2]. cbn. intros [H|H]; [congruence|contradiction].
        -- right. left. exists m. split; [right; exact H1|auto].
        -- right. right. exists m. split; [right; exact H1|auto].
      * right. left. exists (sn + 1). split; [left; reflexivity|]. split; [|exact Hk].
        intros Hin. apply Hni. apply in_map_iff in Hin. destruct Hin as (z & <- & Hz). apply in_map. apply Hinc. exact Hz.
  - inversion HW as [a' g' k' HR|a' g' k' HT]; subst.
    + destruct (HR sn (out0 ++ List.map frm ord)) as (Hg & Hk). rewrite Hg. exists sn, tk, ord.
      repeat (split; [first [reflexivity|assumption]|]). split; [rewrite (upd_length ps i _ _ E); exact Hps|].
      apply Hother; [intros; assumption|]. right. left. exists n. auto.
    + destruct (HT sn (out0 ++ List.map frm ord)) as (Hg & Hk). rewrite Hg, Hk. exists sn, tk, (ord ++ [(i, n)]).
      split. { rewrite map_app, app_assoc. cbn [List.map]. replace (frm (i, n)) with (frame_for r n) by (unfold frm; cbn [fst snd]; rewrite Hr; reflexivity). reflexivity. }
      repeat (split; [assumption|]).
      split. { rewrite map_app. cbn. apply NoDup_ListNoDup. apply NoDup_app. split; [apply NoDup_ListNoDup; exact Ho|].
               split; [intros z Hz Hz'; apply elem_of_list_singleton in Hz'; subst z; apply Hno, elem_of_list_In, Hz|].
               apply NoDup_singleton. }
      split. { intros z Hz. apply in_app_iff in Hz. destruct Hz as [Hz|[<-|[]]]; [apply Hinc; exact Hz|exact Hin]. }
      split; [rewrite (upd_length ps i _ _ E); exact Hps|].
      apply Hother.
      * intros j rj pj Hj [(H1 & H2)|[(m & H1 & H2 & H3)|(m & H1 & H2 & H3)]].
        -- left. auto.
        -- right. left. exists m. split; [exact H1|]. split; [|exact H3]. rewrite map_app, in_app_iff. cbn. intros [H|[H|[]]]; congruence.
        -- right. right. exists m. split; [exact H1|]. split; [apply in_app_iff; left; exact H2|exact H3].
      * right. right. exists n. split; [exact Hin|]. split; [apply in_app_iff; right; left; reflexivity|reflexivity].
Qed.
Lemma oinv_steps sch : forall ps s, oinv ps s -> oinv (fst (psteps ps s sch)) (snd (psteps ps s sch)).
Proof.
  induction sch as [|i t IH]; intros ps s H; cbn [psteps]; [exact H|].
  pose proof (oinv_step ps s i H) as H1. destruct (pstep ps s i) as [ps' s']. apply IH. exact H1.
Qed.
Lemma oinv_init : oinv (List.map (code e) (List.map (handling ph) reqs)) (at_ c0 out0).
Proof.
  exists c0, [], []. cbn [List.map]. rewrite app_nil_r. split; [reflexivity|]. split; [lia|]. split; [cbn; lia|].
  split; [constructor|]. split; [constructor|]. split; [intros ? ? []|]. split; [constructor|]. split; [intros ? []|].
  split; [rewrite !map_length; reflexivity|]. intros i r p Hr Hp. left. split; [intros []|].
  rewrite !nth_error_map, Hr in Hp. injection Hp as <-. apply request_asks.
  rewrite List.Forall_forall in Hall. apply Hall. eapply nth_error_In; eassumption.
Qed.

(** ** One request at a time *)
Lemma run_asks F p : asks F p -> forall sn out, sn <= 65535 ->
  run p (at_ sn out) = (Ok tt, at_ ((sn + 1) mod 65536) (out ++ [F ((sn + 1) mod 65536)])).
Proof.
  clear Hb.
  induction p as [q|a g k IH]; intros A sn out Hsn; inversion A as [a' g' k' H|a' g' k' H H']; subst.
  - cbn [run]. destruct (H sn out) as (-> & Hk). apply IH; assumption.
  - destruct (N.leb_spec (sn + 1) 65535) as [Hle|Hgt].
    + rewrite N.mod_small by lia. cbn [run]. destruct (H sn out Hle) as (-> & Hk). apply run_writes. exact Hk.
    + replace sn with 65535 by lia. apply H'.
Qed.

(** ** Every order *)
Lemma asks_moves F p : asks F p -> forall sn out, sn + 1 <= 65535 ->
  exists p', moves p (at_ sn out) p' (at_ (sn + 1) out) /\ writes (F (sn + 1)) p'.
Proof.
  clear Hb.
  induction p as [q|a g k IH]; intros A sn out Hsn; inversion A as [a' g' k' H|a' g' k' H H']; subst.
  - destruct (H sn out) as (Hg & Hk). destruct (IH (at_ sn out) Hk sn out Hsn) as (p' & M & W).
    exists p'. split; [|exact W]. constructor. rewrite Hg. exact M.
  - destruct (H sn out Hsn) as (Hg & Hk). exists (k (at_ sn out)). split; [|exact Hk].
    constructor. rewrite Hg. constructor.
Qed.
Lemma writes_moves f p : writes f p -> forall sn out, moves p (at_ sn out) (Ret (Ok tt)) (at_ sn (out ++ [f])).
Proof. clear Hb. intros W sn out. apply moves_done. apply run_writes. exact W. Qed.
Lemma moves_at (p p' : sp unit) s s' : moves p s p' s' -> forall ps i, nth_error ps i = Some p ->
  exists n ps', psteps ps s (repeat i n) = (ps', s') /\ length ps' = length ps
    /\ forall j, nth_error ps' j = if Nat.eqb i j then Some p' else nth_error ps j.
Proof.
  clear Hb.
  induction 1 as [p s|a f k s p' s' _ IH]; intros ps i E.
  - exists 0%nat, ps. split; [reflexivity|]. split; [reflexivity|]. intros j. destruct (Nat.eqb_spec i j) as [<-|]; congruence.
  - destruct (IH (firstn i ps ++ k s :: skipn (i + 1) ps) i) as (n & ps' & H1 & H2 & H3).
    { rewrite (nth_error_upd ps i i _ _ E), Nat.eqb_refl. reflexivity. }
    exists (S n), ps'. split; [|split].
    + cbn [repeat psteps]. unfold pstep at 1. rewrite E. exact H1.
    + rewrite H2. eapply upd_length; eassumption.
    + intros j. rewrite H3, (nth_error_upd ps i j _ _ E). destruct (Nat.eqb i j); reflexivity.
Qed.
(** the requests [List.map fst t] take the serial numbers after [sn], in this order *)
Lemma take_all (t : list (nat * N)) : forall ps sn out, sn + N.of_nat (length t) <= 65535 ->
  List.NoDup (List.map fst t) -> List.map snd t = List.map (fun k => sn + 1 + N.of_nat k) (seq 0 (length t)) ->
  (forall i n, In (i, n) t -> exists r p, nth_error reqs i = Some r /\ nth_error ps i = Some p /\ asks (frame_for r) p) ->
  exists sch ps', psteps ps (at_ sn out) sch = (ps', at_ (sn + N.of_nat (length t)) out) /\ length ps' = length ps
    /\ (forall i n, In (i, n) t -> exists r p, nth_error reqs i = Some r /\ nth_error ps' i = Some p /\ writes (frame_for r n) p)
    /\ forall j, ~ In j (List.map fst t) -> nth_error ps' j = nth_error ps j.
Proof.
  clear Hb.
  induction t as [|(i & n) t IH]; intros ps sn out Hsn Hnd Hnum Hp.
  - exists [], ps. cbn. rewrite N.add_0_r. split; [reflexivity|]. split; [reflexivity|]. split; [intros ? ? []|reflexivity].
  - cbn [List.map fst snd length seq] in *. apply NoDup_cons_iff in Hnd. destruct Hnd as (Hni & Hnd).
    injection Hnum as Hn Hnum. replace n with (sn + 1) in * by lia. clear Hn.
    destruct (Hp i (sn + 1) (or_introl eq_refl)) as (r & p & Hr & Hpi & A).
    destruct (asks_moves _ _ A sn out ltac:(lia)) as (p' & M & W).
    destruct (moves_at _ _ _ _ M ps i Hpi) as (m & ps1 & E1 & L1 & N1).
    destruct (IH ps1 (sn + 1) out) as (sch & ps2 & E2 & L2 & W2 & N2); [lia|exact Hnd| | |].
    + rewrite Hnum, <- seq_shift, map_map. apply map_ext. intros k. lia.
    + intros j k Hj. destruct (Hp j k (or_intror Hj)) as (rj & pj & Hrj & Hpj & Aj). exists rj, pj. split; [exact Hrj|].
      split; [|exact Aj]. rewrite N1. destruct (Nat.eqb_spec i j) as [<-|]; [|exact Hpj].
      exfalso. apply Hni. apply in_map_iff. exists (i, k). auto.
    + exists (repeat i m ++ sch), ps2. rewrite psteps_app, E1. cbn [fst snd]. rewrite E2.
      split; [f_equal; f_equal; lia|]. split; [congruence|]. split.
      * intros j k [[= <- <-]|Hj]; [|apply W2; exact Hj]. exists r, p'. split; [exact Hr|]. split; [|exact W].
        rewrite N2 by exact Hni. rewrite N1, Nat.eqb_refl. reflexivity.
      * intros j Hj. cbn [In] in Hj. rewrite N2 by tauto. rewrite N1. destruct (Nat.eqb_spec i j) as [<-|]; [tauto|reflexivity].
Qed.
(** the requests [List.map fst t] write their frames, in this order *)
Lemma write_all (t : list (nat * N)) : forall ps sn out,
  List.NoDup (List.map fst t) ->
  (forall i n, In (i, n) t -> exists r p, nth_error reqs i = Some r /\ nth_error ps i = Some p /\ writes (frame_for r n) p) ->
  exists sch ps', psteps ps (at_ sn out) sch = (ps', at_ sn (out ++ List.map frm t)) /\ length ps' = length ps
    /\ (forall i, In i (List.map fst t) -> nth_error ps' i = Some (Ret (Ok tt)))
    /\ forall j, ~ In j (List.map fst t) -> nth_error ps' j = nth_error ps j.
Proof.
  clear Hb.
  induction t as [|(i & n) t IH]; intros ps sn out Hnd Hp.
  - exists [], ps. cbn. rewrite app_nil_r. split; [reflexivity|]. split; [reflexivity|]. split; [intros ? []|reflexivity].
  - cbn [List.map fst snd] in *. apply NoDup_cons_iff in Hnd. destruct Hnd as (Hni & Hnd).
    destruct (Hp i n (or_introl eq_refl)) as (r & p & Hr & Hpi & A).
    destruct (moves_at _ _ _ _ (writes_moves _ _ A sn out) ps i Hpi) as (m & ps1 & E1 & L1 & N1).
    destruct (IH ps1 sn (out ++ [frame_for r n])) as (sch & ps2 & E2 & L2 & W2 & N2); [exact Hnd| |].
    + intros j k Hj. destruct (Hp j k (or_intror Hj)) as (rj & pj & Hrj & Hpj & Aj). exists rj, pj. split; [exact Hrj|].
      split; [|exact Aj]. rewrite N1. destruct (Nat.eqb_spec i j) as [<-|]; [|exact Hpj].
      exfalso. apply Hni. apply in_map_iff. exists (i, k). auto.
    + exists (repeat i m ++ sch), ps2. rewrite psteps_app, E1. cbn [fst snd]. rewrite E2.
      split. { f_equal. f_equal. rewrite <- app_assoc. cbn [List.app]. unfold frm at 2. cbn [fst snd]. rewrite Hr. reflexivity. }
      split; [congruence|]. split.
      * intros j [<-|Hj]; [|apply W2; exact Hj]. rewrite N2 by exact Hni. rewrite N1, Nat.eqb_refl. reflexivity.
      * intros j Hj. cbn [In] in Hj. rewrite N2 by tauto. rewrite N1. destruct (Nat.eqb_spec i j) as [<-|]; [tauto|reflexivity].
Qed.
End Dev.

Section All.
Context (e : env) (s : st) (ph : str) (d : device) (x : session) (k : conn).
Context (C : consistent s) (Hd : devAt s ph = Some d) (Hx : sessAt s (d_sid d) = Some x)
  (Hk : st_conns s !! ss_conn x = Some k) (Ho : cn_open k = true).
Lemma placed_dev : exists l sl, st_byPhone s !! ph = Some l /\ st_devs s !! l = Some d
  /\ st_byID s !! d_sid d = Some sl /\ ss_id x = d_sid d /\ ss_sn x <= 65535 /\ s = ordered s sl x (ss_sn x) (cn_out k).
Proof.
  unfold devAt in Hd. destruct (st_byPhone s !! ph) as [l|] eqn:El; [|discriminate].
  destruct (sessAt_Some s _ _ Hx) as (sl & Hi & Hs). exists l, sl. split; [reflexivity|]. split; [exact Hd|]. split; [exact Hi|].
  destruct (cs_sess s C _ _ Hi) as (x' & Hs' & Hid). assert (x' = x) by congruence. subst x'. split; [exact Hid|].
  split; [exact (proj2 (cs_conn s C _ _ Hs))|].
  unfold ordered, set_sess, set_conns. cbn [st_sess st_conns st_devs st_byPlate st_byPhone st_rings st_geo st_params st_segs st_byID st_jobs st_clock].
  rewrite insert_id by (destruct x; exact Hs). rewrite insert_id by (destruct k; cbn in Ho; rewrite Ho in Hk; exact Hk).
  destruct s; reflexivity.
Qed.
Lemma frames_map reqs (ord : list (nat * N)) : Forall (sendable e) reqs -> (forall i n, In (i, n) ord -> (i < length reqs)%nat) ->
  frames_of e d reqs ord (List.map (frm e d reqs) ord).
Proof.
  intros Hall Hlt. unfold frames_of. induction ord as [|(i & n) t IH]; cbn [List.map]; constructor.
  - specialize (Hlt i n (or_introl eq_refl)). destruct (nth_error reqs i) as [r|] eqn:Er; [|apply nth_error_None in Er; lia].
    exists r. cbn [fst snd]. unfold frm. cbn [fst snd]. rewrite Er. split; [reflexivity|].
    apply frame_ok. rewrite List.Forall_forall in Hall. apply Hall. eapply nth_error_In; eassumption.
  - apply IH. intros j m Hj. apply (Hlt j m). right. exact Hj.
Qed.

Lemma cmd_any reqs sch : Forall (sendable e) reqs -> ss_sn x + N.of_nat (length reqs) <= 65535 ->
  exists sl sn ord outs, st_byID s !! d_sid d = Some sl
    /\ snd (running e (List.map (handling ph) reqs) s sch) = ordered s sl x sn (cn_out k ++ outs)
    /\ ss_sn x <= sn <= ss_sn x + N.of_nat (length reqs)
    /\ frames_of e d reqs ord outs
    /\ List.NoDup (List.map fst ord) /\ List.NoDup (List.map snd ord)
    /\ (forall i n, In (i, n) ord -> ss_sn x < n <= sn)
    /\ forall i p, nth_error (fst (running e (List.map (handling ph) reqs) s sch)) i = Some p ->
         (forall q, p = Ret q -> q = Ok tt) /\ (p = Ret (Ok tt) <-> In i (List.map fst ord)).
Proof.
  intros Hall Hb. destruct placed_dev as (l & sl & Hl & Hdv & Hi & Hid & Hsn & Es).
  pose proof (oinv_init e s ph l d sl x reqs Hl Hdv Hi Hid (ss_sn x) (cn_out k) Hall Hb) as I0.
  pose proof (oinv_steps e s d sl x reqs (ss_sn x) (cn_out k) Hall Hb sch _ _ I0) as I1.
  rewrite <- Es in I1. fold (running e (List.map (handling ph) reqs) s sch) in I1.
  destruct (running e (List.map (handling ph) reqs) s sch) as (ps & s'). cbn [fst snd] in *.
  destruct I1 as (sn & tk & ord & -> & Hc & Hlen & Hn1 & Hn2 & Hlt & Hno & Hinc & Hps & Hp).
  exists sl, sn, ord, (List.map (frm e d reqs) ord). split; [exact Hi|]. split; [reflexivity|].
  assert (Htl : (length tk <= length reqs)%nat) by (apply tk_length; [exact Hn1|]; intros i n Hin; apply (Hlt i n Hin)).
  split; [lia|]. split. { apply frames_map; [exact Hall|]. intros i n Hin. apply (Hlt i n). apply Hinc. exact Hin. }
  split; [exact Hno|]. split.
  { clear -Hn1 Hn2 Hno Hinc. induction ord as [|(i & n) t IH]; cbn in *; [constructor|].
    apply NoDup_cons_iff in Hno. destruct Hno as (Ha & Hb). constructor.
    - intros Hin. apply in_map_iff in Hin. destruct Hin as ((j & m) & E & Hj). cbn in E. subst m.
      assert (H1 : In (i, n) tk) by (apply Hinc; left; reflexivity). assert (H2 : In (j, n) tk) by (apply Hinc; right; exact Hj).
      assert (i = j).
      { clear -Hn2 H1 H2. induction tk as [|(u & v) t IH]; [destruct H1|]. cbn in Hn2. apply NoDup_cons_iff in Hn2.
        destruct Hn2 as (Hx & Hn2). destruct H1 as [[= -> ->]|H1], H2 as [[= ->]|H2]; auto.
        - exfalso. apply Hx. apply in_map_iff. exists (j, n). auto.
        - subst. exfalso. apply Hx. apply in_map_iff. exists (i, n). auto. }
      subst j. apply Ha. apply in_map_iff. exists (i, n). auto.
    - apply IH; [exact Hb|]. intros z Hz. apply Hinc. right. exact Hz. }
  split. { intros i n Hin. apply (Hlt i n). apply Hinc. exact Hin. }
  intros i p Hip. destruct (nth_error reqs i) as [r|] eqn:Er.
  2:{ apply nth_error_None in Er. assert (i < length ps)%nat by (apply nth_error_Some; congruence). lia. }
  destruct (Hp i r p Er Hip) as [(H1 & H2)|[(n & H1 & H2 & H3)|(n & H1 & H2 & H3)]].
  - split; [intros q ->; inversion H2|]. split; [intros ->; inversion H2|].
    intros Hin. exfalso. apply H1. apply in_map_iff in Hin. destruct Hin as (z & <- & Hz). apply in_map. apply Hinc. exact Hz.
  - split; [intros q ->; inversion H3|]. split; [intros ->; inversion H3|contradiction].
  - split; [intros q Hq; congruence|]. split; [|intros _; exact H3]. intros _. apply in_map_iff. exists (i, n). auto.
Qed.

Lemma cmd_every reqs (ord : list (nat * N)) : Forall (sendable e) reqs -> ss_sn x + N.of_nat (length reqs) <= 65535 ->
  Permutation (List.map fst ord) (seq 0 (length reqs)) ->
  Permutation (List.map snd ord) (List.map (fun j => ss_sn x + 1 + N.of_nat j) (seq 0 (length reqs))) ->
  exists sl outs sch, st_byID s !! d_sid d = Some sl /\ frames_of e d reqs ord outs
    /\ running e (List.map (handling ph) reqs) s sch =
       (List.map (fun _ => Ret (Ok tt)) reqs, ordered s sl x (ss_sn x + N.of_nat (length reqs)) (cn_out k ++ outs)).
Proof.
  intros Hall Hb P1 P2. destruct placed_dev as (l & sl & Hl & Hdv & Hi & Hid & Hsn & Es).
  assert (Hlen : length ord = length reqs).
  { rewrite <- (map_length fst ord), (Permutation_length P1), seq_length. reflexivity. }
  destruct (Permutation_map_inv snd _ (Permutation_sym P2)) as (t & Ht & Pt).
  assert (Hlt : length t = length reqs) by (rewrite <- (Permutation_length Pt); exact Hlen).
  assert (Hnd : List.NoDup (List.map fst ord)) by (eapply Permutation_NoDup; [apply Permutation_sym; exact P1|apply seq_NoDup]).
  assert (Hndt : List.NoDup (List.map fst t)) by (eapply Permutation_NoDup; [apply Permutation_map; exact Pt|exact Hnd]).
  assert (Hin : forall i n, In (i, n) ord -> (i < length reqs)%nat).
  { intros i n H. assert (H' : In i (seq 0 (length reqs))) by (eapply Permutation_in; [exact P1|]; apply in_map_iff; exists (i, n); auto).
    apply in_seq in H'. lia. }
  set (ps0 := List.map (code e) (List.map (handling ph) reqs)).
  destruct (take_all e s d sl x reqs t ps0 (ss_sn x) (cn_out k)) as (sch1 & ps1 & E1 & L1 & W1 & N1).
  { rewrite Hlt. exact Hb. } { exact Hndt. } { rewrite Hlt. symmetry. exact Ht. }
  { intros i n H. assert (Hi' : (i < length reqs)%nat) by (apply (Hin i n); eapply Permutation_in; [apply Permutation_sym; exact Pt|exact H]).
    destruct (nth_error reqs i) as [r|] eqn:Er; [|apply nth_error_None in Er; lia]. exists r, (code e (handling ph r)).
    split; [reflexivity|]. split; [unfold ps0; rewrite !nth_error_map, Er; reflexivity|].
    apply (request_asks e s ph l d sl x Hl Hdv Hi Hid). rewrite List.Forall_forall in Hall. apply Hall. eapply nth_error_In; eassumption. }
  destruct (write_all e s d sl x reqs ord ps1 (ss_sn x + N.of_nat (length t)) (cn_out k)) as (sch2 & ps2 & E2 & L2 & W2 & N2).
  { exact Hnd. } { intros i n H. apply W1. eapply Permutation_in; [exact Pt|exact H]. }
  exists sl, (List.map (frm e d reqs) ord), (sch1 ++ sch2). split; [exact Hi|]. split; [apply frames_map; assumption|].
  unfold running. fold ps0. rewrite psteps_app. rewrite Es at 1 2. rewrite E1. cbn [fst snd]. rewrite E2, Hlt. f_equal.
  assert (Lps : length ps2 = length reqs) by (rewrite L2, L1; unfold ps0; rewrite !map_length; reflexivity).
  apply nth_ext with (d := Ret (Ok tt)) (d' := Ret (Ok tt)); [rewrite map_length; exact Lps|]. intros i Hi'.
  assert (H : nth_error ps2 i = Some (Ret (Ok tt))).
  { apply W2. eapply Permutation_in; [apply Permutation_sym; exact P1|]. apply in_seq. lia. }
  rewrite (nth_error_nth _ _ _ H). symmetry. apply nth_error_nth. rewrite nth_error_map.
  destruct (nth_error reqs i) eqn:Er; [reflexivity|]. apply nth_error_None in Er. lia.
Qed.

Lemma cmd_turn reqs : Forall (sendable e) reqs ->
  exists sl outs, st_byID s !! d_sid d = Some sl
    /\ in_turn e ph reqs s = ordered s sl x ((ss_sn x + N.of_nat (length reqs)) mod 65536) (cn_out k ++ outs)
    /\ Forall2 (fun o f => encodePacket (e_o e) (order_for d (fst o) (snd o)) = Ok f)
         (combine reqs (List.map (fun j => (ss_sn x + 1 + N.of_nat j) mod 65536) (seq 0 (length reqs)))) outs.
Proof.
  intros Hall. destruct placed_dev as (l & sl & Hl & Hdv & Hi & Hid & Hsn & Es).
  enough (G : forall reqs sn out, Forall (sendable e) reqs -> sn <= 65535 -> exists outs,
    in_turn e ph reqs (ordered s sl x sn out) = ordered s sl x ((sn + N.of_nat (length reqs)) mod 65536) (out ++ outs)
    /\ Forall2 (fun o f => encodePacket (e_o e) (order_for d (fst o) (snd o)) = Ok f)
         (combine reqs (List.map (fun j => (sn + 1 + N.of_nat j) mod 65536) (seq 0 (length reqs)))) outs).
  { destruct (G reqs (ss_sn x) (cn_out k) Hall Hsn) as (outs & E & F). rewrite <- Es in E. exists sl, outs. auto. }
  clear Hall reqs. induction reqs as [|r t IH]; intros sn out Hall Hn.
  - exists []. cbn. rewrite N.add_0_r, N.mod_small, app_nil_r by lia. split; [reflexivity|constructor].
  - apply Forall_cons_iff in Hall. destruct Hall as (Hr & Hall). cbn [in_turn].
    rewrite (run_asks s sl x _ _ (request_asks e s ph l d sl x Hl Hdv Hi Hid r Hr) sn out Hn). cbn [snd].
    assert (Hm : (sn + 1) mod 65536 < 65536) by (apply N.mod_lt; lia).
    destruct (IH ((sn + 1) mod 65536) (out ++ [frame_for e d r ((sn + 1) mod 65536)]) Hall ltac:(lia)) as (outs & E & F).
    exists (frame_for e d r ((sn + 1) mod 65536) :: outs). split.
    + rewrite E, <- app_assoc. f_equal. rewrite N.add_mod_idemp_l by lia. f_equal. cbn [length]. lia.
    + cbn [length seq List.map combine]. constructor.
      * cbn [fst snd]. rewrite N.add_0_r. apply frame_ok. exact Hr.
      * rewrite <- seq_shift, map_map. erewrite map_ext; [exact F|]. intros j. cbn beta.
        replace ((sn + 1) mod 65536 + 1 + N.of_nat j) with ((sn + 1) mod 65536 + (1 + N.of_nat j)) by lia.
        rewrite N.add_mod_idemp_l by lia. f_equal. lia.
Qed.
End All.
