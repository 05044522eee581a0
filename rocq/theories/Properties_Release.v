(** C56, C114: silent devices are released after every history, stored parameters and transfers never are *)
From stdpp Require Import gmap.
From Verif Require Import Base HexM TimeM HeaderM ParamsM GeoM MsgM PacketM FrameM ProgM RingM StateM ProcM ServerM ConcM
  SpecState SpecReg SpecConc SpecRelease ServerP ReleaseP ExampleData ExampleState Properties_State Properties_Reg Properties_Server Properties_Split.
Local Open Scope N_scope.

(** C56 over histories: however long a device has been there and whatever the others do, as long as it says nothing its
    record is decided by the number of its checks that come too late: the first turns it offline, the next removes it *)
Theorem C56_history : forall e ph evs' now evs d, let w := history e now evs in
  devAt (w_st w) ph = Some d -> wordless e ph w evs' ->
  devAt (w_st (history e now (evs ++ evs'))) ph = after_checks d (overdue e ph (d_last d + d_keep d) w evs').
Proof. exact silent_history. Qed.
Print Assumptions C56_history.
(** the other device enters while the first one is silent; two of its three checks come too late *)
Definition evs56 : list event :=
  [EClock 30000; ETick phone12; EFrame 1 (Ok f_reg2) None; EClock 62001; ETick phone12; EFrame 1 (Err ErrEOF) None; ETick phone12].
Fixpoint no_word (e : env) (ph : str) (w : world) (evs : list event) : bool :=
  match evs with
  | [] => true
  | ev :: evs' =>
      match ev with
      | EFrame _ (Ok frm) _ => match received e (w_st w) frm with Some (h, _) => negb (bool_decide (h_phone h = ph)) | None => true end
      | _ => true
      end && no_word e ph (step e w ev) evs'
  end.
Lemma no_word_wordless e ph evs : forall w, no_word e ph w evs = true -> wordless e ph w evs.
Proof.
  induction evs as [|ev evs IH]; intros w H; [constructor|]. cbn [no_word] in H. apply andb_prop in H as [H1 H2]. constructor; [|auto].
  intros (sl & frm & wr & h & b & -> & _ & Hr & Hp). rewrite Hr in H1. rewrite bool_decide_true in H1 by assumption. discriminate H1.
Qed.
Example C56_ex_history : devAt (w_st (history e0 1000 evs2)) phone12 = Some d1 /\ wordless e0 phone12 (history e0 1000 evs2) evs56
  /\ overdue e0 phone12 (d_last d1 + d_keep d1) (history e0 1000 evs2) evs56 = 2%nat
  /\ overdue e0 phone12 (d_last d1 + d_keep d1) (history e0 1000 evs2) (firstn 5 evs56) = 1%nat
  /\ after_checks d1 2 = None /\ after_checks d1 1 = Some (with_status d1 Offline).
Proof.
  split; [vmr|]. split; [apply no_word_wordless; vmr|]. repeat (split; [vmr|]). vmr.
Qed.
(** ... so in an endless run in which its checks go on and the clock with them a silent device is removed once and for all *)
Theorem C56_eventually : forall e ph f now evs d, let w := history e now evs in
  devAt (w_st w) ph = Some d -> (forall n, wordless e ph w (first f n)) ->
  (forall n t, exists m, (n <= m)%nat /\ f m = ETick ph /\ (t < st_clock (w_st (history e now (evs ++ first f m))))%Z) ->
  exists n, forall m, (n <= m)%nat -> devAt (w_st (history e now (evs ++ first f m))) ph = None.
Proof. exact silent_eventually. Qed.
Print Assumptions C56_eventually.
(** the clock moves by a second, then the phone is checked, for ever *)
Definition f56 (n : nat) : event := if Nat.even n then EClock (1000 * Z.of_nat n) else ETick phone12.
Example C56_ex_eventually : let w := history e0 1000 evs2 in devAt (w_st w) phone12 = Some d1
  /\ (forall n, wordless e0 phone12 w (first f56 n))
  /\ forall n t, exists m, (n <= m)%nat /\ f56 m = ETick phone12 /\ (t < st_clock (w_st (history e0 1000 (evs2 ++ first f56 m))))%Z.
Proof.
  split; [vmr|]. split.
  - intros n. assert (H : forall evs, Forall (fun ev => forall sl r x, ev <> EFrame sl r x) evs -> forall w, wordless e0 phone12 w evs).
    { intros evs F. induction F as [|ev evs Hv _ IH]; intros w; [constructor|]. constructor; [|apply IH].
      intros (sl & frm & wr & h & b & -> & _). exact (Hv _ _ _ eq_refl). }
    apply H. apply List.Forall_forall. intros ev (k & <- & _)%in_map_iff. unfold f56. destruct (Nat.even k); discriminate.
  - intros n t. exists (S (2 * (n + Z.to_nat t + 1))). split; [lia|]. split.
    { unfold f56. rewrite Nat.even_succ, Nat.odd_mul. reflexivity. }
    rewrite first_S, app_assoc, history_snoc. set (k := (2 * (n + Z.to_nat t + 1))%nat).
    assert (E : f56 k = EClock (1000 * Z.of_nat k)) by (unfold f56, k; rewrite Nat.even_mul; reflexivity).
    rewrite E. unfold step. rewrite (proj1 (C59_alive_partial e0 1000 (evs2 ++ first f56 k))). cbn [w_st set_clock st_clock]. lia.
Qed.

(** C114: under no schedule and by no event are a phone's stored parameters or an unfinished transfer ever given up:
    neither when the device logs out, nor when it is cleared, nor when its connection ends *)
Theorem C114_refuted : forall e gs s sch, retains s (snd (running e gs s sch)).
Proof. exact retained. Qed.
Print Assumptions C114_refuted.
Theorem C114_refuted_history : forall e now evs evs', retains (w_st (history e now evs)) (w_st (history e now (evs ++ evs'))).
Proof. exact retained_history. Qed.
Print Assumptions C114_refuted_history.
(** what is released: there are as many plate entries and keepalive jobs as devices, no more session ids than connections
    being served, and a phone's locations take 100 slots whatever it reports *)
Theorem C114_bounded_partial : forall e now evs, let w := history e now evs in let s := w_st w in
  size (st_byPlate s) = size (st_byPhone s) /\ length (st_jobs s) = size (st_byPhone s) /\ (size (st_byID s) <= size (w_live w))%nat
  /\ forall ph r, ringOf s ph = Some r -> length (rg_slots r) = 100%nat.
Proof. exact bounded. Qed.
Print Assumptions C114_bounded_partial.
(** a parameter query and the first fragment of a message arrive (the latter ends the connection, C60), then the other
    connection ends too and both devices are cleared *)
Definition evs114 : list event := [EFrame 0 (Ok (frame (mkMsg (hid 0x8104) B8104))) None; EFrame 0 (Ok (frame (mkMsg h_fr (B0200 loc_on)))) None].
Definition evs114' : list event :=
  [EFrame 1 (Err ErrEOF) None; EClock 62001; ETick phone12; ETick phone12b; ETick phone12; ETick phone12b].
Example C114_ex : let s := w_st (history e0 1000 (evs2 ++ evs114)) in let w' := history e0 1000 ((evs2 ++ evs114) ++ evs114') in let s' := w_st w' in
  is_Some (st_params s !! phone12) /\ size (st_segs s) = 1%nat /\ size (st_byPhone s) = 2%nat /\ length (st_jobs s) = 2%nat /\ size (st_byID s) = 1%nat
  /\ is_Some (ringOf s phone12)
  /\ size (st_byPhone s') = O /\ size (st_byPlate s') = O /\ st_jobs s' = [] /\ size (st_byID s') = O /\ size (w_live w') = O
  /\ is_Some (st_params s' !! phone12) /\ size (st_segs s') = 1%nat.
Proof. cbn zeta. repeat (split; [first [vmr|vm_compute; solve [eauto]]|]). vmr. Qed.
