(** C130, C131: the pauses of the server *)
From stdpp Require Import gmap.
From Verif Require Import Base HexM TimeM HeaderM ParamsM GeoM MsgM PacketM FrameM ProgM RingM StateM ProcM ServerM PaceM
  SpecCodec SpecState SpecReg SpecRelease SpecTimed SpecPace PaceP ExampleData ExampleState Properties_State Properties_Reg Properties_Server.
Local Open Scope Z_scope.

(** C130, false: behind enough messages with unknown ids heartbeats are not handled in time.  Whatever has arrived
    after those messages and whatever else arrives and happens, the device is removed. *)
Theorem C130_refuted : forall e now pes pes' sl ph d c bads rest, let p := timed e now pes in let q := timed e now (pes ++ pes') in
  devAt (w_st (p_w p)) ph = Some d -> sl ∈ w_live (p_w p) ->
  p_in p sl = bads ++ rest -> (forall i, In i bads -> exists frm, fst (snd i) = Ok frm /\ unknown_frame e frm) -> only_by e ph sl p pes' ->
  c <= d_last d + 60000 -> spaced 60000 60000 c (check_times e ph (p_w p) (untimed e p pes')) (p_clock q) ->
  d_last d + 180000 < p_clock q -> p_clock q < p_clock p + 1000 * Z.of_nat (length bads) ->
  devAt (w_st (p_w q)) ph = None.
Proof. exact starved. Qed.
Print Assumptions C130_refuted.

(** the device of the first connection has authenticated and sent 200 messages with the unknown id 0x0900; then it
    sends a heartbeat every second and the server handles what it can at once *)
Definition pes130 : list pevent :=
  [POther (EAccept 0 addr1); PArrive 0 (Ok f_reg1) None; PServe 0; PPass 1000; PArrive 0 (Ok f_auth1) None; PServe 0]
  ++ repeat (PArrive 0 (Ok f_odd) None) (Z.to_nat 200).
Definition second1 : list pevent := [PArrive 0 (Ok f_heart1) None; PServe 0; PPass 1000].
Definition minute130 : list pevent := concat (repeat second1 (Z.to_nat 60)) ++ [POther (ETick phone12)].
Definition pes130' : list pevent := minute130 ++ minute130 ++ minute130 ++ second1.
Definition p130 : pworld := timed e0 1000 pes130.
Definition q130 : pworld := timed e0 1000 (pes130 ++ pes130').
(** the server of this run is as prompt as it can be *)
Fixpoint promptb (e : env) (p : pworld) (pes : list pevent) : bool :=
  match pes with
  | [] => true
  | pe :: pes' =>
      match pe with
      | PPass d => forallb (fun sl => match p_in p sl with [] => true | _ => p_clock p + Z.of_N d <=? Z.max (p_clock p) (p_wake p sl) end)
                           (elements (w_live (p_w p)))
      | _ => true
      end && promptb e (pace e p pe) pes'
  end.
Lemma promptb_prompt e pes : forall p, promptb e p pes = true -> prompt e p pes.
Proof.
  induction pes as [|pe pes IH]; intros p H; [exact Logic.I|]. cbn [promptb prompt] in *. apply andb_true_iff in H as (H1 & H2). split; [|exact (IH _ H2)].
  destruct pe as [| |d|]; try exact Logic.I. intros sl Hl Hn. rewrite forallb_forall in H1. specialize (H1 sl). rewrite <- elem_of_list_In, elem_of_elements in H1. specialize (H1 Hl).
  destruct (p_in p sl); [congruence|]. apply Z.leb_le, H1.
Qed.
(** only the first connection handles anything *)
Definition serves_only (sl : nat) (pes : list pevent) : bool :=
  forallb (fun pe => match pe with PServe sl' => Nat.eqb sl' sl | _ => true end) pes.
Lemma serves_only_by e ph sl p pes : serves_only sl pes = true -> only_by e ph sl p pes.
Proof.
  intros H pes1 sl' pes2 -> Hn. exfalso. apply Hn. unfold serves_only in H. rewrite forallb_app in H. apply andb_true_iff in H as (_ & H).
  cbn [forallb] in H. apply andb_true_iff in H as (H & _). apply Nat.eqb_eq, H.
Qed.
Lemma f_odd_unknown : unknown_frame e0 f_odd.
Proof.
  exists (unframe f_odd). split; [vmr|]. split; [vmr|]. assert (E : h_id (pk_hdr (unframe f_odd)) = 0x0900%N) by vmr. rewrite E. cbn [In]. lia.
Qed.
Example C130_ex : devAt (w_st (p_w p130)) phone12 = Some d1 /\ 0%nat ∈ w_live (p_w p130)
  /\ p_in p130 0%nat = repeat (2000, (Ok f_odd, None)) (Z.to_nat 200) /\ unknown_frame e0 f_odd /\ only_by e0 phone12 0%nat p130 pes130'
  /\ spaced 60000 60000 2000 (check_times e0 phone12 (p_w p130) (untimed e0 p130 pes130')) (p_clock q130)
  /\ p_clock p130 = 2000 /\ p_clock q130 = 183000 /\ prompt e0 (pworld0 1000) (pes130 ++ pes130')
  /\ beat_frame e0 phone12 f_heart1 /\ devAt (w_st (p_w q130)) phone12 = None.
Proof.
  split; [vmr|]. split; [apply (bool_decide_unpack _); vm_compute; exact Logic.I|]. split; [vmr|]. split; [exact f_odd_unknown|].
  split; [apply serves_only_by; vmr|].
  assert (E : check_times e0 phone12 (p_w p130) (untimed e0 p130 pes130') = [62000; 122000; 182000]) by vmr.
  assert (C : p_clock q130 = 183000) by vmr. rewrite E, C. cbn [spaced].
  split; [lia|]. split; [vmr|]. split; [reflexivity|]. split; [apply promptb_prompt; vmr|]. split; [exists (unframe f_heart1); repeat split; vmr|vmr].
Qed.

(** C130, what holds: a prompt server, messages that fail seldom enough for none to wait longer than [K], heartbeats that arrive
    early enough *)
Theorem C130_partial : forall e now pes pes' sl ph d K, let p := timed e now pes in
  devAt (w_st (p_w p)) ph = Some d -> d_status d <> Offline -> d_last d <= p_clock p ->
  prompt e (pworld0 now) (pes ++ pes') -> goes_on e sl p pes' -> 0 <= K -> lag K (arrivals e sl (pworld0 now) (pes ++ pes')) ->
  stays_in e ph p pes' -> beats_arrive e ph sl K (d_last d) p pes' ->
  exists d', devAt (w_st (p_w (timed e now (pes ++ pes')))) ph = Some d' /\ d_status d' <> Offline /\ same_identity d d'.
Proof. exact beats_keep. Qed.
Print Assumptions C130_partial.

(** an unknown message, half a second later a heartbeat that waits for half a second, and a check for which the
    authentication alone would have been too long ago *)
Definition pes130p : list pevent := firstn 6 pes130.
Definition pes130p' : list pevent :=
  [PArrive 0 (Ok f_odd) None; PServe 0; PPass 500; PArrive 0 (Ok f_heart1) None; PPass 500; PServe 0; PPass 59400; POther (ETick phone12)].
Fixpoint goes_onb (e : env) (sl : nat) (p : pworld) (pes : list pevent) : bool :=
  bool_decide (sl ∈ w_live (p_w p)) && match pes with [] => true | pe :: pes' => goes_onb e sl (pace e p pe) pes' end.
Lemma goes_onb_on e sl pes : forall p, goes_onb e sl p pes = true -> goes_on e sl p pes.
Proof.
  induction pes as [|pe pes IH]; intros p H pes1 pes2 E; cbn [goes_onb] in H; apply andb_true_iff in H as (H & H'); apply bool_decide_eq_true in H.
  - destruct pes1; [exact H|discriminate].
  - destruct pes1 as [|x pes1]; [exact H|]. cbn [app] in E. injection E as <- E. exact (IH _ H' pes1 pes2 E).
Qed.
Fixpoint stays_inb (e : env) (p : pworld) (pes : list pevent) : bool :=
  match pes with
  | [] => true
  | pe :: pes' =>
      forallb (fun ev => match ev with
                         | EFrame _ (Ok frm) _ => match received e (w_st (p_w p)) frm with Some (_, B0003) | Some (_, B0102 _ _ _ _) => false | _ => true end
                         | _ => true
                         end) (untimed1 p pe) && stays_inb e (pace e p pe) pes'
  end.
Lemma stays_inb_in e ph pes : forall p, stays_inb e p pes = true -> stays_in e ph p pes.
Proof.
  induction pes as [|pe pes IH]; intros p H pes1 pe' pes2 E; cbn [stays_inb] in H; [destruct pes1; discriminate|]. apply andb_true_iff in H as (H & H').
  destruct pes1 as [|x pes1]; cbn [app] in E; injection E as <- E; [|exact (IH _ H' pes1 pe' pes2 E)].
  cbn [paces fold_left]. intros ev Hev (sl & frm & wr & h & b & -> & Hr & _ & Hb). rewrite forallb_forall in H. specialize (H _ Hev). cbn beta iota in H. rewrite Hr in H.
  destruct Hb as [->|(al & code & imei & sw & d & -> & _)]; discriminate.
Qed.
Example C130_partial_ex : let p := timed e0 1000 pes130p in
  devAt (w_st (p_w p)) phone12 = Some d1 /\ d_status d1 <> Offline /\ d_last d1 <= p_clock p
  /\ prompt e0 (pworld0 1000) (pes130p ++ pes130p') /\ goes_on e0 0 p pes130p' /\ lag 500 (arrivals e0 0 (pworld0 1000) (pes130p ++ pes130p'))
  /\ stays_in e0 phone12 p pes130p' /\ beats_arrive e0 phone12 0 500 (d_last d1) p pes130p'
  /\ d_last d1 + 60000 < p_clock (timed e0 1000 (pes130p ++ pes130p')).
Proof.
  cbv zeta. split; [vmr|]. split; [discriminate|]. split; [vm_compute; discriminate|]. split; [apply promptb_prompt; vmr|].
  split; [apply goes_onb_on; vmr|].
  split. { assert (E : arrivals e0 0 (pworld0 1000) (pes130p ++ pes130p') = [(1000, 0); (2000, 0); (2000, 1000); (2500, 0)]) by vmr.
    rewrite E. intros l1 a n l2 a' n' l3 H.
    do 5 (try (destruct l1 as [|? l1]; cbn [app] in H; [|first [discriminate H|injection H as <- H]])); try discriminate H; injection H as <- <- H;
    do 5 (try (destruct l2 as [|? l2]; cbn [app] in H; [|first [discriminate H|injection H as <- H]])); try discriminate H; injection H as <- <- <-; cbn; lia. }
  split; [apply stays_inb_in; vmr|]. split; [|vm_compute; reflexivity].
  intros pes1 pes2 E. right. destruct pes2 as [|x pes2 _] using rev_ind.
  - change pes130p' with (firstn 7 pes130p' ++ [POther (ETick phone12)]) in E. apply app_inj_tail in E as (<- & _).
    exists (firstn 3 pes130p'), f_heart1, None, (skipn 4 (firstn 7 pes130p')). split; [reflexivity|].
    split; [exists (unframe f_heart1); repeat split; vmr|]. vm_compute. split; [discriminate|reflexivity].
  - exfalso. change pes130p' with (firstn 7 pes130p' ++ [POther (ETick phone12)]) in E.
    change (pes1 ++ POther (ETick phone12) :: pes2 ++ [x]) with (pes1 ++ (POther (ETick phone12) :: pes2) ++ [x]) in E. rewrite app_assoc in E. apply app_inj_tail in E as (E & _).
    assert (H : In (POther (ETick phone12)) (firstn 7 pes130p')) by (rewrite E; apply in_app_iff; right; left; reflexivity).
    cbn [In firstn pes130p'] in H. repeat (destruct H as [H|H]; [discriminate H|]). destruct H.
Qed.

(** C131: the pause is all that the other model of serve leaves out ... *)
Theorem C131_same : forall e sl r x s, run (serveOne e sl r x) s =
  (match fst (run (pacedOne e sl r x) s) with Ok o => Ok (bool_decide (is_Some o)) | Err er => Err er | Panic => Panic end,
   snd (run (pacedOne e sl r x) s)).
Proof. exact paced_serve. Qed.
Print Assumptions C131_same.
(** ... and every run in real time is one of its histories *)
Theorem C131_history : forall e now pes, p_w (timed e now pes) = history e now (untimed e (pworld0 now) pes).
Proof. exact timed_history. Qed.
Print Assumptions C131_history.
(** exactly the messages that fail without ending the connection are followed by a pause, of one second *)
Theorem C131_pause : forall e now pes sl t r x, let p := timed e now pes in let y := mkHandling t (p_clock p) (nap e (w_st (p_w p)) sl r x) in
  next_in p sl = Some (t, (r, x)) ->
  served e sl (pworld0 now) (pes ++ [PServe sl]) = served e sl (pworld0 now) pes ++ [y]
  /\ p_w (timed e now (pes ++ [PServe sl])) = step e (p_w p) (EFrame sl r x)
  /\ (hg_pause y = 1000 <-> mistaken e (w_st (p_w p)) sl r x) /\ (hg_pause y = 0 <-> ~ mistaken e (w_st (p_w p)) sl r x).
Proof. exact pause_iff. Qed.
Print Assumptions C131_pause.
(** during which the connection handles nothing *)
Theorem C131_order : forall e now pes sl, (forall x, In x (served e sl (pworld0 now) pes) -> hg_pause x = 0 \/ hg_pause x = 1000)
  /\ not_before now (served e sl (pworld0 now) pes).
Proof. exact served_pauses. Qed.
Print Assumptions C131_order.
(** so in [m] seconds it handles at most [m] messages that fail *)
Theorem C131_rate : forall e sl now pes a m, now <= a -> (failing a (a + 1000 * Z.of_nat m) (served e sl (pworld0 now) pes) <= m)%nat.
Proof. exact rate. Qed.
Print Assumptions C131_rate.
(** When no goroutine is idle while it has something to do, a message is handled exactly when it is there and the pause
    after the message before it is over: other connections do not delay it. *)
Theorem C131_prompt : forall e sl now pes, prompt e (pworld0 now) pes -> successive now (served e sl (pworld0 now) pes).
Proof. exact prompt_successive. Qed.
Print Assumptions C131_prompt.
(** two unknown messages and a heartbeat arrive together by the first connection, a registration by the second *)
Definition pes131 : list pevent :=
  [POther (EAccept 0 addr1); POther (EAccept 1 addr2); PArrive 0 (Ok f_reg1) None; PServe 0; PArrive 0 (Ok f_odd) None; PArrive 0 (Ok f_odd) None;
   PArrive 0 (Ok f_heart1) None; PServe 0; PArrive 1 (Ok f_reg2) None; PServe 1; PPass 1000; PServe 0; PPass 1000; PServe 0].
Example C131_ex : prompt e0 (pworld0 1000) pes131
  /\ served e0 0 (pworld0 1000) pes131 = [mkHandling 1000 1000 0; mkHandling 1000 1000 1000; mkHandling 1000 2000 1000; mkHandling 1000 3000 0]
  /\ served e0 1 (pworld0 1000) pes131 = [mkHandling 1000 1000 0]
  /\ failing 1000 3000 (served e0 0 (pworld0 1000) pes131) = 2%nat
  /\ (let p := timed e0 1000 (firstn 11 pes131) in next_in p 0 = Some (1000, (Ok f_odd, None)) /\ mistaken e0 (w_st (p_w p)) 0 (Ok f_odd) None).
Proof.
  split; [apply promptb_prompt; vmr|]. split; [vmr|]. split; [vmr|]. split; [vmr|]. cbv zeta. split; [vmr|].
  apply (unknown_mistaken e0 _ 0 f_odd None x1); [vmr|exact f_odd_unknown].
Qed.
