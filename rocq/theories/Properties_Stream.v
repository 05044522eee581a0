(** C117: what the server does depends on the bytes and not on how they are split; C118: a device heard recently *)
From stdpp Require Import gmap.
From Verif Require Import Base HexM TimeM HeaderM ParamsM GeoM MsgM PacketM FrameM ProgM RingM StateM ProcM ServerM ConcM StreamM
  SpecCodec SpecState SpecConc SpecReg SpecStream SpecTimely StreamP TimelyP ExampleData ExampleState.
Local Open Scope N_scope.
Ltac vmr := vm_compute; reflexivity.

(** C117: if the same bytes arrive on each connection, in whatever pieces, then under every schedule
    the server's state and the goroutines' results are the same *)
Theorem C117_split : forall e cs cs' gs s sch, Forall2 same_feed cs cs' ->
  snd (serving e cs gs s sch) = snd (serving e cs' gs s sch)
  /\ forall i r, nth_error (fst (serving e cs gs s sch)) i = Some (Ret r) <-> nth_error (fst (serving e cs' gs s sch)) i = Some (Ret r).
Proof. exact split_alike. Qed.
Print Assumptions C117_split.
(** they are those of the server given the frames in the bytes, in order, each once ... *)
Theorem C117_frames : forall e cs gs' gs s sch, Forall2 as_conn cs gs' ->
  snd (serving e cs gs s sch) = snd (running e (gs' ++ gs) s sch)
  /\ forall i r, nth_error (fst (serving e cs gs s sch)) i = Some (Ret r) <-> nth_error (fst (running e (gs' ++ gs) s sch)) i = Some (Ret r).
Proof. exact streams_are_frames. Qed.
Print Assumptions C117_frames.
(** ... which the bytes determine ... *)
Theorem C117_unique : forall x, (let '(_, _, s, _) := x in no_empty_read s) -> exists g, as_conn x g /\ forall g', as_conn x g' -> g' = g.
Proof. exact conn_of. Qed.
Print Assumptions C117_unique.
(** ... and which for encoded packets with other bytes in between are the packets *)
Theorem C117_packets : forall e c addr s ws ps js tail gs w sch, no_empty_read s -> (forall j, In j js -> no_delim j) -> no_delim tail ->
  st_bytes s = interleaved js (List.map escape ps) tail ->
  snd (serving e [(c, addr, s, ws)] gs w sch)
  = snd (running e (GConn c addr (combine (List.map Ok (List.map escape ps) ++ repeat (Err (st_end s)) (length ws)) ws) :: gs) w sch).
Proof. exact packets_arrive. Qed.
Print Assumptions C117_packets.
(** a registration and an authentication in one piece, and in pieces of seven bytes *)
Fixpoint sevens (n : nat) (b : bytes) : list bytes :=
  match n, b with O, _ | _, [] => [] | S n, _ => take 7 b :: sevens n (drop 7 b) end.
Definition whole : stream := mkStream [] [f_reg1 ++ f_auth1] ErrEOF.
Definition pieces : stream := mkStream [] (sevens 100 (f_reg1 ++ f_auth1)) ErrEOF.
Definition feed_of (x : stream) : feed := (0%nat, addr1, x, repeat None 3).
Definition status_after (x : stream) (sch : list nat) : option N :=
  d_status <$> devAt (snd (serving e0 [feed_of x] [] (init 1000) sch)) phone12.
Example C117_ex : same_feed (feed_of whole) (feed_of pieces) /\ length (st_next pieces) = 12%nat
  /\ status_after pieces (repeat 0%nat 100) = Some Online /\ status_after whole (repeat 0%nat 100) = Some Online
  /\ (exists c, cn_out <$> st_conns (snd (serving e0 [feed_of pieces] [] (init 1000) (repeat 0%nat 100))) !! 0%nat = Some c /\ length c = 2%nat).
Proof.
  split; [|split; [vmr|split; [vmr|split; [vmr|eexists; split; vmr]]]].
  unfold same_feed, feed_of. split_and!; try reflexivity; try vmr; unfold no_empty_read, whole, pieces; cbn [st_next]; vm_compute; intuition discriminate.
Qed.

(** C118: while the clock stays within a keepalive interval of the time an online device was last heard, it
    stays registered and online, and its keepalive job stays, whatever connections, checks and requests
    run at the same time, unless it logs out or authenticates with a wrong code *)
Theorem C118_survives : forall e gs s ph d sch, sane s -> devAt s ph = Some d -> d_status d <> Offline -> within d (st_clock s) ->
  (forall g, In g gs -> placed s g /\ harmless e ph d g) ->
  let s' := snd (running e gs s sch) in
  (exists d', devAt s' ph = Some d' /\ same_identity d d' /\ d_status d' <> Offline /\ (d_last d <= d_last d')%Z)
  /\ (ph ∈ st_jobs s -> ph ∈ st_jobs s').
Proof. exact timely_survives. Qed.
Print Assumptions C118_survives.
(** a check that fires twice, a heartbeat, the passing of 59 seconds and the logout of another terminal *)
Definition f_out2 : bytes := frame (mkMsg (hidb 0x0003) B0003).
Definition loyalb (e : env) (ph : str) (frm : bytes) : bool :=
  match decodePacket (e_o e) frm with
  | Ok p => negb (bool_decide (h_phone (pk_hdr p) = ph)) || negb ((h_id (pk_hdr p) =? 0x0003) || (h_id (pk_hdr p) =? 0x0102))
  | _ => true
  end.
Lemma loyalb_ok e ph d frm : loyalb e ph frm = true -> forall p, decodePacket (e_o e) frm = Ok p -> loyal e ph d p.
Proof.
  unfold loyalb. intros H p E Hp. rewrite E in H. rewrite bool_decide_eq_true_2 in H by exact Hp. cbn in H.
  apply negb_true_iff, orb_false_iff in H. destruct H as (H1 & H2). apply N.eqb_neq in H1, H2. split; [exact H1|]. intros. contradiction.
Qed.
Definition gs118 : list goroutine :=
  [GTick phone12; GServe 0 [(Ok f_heart1, None)]; GClock 61000; GServe 1 [(Ok f_out2, None)]; GTick phone12; GGetParams phone12 None].
Definition devs_after (sch : list nat) : option N * option N :=
  let s := snd (running e0 gs118 s2 sch) in (d_status <$> devAt s phone12, d_status <$> devAt s phone12b).
Example C118_ex : sane s2 /\ devAt s2 phone12 = Some d1 /\ d_status d1 = Online /\ within d1 (st_clock s2)
  /\ (forall g, In g gs118 -> placed s2 g /\ harmless e0 phone12 d1 g)
  /\ devs_after (repeat 2 5 ++ repeat 3 100 ++ repeat 0 50 ++ repeat 1 3 ++ repeat 4 50 ++ repeat 5 50 ++ repeat 1 100)%nat = (Some Online, None)
  /\ d_status <$> devAt (snd (running e0 [GClock 62001; GTick phone12] s2 [0; 1; 1; 1; 1; 1; 1]%nat)) phone12 = Some Offline.
Proof.
  split; [exact s2_sane|]. split; [exact s2_d1|]. split; [reflexivity|]. split; [vm_compute; split; discriminate|].
  split; [|split; vmr].
  intros g [<-|[<-|[<-|[<-|[<-|[<-|[]]]]]]]; (split; [first [exact Logic.I|vm_compute; eexists; reflexivity]|]); cbn [harmless]; try exact Logic.I.
  - intros frm w p [[= <- <-]|[]] E. eapply loyalb_ok; [|exact E]. vmr.
  - vm_compute. split; discriminate.
  - intros frm w p [[= <- <-]|[]] E. eapply loyalb_ok; [|exact E]. vmr.
Qed.
