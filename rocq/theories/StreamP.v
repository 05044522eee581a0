(** What the server does depends on the bytes, not on how they arrive (C117) *)
From stdpp Require Import gmap.
From Verif Require Import Base HexM TimeM HeaderM ParamsM MsgM PacketM FrameM ProgM RingM StateM ProcM ServerM ConcM StreamM
  SpecCodec SpecStream FrameP CodecP CodecP3.
Local Open Scope N_scope.

Lemma recv_end s : chunks_ok s -> (~ exists j c r, no_delim j /\ no_delim c /\ st_bytes s = j ++ framed c ++ r) ->
  recv s = (Err (st_end s), mkStream [] [] (st_end s)).
Proof.
  intros Hs Hn. pose proof (recv_flat s Hs) as H. destruct (flatRecv (st_bytes s)) as [[f t]|x] eqn:E; [|exact H].
  destruct Hn. unfold flatRecv in E. apply recvBuf_inl in E as (j & c & H1 & H2 & H3 & _). exists j, c, t. split_and!; [exact H1|exact H2|].
  rewrite H3. unfold framed. rewrite <- app_comm_cons, <- app_assoc. reflexivity.
Qed.
Lemma nothing_framed : ~ exists j c r, no_delim j /\ no_delim c /\ ([] : bytes) = j ++ framed c ++ r.
Proof. intros (j & c & r & _ & _ & E). destruct j; discriminate. Qed.
Lemma serve_ended e sl er ws : serveStream e sl (mkStream [] [] er) ws = serveLoop e sl (combine (repeat (Err er) (length ws)) ws).
Proof.
  induction ws as [|w ws IH]; [reflexivity|]. cbn [serveStream length repeat combine serveLoop].
  change (recv (mkStream [] [] er)) with (@Err bytes er, mkStream [] [] er). cbn beta iota. rewrite IH. reflexivity.
Qed.
Lemma combine_longer {A B} (r : A) (ws : list B) : forall (rs : list A) n m, (length ws <= length rs + n)%nat -> (length ws <= length rs + m)%nat ->
  combine (rs ++ repeat r n) ws = combine (rs ++ repeat r m) ws.
Proof.
  induction ws as [|w ws IH]; intros rs n m Hn Hm; [rewrite !combine_nil; reflexivity|].
  destruct rs as [|a rs].
  - destruct n as [|n], m as [|m]; cbn in *; try lia. f_equal. apply (IH [] n m); cbn; lia.
  - cbn in *. f_equal. apply IH; lia.
Qed.
Lemma serve_frames e sl fs : forall s ws, no_empty_read s -> delivers (st_bytes s) fs ->
  serveStream e sl s ws = serveLoop e sl (combine (map Ok fs ++ repeat (Err (st_end s)) (length ws)) ws).
Proof.
  induction fs as [|f fs IH]; intros s ws Hs Hd.
  - inversion Hd as [bs Hn|]; subst. cbn [map app]. destruct ws as [|w ws]; [reflexivity|].
    cbn [serveStream]. rewrite (recv_end s Hs Hn). cbn [length repeat combine serveLoop].
    rewrite serve_ended. reflexivity.
  - inversion Hd as [|j c r fs' Hj Hc Hr E Ef]; subst. destruct ws as [|w ws]; [rewrite combine_nil; reflexivity|].
    destruct (recv_frame s j c r Hs Hj Hc (eq_sym E)) as (s' & H1 & H2 & H3 & H4).
    cbn [serveStream]. rewrite H1. cbn [map app length combine serveLoop].
    rewrite (IH s' ws); [|exact H4|rewrite H2; exact Hr]. rewrite H3.
    rewrite (combine_longer (Err (st_end s)) ws (map Ok fs) (length ws) (S (length ws))) by lia. reflexivity.
Qed.
Lemma delivers_total : forall n bs, (length bs < n)%nat -> exists fs, delivers bs fs.
Proof.
  induction n as [|n IH]; intros bs Hn; [lia|].
  destruct (flatRecv bs) as [[f t]|x] eqn:E.
  - unfold flatRecv in E. apply recvBuf_inl in E as (j & c & H1 & H2 & H3 & _).
    assert (E : bs = j ++ framed c ++ t) by (rewrite H3; unfold framed; rewrite <- app_comm_cons, <- app_assoc; reflexivity).
    destruct (IH t) as (fs & Hf).
    { rewrite E, app_length, app_length in Hn. unfold framed in Hn. cbn [length app] in Hn. rewrite app_length in Hn. cbn in Hn. lia. }
    exists (framed c :: fs). rewrite E. constructor; assumption.
  - exists []. constructor. intros (j & c & t & H1 & H2 & H3). unfold framed in H3. rewrite <- app_comm_cons, <- app_assoc in H3. cbn [app] in H3.
    unfold flatRecv in E. rewrite H3 in E. rewrite flatRecv_frame in E by assumption. discriminate.
Qed.
Lemma delivers_ex bs : exists fs, delivers bs fs.
Proof. exact (delivers_total (S (length bs)) bs ltac:(lia)). Qed.
Lemma same_bytes e sl s1 s2 ws : no_empty_read s1 -> no_empty_read s2 -> st_bytes s1 = st_bytes s2 -> st_end s1 = st_end s2 ->
  serveStream e sl s1 ws = serveStream e sl s2 ws.
Proof.
  intros H1 H2 Eb Ee. destruct (delivers_ex (st_bytes s1)) as (fs & Hf).
  rewrite (serve_frames e sl fs s1 ws H1 Hf). rewrite Eb in Hf. rewrite (serve_frames e sl fs s2 ws H2 Hf), Ee. reflexivity.
Qed.
(** as the bind is a function, the programs differ only under a binder *)
Lemma psteps_ext {A} (p q : sp A) ps qs s sch : p = q -> psteps (ps ++ p :: qs) s sch = psteps (ps ++ q :: qs) s sch.
Proof. intros ->. reflexivity. Qed.
(** * Programs that do the same *)
Inductive peq {A} : sp A -> sp A -> Prop :=
| peq_ret r : peq (Ret r) (Ret r)
| peq_act a f k k' : (forall s, peq (k s) (k' s)) -> peq (Act a f k) (Act a f k').
Lemma peq_refl {A} (p : sp A) : peq p p.
Proof. induction p; constructor; auto. Qed.
Lemma peq_bindR {A B} (p : sp A) (g h : res A -> sp B) : (forall r, peq (g r) (h r)) -> peq (pbindR p g) (pbindR p h).
Proof. intros H. induction p as [r|a f k IH]; cbn; [apply H|]. constructor. exact IH. Qed.
Lemma peq_bindL {A B} (p q : sp A) (g : res A -> sp B) : peq p q -> peq (pbindR p g) (pbindR q g).
Proof. intros H. induction H as [r|a f k k' _ IH]; cbn; [apply peq_refl|]. constructor. exact IH. Qed.
Lemma peq_bind {A B} (p : sp A) (g h : A -> sp B) : (forall a, peq (g a) (h a)) -> peq (pbind p g) (pbind p h).
Proof. intros H. apply peq_bindR. intros [a|er|]; [apply H|constructor..]. Qed.
Lemma pstep_peq {A} (ps qs : list (sp A)) s i : Forall2 peq ps qs ->
  snd (pstep ps s i) = snd (pstep qs s i) /\ Forall2 peq (fst (pstep ps s i)) (fst (pstep qs s i)).
Proof.
  intros H. unfold pstep.
  assert (Hn : forall i, match nth_error ps i, nth_error qs i with Some p, Some q => peq p q | None, None => True | _, _ => False end).
  { clear i. induction H as [|p q ps qs Hp _ IH]; intros [|i]; cbn; [exact Logic.I|exact Logic.I|exact Hp|apply IH]. }
  specialize (Hn i). destruct (nth_error ps i) as [p|], (nth_error qs i) as [q|]; try contradiction; cbn; [|auto].
  destruct Hn as [r|a f k k' Hk]; cbn; [auto|]. split; [reflexivity|].
  apply Forall2_app; [apply Forall2_take; exact H|]. constructor; [apply Hk|]. apply Forall2_drop. exact H.
Qed.
Lemma psteps_peq {A} sch : forall (ps qs : list (sp A)) s, Forall2 peq ps qs ->
  snd (psteps ps s sch) = snd (psteps qs s sch) /\ Forall2 peq (fst (psteps ps s sch)) (fst (psteps qs s sch)).
Proof.
  induction sch as [|i t IH]; intros ps qs s H; cbn; [auto|]. destruct (pstep_peq ps qs s i H) as (H1 & H2).
  destruct (pstep ps s i) as [ps' s'], (pstep qs s i) as [qs' s'']. cbn in *. subst s''. apply IH. exact H2.
Qed.
Lemma peq_results {A} (ps qs : list (sp A)) : Forall2 peq ps qs -> forall i r, nth_error ps i = Some (Ret r) <-> nth_error qs i = Some (Ret r).
Proof.
  intros H. induction H as [|p q ps qs Hp _ IH]; intros [|i] r; cbn; try tauto; [|apply IH].
  destruct Hp; split; intros [= <-]; reflexivity || discriminate.
Qed.
Lemma feed_peq e x y : same_feed x y -> peq (feedCode e x) (feedCode e y).
Proof.
  destruct x as [[[c addr] s] ws], y as [[[c' addr'] s'] ws']. intros (-> & -> & -> & Eb & Ee & H1 & H2). cbn [feedCode].
  apply peq_bind. intros _. apply peq_bindL. apply peq_bind. intros sl. rewrite (same_bytes e sl s s' ws' H1 H2 Eb Ee). apply peq_refl.
Qed.
Theorem split_alike e cs cs' gs s sch : Forall2 same_feed cs cs' ->
  snd (serving e cs gs s sch) = snd (serving e cs' gs s sch)
  /\ forall i r, nth_error (fst (serving e cs gs s sch)) i = Some (Ret r) <-> nth_error (fst (serving e cs' gs s sch)) i = Some (Ret r).
Proof.
  intros H. unfold serving.
  destruct (psteps_peq sch (List.map (feedCode e) cs ++ List.map (code e) gs) (List.map (feedCode e) cs' ++ List.map (code e) gs) s) as (H1 & H2).
  { apply Forall2_app.
    - induction H as [|x y cs cs' Hx _ IH]; [constructor|]. constructor; [apply feed_peq; exact Hx|exact IH].
    - induction gs; constructor; [apply peq_refl|assumption]. }
  split; [exact H1|apply peq_results; exact H2].
Qed.
Lemma conn_peq e x g : as_conn x g -> peq (feedCode e x) (code e g).
Proof.
  destruct x as [[[c addr] s] ws]. intros (Hs & fs & Hf & ->). cbn [feedCode code]. apply peq_bind. intros _. apply peq_bindL.
  unfold connStream, connThread. apply peq_bind. intros sl. rewrite (serve_frames e sl fs s ws Hs Hf). apply peq_refl.
Qed.
Theorem streams_are_frames e cs gs' gs s sch : Forall2 as_conn cs gs' ->
  snd (serving e cs gs s sch) = snd (running e (gs' ++ gs) s sch)
  /\ forall i r, nth_error (fst (serving e cs gs s sch)) i = Some (Ret r) <-> nth_error (fst (running e (gs' ++ gs) s sch)) i = Some (Ret r).
Proof.
  intros H. unfold serving, running. rewrite map_app.
  destruct (psteps_peq sch (List.map (feedCode e) cs ++ List.map (code e) gs) (List.map (code e) gs' ++ List.map (code e) gs) s) as (H1 & H2).
  { apply Forall2_app.
    - induction H as [|x y cs gs' Hx _ IH]; [constructor|]. constructor; [apply conn_peq; exact Hx|exact IH].
    - induction gs; constructor; [apply peq_refl|assumption]. }
  split; [exact H1|apply peq_results; exact H2].
Qed.
Lemma delivers_fun bs fs : delivers bs fs -> forall fs', delivers bs fs' -> fs = fs'.
Proof.
  intros H fs' H'. pose (s := mkStream bs [] ErrEOF). assert (Hb : st_bytes s = bs) by (unfold s, st_bytes; cbn; apply app_nil_r).
  assert (Hc : chunks_ok s) by (intros []).
  assert (G : forall fs s, chunks_ok s -> delivers (st_bytes s) fs -> frames s = fs).
  { clear. intros fs. induction fs as [|f fs IH]; intros s Hs Hd; pose proof (frames_unfold s Hs) as U.
    - inversion Hd as [bs Hn|]; subst. pose proof (recv_end s Hs Hn) as R. unfold frames. cbn [recvAll]. rewrite R. reflexivity.
    - inversion Hd as [|j c r fs' Hj Hcc Hr E Ef]; subst. destruct (recv_frame s j c r Hs Hj Hcc (eq_sym E)) as (s' & H1 & H2 & H3 & H4).
      destruct (flatRecv (st_bytes s)) as [[f t]|x].
      + destruct U as (s'' & R & Et & Ee & Hk & ->). rewrite H1 in R. injection R as <- <-. f_equal. apply IH; [exact Hk|rewrite H2; exact Hr].
      + unfold frames in U. cbn [recvAll] in U. rewrite H1 in U. discriminate. }
  rewrite <- (G fs s Hc), <- (G fs' s Hc); [reflexivity|rewrite Hb; assumption..].
Qed.
Lemma delivers_interleaved ps : forall js tail, (forall j, In j js -> no_delim j) -> no_delim tail ->
  delivers (interleaved js (List.map escape ps) tail) (List.map escape ps).
Proof.
  induction ps as [|p ps IH]; intros js tail Hj Ht; cbn [List.map interleaved].
  - constructor. intros (j & c & r & _ & _ & E). apply Ht. rewrite E. apply in_or_app. right. left. reflexivity.
  - change (escape p) with (framed (flat_map escByte p)). constructor.
    + destruct js as [|j js]; [intros []|]. apply Hj. left. reflexivity.
    + apply esc_no7e.
    + apply IH; [|exact Ht]. intros j H. apply Hj. destruct js; [destruct H|right; exact H].
Qed.
Lemma conn_of x : (let '(_, _, s, _) := x in no_empty_read s) -> exists g, as_conn x g /\ forall g', as_conn x g' -> g' = g.
Proof.
  destruct x as [[[c addr] s] ws]. intros Hs. destruct (delivers_ex (st_bytes s)) as (fs & Hf). eexists. split.
  - split; [exact Hs|]. exists fs. split; [exact Hf|reflexivity].
  - intros g' (_ & fs' & Hf' & ->). rewrite (delivers_fun _ _ Hf _ Hf'). reflexivity.
Qed.
Theorem packets_arrive e c addr s ws ps js tail gs w sch : no_empty_read s -> (forall j, In j js -> no_delim j) -> no_delim tail ->
  st_bytes s = interleaved js (List.map escape ps) tail ->
  snd (serving e [(c, addr, s, ws)] gs w sch)
  = snd (running e (GConn c addr (combine (List.map Ok (List.map escape ps) ++ repeat (Err (st_end s)) (length ws)) ws) :: gs) w sch).
Proof.
  intros Hs Hj Ht E. refine (proj1 (streams_are_frames e [(c, addr, s, ws)] [_] gs w sch _)). constructor; [|constructor].
  split; [exact Hs|]. exists (List.map escape ps). split; [|reflexivity]. rewrite E. apply delivers_interleaved; assumption.
Qed.
