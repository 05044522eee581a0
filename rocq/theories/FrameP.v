(** Proofs about escaping, framing and checksums *)
From Verif Require Import Base PacketM FrameM SpecCodec.
Local Open Scope N_scope.
Ltac inv H := inversion H; subst; clear H.

(** * Escaping *)
Lemma escByte_cases v :
  (v = 0x7e /\ escByte v = [0x7d; 0x02]) \/ (v = 0x7d /\ escByte v = [0x7d; 0x01])
  \/ (v <> 0x7e /\ v <> 0x7d /\ escByte v = [v]).
Proof.
  unfold escByte. destruct (N.eqb_spec v 0x7e); [left; auto|].
  destruct (N.eqb_spec v 0x7d); [right; left; auto|right; right; auto].
Qed.

Lemma unescLoop_esc p : unescLoop (flat_map escByte p) = p.
Proof.
  induction p as [|v p IH]; [reflexivity|].
  cbn [flat_map]. destruct (escByte_cases v) as [[-> ->]|[[-> ->]|[H1 [H2 ->]]]].
  - cbn. rewrite IH. reflexivity.
  - cbn. rewrite IH. reflexivity.
  - cbn [app]. cbn [unescLoop].
    apply N.eqb_neq in H2. rewrite H2. cbn [andb].
    destruct (flat_map escByte p) eqn:E.
    + destruct p as [|w p]; [reflexivity|].
      cbn [flat_map] in E. destruct (escByte_cases w) as [[-> R]|[[-> R]|[_ [_ R]]]];
        rewrite R in E; discriminate.
    + rewrite IH. reflexivity.
Qed.

Lemma strip_delims (a b : N) (c : bytes) :
  skipn 1 (firstn (length (a :: c ++ [b]) - 1) (a :: c ++ [b])) = c.
Proof.
  cbn [length]. rewrite app_length. cbn [length].
  replace (S (length c + 1) - 1)%nat with (S (length c)) by lia.
  cbn [firstn skipn]. rewrite firstn_app, firstn_all, Nat.sub_diag. cbn. apply app_nil_r.
Qed.

Lemma unescape_frame a b c : unescape (a :: c ++ [b]) = unescLoop c.
Proof. unfold unescape. now rewrite strip_delims. Qed.

Lemma unescape_escape p : unescape (escape p) = p.
Proof. unfold escape. rewrite unescape_frame. apply unescLoop_esc. Qed.

Lemma esc_no7e p : ~ In 0x7e (flat_map escByte p).
Proof.
  rewrite in_flat_map. intros [v [_ H]].
  destruct (escByte_cases v) as [[_ R]|[[_ R]|[H1 [_ R]]]]; rewrite R in H; cbn in H;
    repeat (destruct H as [H|H]; [try discriminate; try congruence|]); auto.
Qed.

Lemma esc_well_escaped p : well_escaped (flat_map escByte p).
Proof.
  induction p as [|v p IH]; [constructor|]. cbn [flat_map].
  destruct (escByte_cases v) as [[-> ->]|[[-> ->]|[H1 [H2 ->]]]]; cbn [app];
    [apply we_esc|apply we_esc|apply we_plain]; auto.
Qed.

Lemma well_escaped_after l : well_escaped l ->
  forall pre post, l = pre ++ 0x7d :: post ->
  exists v post', post = v :: post' /\ (v = 0x01 \/ v = 0x02).
Proof.
  induction 1 as [|v l H1 H2 H IH|v l Hv H IH]; intros pre post E.
  - destruct pre; discriminate.
  - destruct pre as [|x pre]; cbn in E; inv E; [congruence|]. eapply IH; reflexivity.
  - destruct pre as [|x pre]; cbn in E; inv E.
    + eauto.
    + destruct pre as [|y pre]; cbn in H2; inv H2.
      * destruct Hv; discriminate.
      * eapply IH; reflexivity.
Qed.

(** well-escaped contents are exactly the escaped packets *)
Lemma well_escaped_unesc l : well_escaped l -> flat_map escByte (unescLoop l) = l.
Proof.
  induction 1 as [|v l H1 H2 H IH|v l Hv H IH]; [reflexivity| |].
  - cbn [unescLoop]. destruct l as [|b t].
    + cbn [flat_map]. unfold escByte.
      apply N.eqb_neq in H1, H2. rewrite H1, H2. reflexivity.
    + apply N.eqb_neq in H1, H2. rewrite H2. cbn [andb flat_map]. rewrite IH.
      unfold escByte. rewrite H1, H2. reflexivity.
  - destruct Hv as [-> | ->]; cbn [unescLoop]; cbn; rewrite IH; reflexivity.
Qed.

(** * Framing *)

(** Recv on the concatenated bytes *)
Definition flatRecv (l : bytes) := recvBuf l false 0 [].

Lemma recvBuf_app l1 l2 im la bf :
  recvBuf (l1 ++ l2) im la bf =
  match recvBuf l1 im la bf with
  | inl (f, t) => inl (f, t ++ l2)
  | inr (im', la', bf') => recvBuf l2 im' la' bf'
  end.
Proof.
  revert im la bf. induction l1 as [|b t IH]; intros; [reflexivity|].
  cbn [app recvBuf]. destruct (b =? 0x7e), im; auto.
Qed.

Lemma recvBuf_junk j im la bf : im = false -> ~ In 0x7e j ->
  exists la', recvBuf j im la bf = inr (false, la', bf).
Proof.
  intros ->. revert la. induction j as [|b t IH]; intros la H; [eexists; reflexivity|].
  cbn [recvBuf]. destruct (N.eqb_spec b 0x7e) as [->|E]; [exfalso; apply H; now left|].
  apply IH. intros H'; apply H; now right.
Qed.

Lemma recvBuf_content c la bf : ~ In 0x7e c ->
  exists la', recvBuf c true la bf = inr (true, la', bf ++ c).
Proof.
  revert la bf. induction c as [|b t IH]; intros la bf H.
  - rewrite app_nil_r. eexists; reflexivity.
  - cbn [recvBuf]. destruct (N.eqb_spec b 0x7e) as [->|E]; [exfalso; apply H; now left|].
    destruct (IH b (bf ++ [b])) as [la' E']; [intros H'; apply H; now right|].
    rewrite E'. rewrite <- app_assoc. eexists; reflexivity.
Qed.

Lemma flatRecv_frame j c r la : ~ In 0x7e j -> ~ In 0x7e c ->
  recvBuf (j ++ 0x7e :: c ++ 0x7e :: r) false la [] = inl (0x7e :: c ++ [0x7e], r).
Proof.
  intros Hj Hc. rewrite recvBuf_app.
  destruct (recvBuf_junk j false la [] eq_refl Hj) as [la' ->].
  cbn [recvBuf]. cbn. rewrite recvBuf_app.
  destruct (recvBuf_content c 0x7e [0x7e] Hc) as [la'' ->]. cbn.
  reflexivity.
Qed.

Definition chunks_ok (s : stream) : Prop := ~ In [] (st_next s).

Lemma recvChunks_flat cs im la bf : ~ In [] cs ->
  match recvBuf (concat cs) im la bf with
  | inl (f, t) => exists t' cs', recvChunks cs im la bf = Some (f, t', cs')
                                 /\ t' ++ concat cs' = t /\ ~ In [] cs'
  | inr _ => recvChunks cs im la bf = None
  end.
Proof.
  revert im la bf. induction cs as [|c cs IH]; intros im la bf H; [reflexivity|].
  cbn [concat recvChunks]. rewrite recvBuf_app.
  assert (Hc : match c with [] => [la] | _ => c end = c)
    by (destruct c; [exfalso; apply H; now left|reflexivity]).
  rewrite Hc.
  destruct (recvBuf c im la bf) as [[f t]|[[im' la'] bf']].
  - exists t, cs. split; [reflexivity|]. split; [reflexivity|].
    intros H'; apply H; now right.
  - apply IH. intros H'; apply H; now right.
Qed.

Lemma recv_flat s : chunks_ok s ->
  match flatRecv (st_bytes s) with
  | inl (f, t) => exists s', recv s = (Ok f, s') /\ st_bytes s' = t
                             /\ st_end s' = st_end s /\ chunks_ok s'
  | inr _ => recv s = (Err (st_end s), mkStream [] [] (st_end s))
  end.
Proof.
  intros H. unfold flatRecv, st_bytes, recv. rewrite recvBuf_app.
  destruct (recvBuf (st_cur s) false 0 []) as [[f t]|[[im la] bf]].
  - eexists; split; [reflexivity|]. auto.
  - pose proof (recvChunks_flat (st_next s) im la bf H) as HH.
    destruct (recvBuf (concat (st_next s)) im la bf) as [[f t]|x].
    + destruct HH as (t' & cs' & -> & E & E'). eexists; split; [reflexivity|]. auto.
    + rewrite HH. reflexivity.
Qed.

(** the frame returned, and what it consumed *)
Lemma recvBuf_inl l im la bf f t : recvBuf l im la bf = inl (f, t) ->
  if im then exists c, ~ In 0x7e c /\ l = c ++ 0x7e :: t /\ f = bf ++ c ++ [0x7e]
  else exists j c, ~ In 0x7e j /\ ~ In 0x7e c /\ l = j ++ 0x7e :: c ++ 0x7e :: t
                   /\ f = bf ++ 0x7e :: c ++ [0x7e].
Proof.
  revert im la bf. induction l as [|b l IH]; intros im la bf H; [discriminate|].
  cbn [recvBuf] in H. destruct (N.eqb_spec b 0x7e) as [->|E].
  - destruct im.
    + inv H. exists []. cbn. auto.
    + apply IH in H as (c & H1 & -> & ->). exists [], c. cbn.
      repeat split; auto. rewrite <- app_assoc. reflexivity.
  - destruct im.
    + apply IH in H as (c & H1 & -> & ->). exists (b :: c). cbn.
      repeat split; auto. { intros [?|?]; auto. } now rewrite <- app_assoc.
    + apply IH in H as (j & c & H1 & H2 & -> & ->). exists (b :: j), c.
      repeat split; auto. intros [?|?]; auto.
Qed.

Lemma recvBuf_inr_iff l : (exists x, flatRecv l = inr x) <->
  ~ exists j c t, ~ In 0x7e j /\ ~ In 0x7e c /\ l = j ++ 0x7e :: c ++ 0x7e :: t.
Proof.
  unfold flatRecv. split.
  - intros [x H] (j & c & t & Hj & Hc & ->).
    rewrite flatRecv_frame in H by assumption. discriminate.
  - intros H. destruct (recvBuf l false 0 []) as [[f t]|x] eqn:E; [|eauto].
    exfalso. apply H. apply recvBuf_inl in E as (j & c & H1 & H2 & H3 & _). eauto 10.
Qed.

Lemma recvAll_fuel n m s : chunks_ok s ->
  (length (st_bytes s) < n)%nat -> (length (st_bytes s) < m)%nat ->
  recvAll n s = recvAll m s.
Proof.
  revert m s. induction n as [|n IH]; intros m s Hs Hn Hm; [lia|].
  destruct m as [|m]; [lia|]. cbn [recvAll].
  pose proof (recv_flat s Hs) as H.
  destruct (flatRecv (st_bytes s)) as [[f t]|x] eqn:E.
  - destruct H as (s' & -> & Ht & _ & Hs'). f_equal.
    apply recvBuf_inl in E as (j & c & _ & _ & E & _).
    assert (length (st_bytes s') + 2 <= length (st_bytes s))%nat.
    { rewrite E, Ht, app_length. cbn [length]. rewrite app_length. cbn [length]. lia. }
    apply IH; [assumption|lia|lia].
  - rewrite H. reflexivity.
Qed.

(** frames as a function of the bytes *)
Lemma frames_unfold s : chunks_ok s ->
  match flatRecv (st_bytes s) with
  | inl (f, t) => exists s', recv s = (Ok f, s') /\ st_bytes s' = t
                    /\ st_end s' = st_end s /\ chunks_ok s' /\ frames s = f :: frames s'
  | inr _ => frames s = []
  end.
Proof.
  intros Hs. pose proof (recv_flat s Hs) as H.
  destruct (flatRecv (st_bytes s)) as [[f t]|x] eqn:E.
  - destruct H as (s' & H1 & Ht & He & Hs'). exists s'. repeat split; auto.
    unfold frames at 1. cbn [recvAll]. rewrite H1. f_equal. apply recvAll_fuel; auto.
    apply recvBuf_inl in E as (j & c & _ & _ & E & _).
    rewrite E, Ht, app_length. cbn [length]. rewrite app_length. cbn [length]. lia.
  - unfold frames. cbn [recvAll]. rewrite H. reflexivity.
Qed.

Lemma frames_cons s j c r : chunks_ok s -> ~ In 0x7e j -> ~ In 0x7e c ->
  st_bytes s = j ++ 0x7e :: c ++ 0x7e :: r ->
  exists s', recv s = (Ok (0x7e :: c ++ [0x7e]), s') /\ st_bytes s' = r
    /\ st_end s' = st_end s /\ chunks_ok s' /\ frames s = (0x7e :: c ++ [0x7e]) :: frames s'.
Proof.
  intros Hs Hj Hc E. pose proof (frames_unfold s Hs) as H. rewrite E in H.
  unfold flatRecv in H. rewrite flatRecv_frame in H by assumption. exact H.
Qed.

Lemma frames_junk s : chunks_ok s -> ~ In 0x7e (st_bytes s) -> frames s = [].
Proof.
  intros Hs Hj. pose proof (frames_unfold s Hs) as H.
  destruct (recvBuf_junk (st_bytes s) false 0 [] eq_refl Hj) as [la E].
  unfold flatRecv in H. rewrite E in H. exact H.
Qed.

Lemma frames_packets cs : forall js tail s, chunks_ok s ->
  (forall j, In j js -> no_delim j) -> (forall c, In c cs -> no_delim c) -> no_delim tail ->
  st_bytes s = interleaved js (map framed cs) tail -> frames s = map framed cs.
Proof.
  induction cs as [|p ps IH]; intros js tail s Hs Hj Hc Ht E.
  - cbn in E. cbn. apply frames_junk; [assumption|]. now rewrite E.
  - cbn [interleaved map] in E.
    assert (Hh : ~ In 0x7e (hd [] js)) by (destruct js; [auto|apply Hj; now left]).
    assert (E' : st_bytes s = hd [] js ++ 0x7e :: p
                               ++ 0x7e :: interleaved (tl js) (map framed ps) tail).
    { rewrite E. unfold framed. cbn [app]. rewrite <- app_assoc. reflexivity. }
    destruct (frames_cons s _ _ _ Hs Hh (Hc p (or_introl eq_refl)) E') as (s' & _ & E1 & _ & Hs' & ->).
    cbn [map]. f_equal. apply (IH (tl js) tail s' Hs'); [| |exact Ht|exact E1].
    + intros j Hin. apply Hj. destruct js; [destruct Hin|right; exact Hin].
    + intros c Hin. apply Hc. now right.
Qed.

Lemma escape_framed p : escape p = framed (flat_map escByte p).
Proof. reflexivity. Qed.
Lemma map_escape ps : map escape ps = map framed (map (flat_map escByte) ps).
Proof. rewrite map_map. reflexivity. Qed.

(** after a stray delimiter only empty frames are ever delivered *)
Lemma frames_stray ps : forall s, chunks_ok s ->
  (exists c, ~ In 0x7e c /\ st_bytes s = c ++ 0x7e :: concat (map escape ps)) ->
  frames s = repeat [0x7e; 0x7e] (length ps).
Proof.
  induction ps as [|p ps IH]; intros s Hs (c & Hc & E); cbn [map concat] in E.
  - pose proof (frames_unfold s Hs) as H. rewrite E in H.
    destruct (flatRecv (c ++ [0x7e])) as [[f t]|x] eqn:EF; [|exact H].
    exfalso. assert (HH : exists x, flatRecv (c ++ [0x7e]) = inr x).
    { unfold flatRecv. rewrite recvBuf_app.
      destruct (recvBuf_junk c false 0 [] eq_refl Hc) as [la ->]. cbn. eauto. }
    destruct HH as [x HH]. rewrite HH in EF. discriminate.
  - assert (E' : st_bytes s = c ++ 0x7e :: [] ++ 0x7e :: (flat_map escByte p
                               ++ 0x7e :: concat (map escape ps))).
    { rewrite E. unfold escape. cbn [app]. rewrite <- app_assoc. reflexivity. }
    destruct (frames_cons s c [] _ Hs Hc (fun H => H) E') as (s' & _ & E1 & _ & Hs' & ->).
    cbn [length repeat app]. f_equal. apply IH; [assumption|].
    exists (flat_map escByte p). split; [apply esc_no7e|assumption].
Qed.

(** * Send *)
Lemma sendLoop_spec ws : forall p out r, sendLoop p ws = (out, r) ->
  match r with
  | Some (Ok _) => out = p
  | Some (Err e) => (exists q, p = out ++ q) /\ exists n, In (n, Some e) ws
  | Some Panic => False
  | None => exists q, p = out ++ q
  end.
Proof.
  induction ws as [|[n [e|]] ws IH]; intros p out r H; cbn [sendLoop] in H.
  - inv H. eexists; reflexivity.
  - inv H. split; [exists (skipn n p); symmetry; apply firstn_skipn|]. exists n. now left.
  - destruct (length p <=? n)%nat; [inv H; reflexivity|].
    destruct (sendLoop (skipn n p) ws) as [o' r'] eqn:E. inv H.
    apply IH in E. destruct r as [[?|e|]|]; auto.
    + rewrite E. apply firstn_skipn.
    + destruct E as [[q E] [m Hm]]. split; [|exists m; now right].
      exists q. rewrite <- app_assoc, <- E. symmetry. apply firstn_skipn.
    + destruct E as [q E]. exists q. rewrite <- app_assoc, <- E. symmetry. apply firstn_skipn.
Qed.

Lemma sendLoop_progress ws : forall p,
  (forall w, In w ws -> exists n, w = (S n, None)) -> (length p <= length ws)%nat ->
  p <> [] -> sendLoop p ws = (p, Some (Ok tt)).
Proof.
  induction ws as [|w ws IH]; intros p Hw Hl Hp.
  - destruct p; [congruence|cbn in Hl; lia].
  - destruct (Hw w (or_introl eq_refl)) as [n ->]. cbn [sendLoop].
    destruct (length p <=? S n)%nat eqn:E; [reflexivity|]. apply Nat.leb_gt in E.
    rewrite IH.
    + now rewrite firstn_skipn.
    + intros w H. apply Hw. now right.
    + rewrite skipn_length. cbn in Hl. lia.
    + intros H. apply (f_equal (@length N)) in H. rewrite skipn_length in H. cbn in H. lia.
Qed.

(** * Checksum *)
Lemma xorAll_from l : forall a, fold_left N.lxor l a = N.lxor a (xorAll l).
Proof.
  induction l as [|x l IH]; intros a; unfold xorAll; cbn [fold_left].
  - now rewrite N.lxor_0_r.
  - rewrite IH, (IH (N.lxor 0 x)), N.lxor_0_l, N.lxor_assoc. reflexivity.
Qed.
Lemma xorAll_app a b : xorAll (a ++ b) = N.lxor (xorAll a) (xorAll b).
Proof. unfold xorAll at 1. rewrite fold_left_app, xorAll_from. reflexivity. Qed.
Lemma xorAll_cons x l : xorAll (x :: l) = N.lxor x (xorAll l).
Proof. unfold xorAll at 1. cbn [fold_left]. now rewrite xorAll_from, N.lxor_0_l. Qed.
Lemma xorAll_one x : xorAll [x] = x.
Proof. reflexivity. Qed.

Lemma verify_app o p c :
  verify o (p ++ [c]) =
  if c =? xorAll p
  then Ok (mkSlice p (c :: repeat 0 (o_growcap o (S (length p)) - S (length p))))
  else Err ErrVerifyFailed.
Proof.
  unfold verify. rewrite app_length. cbn [length]. rewrite Nat.add_1_r.
  rewrite firstn_app, firstn_all, Nat.sub_diag. cbn [firstn]. rewrite app_nil_r.
  rewrite app_nth2 by lia. rewrite Nat.sub_diag. reflexivity.
Qed.

Lemma verify_iff o p :
  (exists s, verify o p = Ok s) <-> p <> [] /\ xorAll p = 0.
Proof.
  destruct p as [|x l] using rev_ind.
  - split; [intros [s H]; discriminate|intros [H _]; congruence].
  - rewrite verify_app, xorAll_app, xorAll_one. split.
    + intros [s H]. destruct (N.eqb_spec x (xorAll l)) as [->|]; [|discriminate].
      split; [intros E; destruct l; discriminate|apply N.lxor_nilpotent].
    + intros [_ H]. apply N.lxor_eq in H. rewrite H, N.eqb_refl. eauto.
Qed.

Lemma verify_data o p s : verify o p = Ok s -> exists c, p = sl_data s ++ [c] /\ c = xorAll (sl_data s).
Proof.
  destruct p as [|x l] using rev_ind; [discriminate|].
  rewrite verify_app. destruct (N.eqb_spec x (xorAll l)); [|discriminate].
  intros H. inv H. cbn. eauto.
Qed.

Lemma verify_gen o p : exists sp, verify o (genVerifier p) = Ok (mkSlice p sp).
Proof. unfold genVerifier. rewrite verify_app, N.eqb_refl. eauto. Qed.

Lemma verify_one_byte o pre x y post : x <> y ->
  xorAll (pre ++ x :: post) = 0 -> verify o (pre ++ y :: post) = Err ErrVerifyFailed.
Proof.
  intros Hne H0.
  destruct (verify o (pre ++ y :: post)) as [s|e|] eqn:E.
  - assert (H : exists s, verify o (pre ++ y :: post) = Ok s) by eauto.
    apply verify_iff in H as [_ H]. exfalso. apply Hne.
    rewrite xorAll_app, xorAll_cons in H0, H.
    rewrite <- H in H0.
    assert (forall a b c d, N.lxor a (N.lxor b d) = N.lxor a (N.lxor c d) -> b = c) as K.
    { intros a b c d K. apply (f_equal (N.lxor a)) in K.
      rewrite <- !N.lxor_assoc, N.lxor_nilpotent, !N.lxor_0_l in K.
      apply (f_equal (fun z => N.lxor z d)) in K.
      now rewrite !N.lxor_assoc, N.lxor_nilpotent, !N.lxor_0_r in K. }
    apply K in H0. exact H0.
  - unfold verify in E. destruct (length (pre ++ y :: post)) eqn:L.
    + rewrite app_length in L. cbn in L. lia.
    + match type of E with (if ?b then _ else _) = _ => destruct b end; congruence.
  - unfold verify in E. destruct (length (pre ++ y :: post)); [discriminate|].
    match type of E with (if ?b then _ else _) = _ => destruct b end; discriminate.
Qed.

Lemma xorAll_sum l : xorAll l = xor_sum l.
Proof. induction l as [|x l IH]; [reflexivity|]. rewrite xorAll_cons. cbn. now rewrite IH. Qed.
