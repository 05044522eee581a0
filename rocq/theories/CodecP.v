(** Proofs about the codec beyond the round trips: which inputs go wrong, and how *)
From Coq Require Import ZifyBool ZifyNat ZifyN.
From Verif Require Import Base HexM TimeM HashM HeaderM ParamsM GeoM MsgM PacketM FrameM SpecCodec
  HexP TimeP HeaderP FrameP MsgP.
Local Open Scope N_scope.
Ltac Zify.zify_post_hook ::= Z.div_mod_to_equations.
Ltac inv H := inversion H; subst; clear H.

(** * Streams *)
Definition rstate_ok (im : bool) (bf : bytes) : Prop :=
  if im then exists c, bf = 0x7e :: c /\ ~ In 0x7e c else bf = [].

Lemma recvBuf_shape l : forall im la bf, rstate_ok im bf ->
  match recvBuf l im la bf with
  | inl (f, _) => exists c, f = framed c /\ no_delim c
  | inr (im', _, bf') => rstate_ok im' bf'
  end.
Proof.
  induction l as [|b l IH]; intros im la bf H; [exact H|]. cbn [recvBuf].
  destruct (N.eqb_spec b 0x7e) as [->|E]; destruct im.
  - destruct H as (c & -> & Hc). exists c. split; [reflexivity|exact Hc].
  - apply IH. cbn in H. subst bf. exists []. auto.
  - apply IH. destruct H as (c & -> & Hc). exists (c ++ [b]). split; [reflexivity|].
    rewrite in_app_iff. intros [K|[K|[]]]; [now apply Hc|now apply E].
  - apply IH. exact H.
Qed.

Lemma recvChunks_shape cs : forall im la bf, rstate_ok im bf ->
  match recvChunks cs im la bf with
  | Some (f, _, _) => exists c, f = framed c /\ no_delim c
  | None => True
  end.
Proof.
  induction cs as [|c cs IH]; intros im la bf H; [exact I|]. cbn [recvChunks].
  match goal with |- context [recvBuf ?l im la bf] =>
    pose proof (recvBuf_shape l im la bf H) as R; destruct (recvBuf l im la bf) as [[f t]|[[im' la'] bf']]
  end; [exact R|]. apply IH. exact R.
Qed.

Lemma recv_shape s f s' : recv s = (Ok f, s') -> exists c, f = framed c /\ no_delim c.
Proof.
  unfold recv. pose proof (recvBuf_shape (st_cur s) false 0 [] eq_refl) as R.
  destruct (recvBuf (st_cur s) false 0 []) as [[f' t]|[[im la] bf]].
  - intros H. inv H. exact R.
  - pose proof (recvChunks_shape (st_next s) im la bf R) as R'.
    destruct (recvChunks (st_next s) im la bf) as [[[f' t] cs]|]; intros H; inv H. exact R'.
Qed.

Lemma recv_none s : ~ In [] (st_next s) ->
  (~ exists j c t, no_delim j /\ no_delim c /\ st_bytes s = j ++ framed c ++ t) <->
  fst (recv s) = Err (st_end s).
Proof.
  intros Hs. pose proof (recv_flat s Hs) as H.
  assert (HI := recvBuf_inr_iff (st_bytes s)).
  destruct (flatRecv (st_bytes s)) as [[f t]|x] eqn:E.
  - destruct H as (s' & -> & _). split; [|discriminate]. intros K. exfalso. apply K.
    unfold flatRecv in E. apply recvBuf_inl in E as (j & c & H1 & H2 & H3 & _).
    exists j, c, t. unfold framed, no_delim, delim. cbn [app]. rewrite H3, <- app_assoc. auto.
  - rewrite H. split; [reflexivity|]. intros _ (j & c & t & Hj & Hc & Eq).
    apply HI; [eauto|]. exists j, c, t. unfold framed in Eq. cbn [app] in Eq.
    rewrite <- app_assoc in Eq. auto.
Qed.

(** the frames after any prefix with an even number of delimiters *)
Lemma recvBuf_state l la : match recvBuf l false la [] with
  | inl (f, t) => (length t < length l)%nat
      /\ count_occ N.eq_dec l 0x7e = S (S (count_occ N.eq_dec t 0x7e))
  | inr (im, _, bf) => count_occ N.eq_dec l 0x7e = if im then 1%nat else 0%nat
  end.
Proof.
  destruct (recvBuf l false la []) as [[f t]|[[im la'] bf]] eqn:E.
  - apply recvBuf_inl in E as (j & c & Hj & Hc & -> & _).
    rewrite !app_length. cbn [length]. rewrite app_length. cbn [length]. split; [lia|].
    rewrite count_occ_app. cbn [count_occ]. destruct (N.eq_dec 126 126); [|congruence].
    rewrite count_occ_app. cbn [count_occ]. destruct (N.eq_dec 126 126); [|congruence].
    apply (count_occ_not_In N.eq_dec) in Hj, Hc. lia.
  - assert (K : forall l im0 la0 bf0 im1 la1 bf1,
      recvBuf l im0 la0 bf0 = inr (im1, la1, bf1) ->
      (count_occ N.eq_dec l 126%N + (if im0 then 1 else 0) = if im1 then 1 else 0)%nat).
    { clear. induction l as [|b l IH]; intros im0 la0 bf0 im1 la1 bf1 H.
      - cbn in H. inv H. reflexivity.
      - cbn [recvBuf] in H. cbn [count_occ]. destruct (N.eqb_spec b 0x7e) as [->|E].
        + destruct (N.eq_dec 126 126); [|congruence]. destruct im0; [discriminate|].
          apply IH in H. lia.
        + destruct (N.eq_dec b 126); [congruence|]. destruct im0; apply IH in H; lia. }
    apply K in E. lia.
Qed.

Lemma interleaved_nil fs : interleaved [] fs [] = concat fs.
Proof. induction fs as [|f fs IH]; [reflexivity|]. cbn. now rewrite IH. Qed.

Lemma frames_from_junk ps pre s : ~ In [] (st_next s) -> ~ In 0x7e pre ->
  st_bytes s = pre ++ concat (map escape ps) -> frames s = map escape ps.
Proof.
  intros Hs Hp E. destruct ps as [|p ps].
  - cbn in *. rewrite app_nil_r in E. apply frames_junk; [exact Hs|]. now rewrite E.
  - rewrite map_escape. apply (frames_packets _ [pre] []); [exact Hs| | |intros []|].
    + intros j [<-|[]]. exact Hp.
    + intros c Hc. apply in_map_iff in Hc as (q & <- & _). apply esc_no7e.
    + rewrite E. rewrite <- map_escape. cbn [map interleaved concat hd tl]. now rewrite interleaved_nil.
Qed.

Lemma frames_even ps : forall n pre s, (length pre <= n)%nat -> ~ In [] (st_next s) ->
  Nat.even (count_occ N.eq_dec pre 0x7e) = true ->
  st_bytes s = pre ++ concat (map escape ps) ->
  exists fs, frames s = fs ++ map escape ps
    /\ (length fs * 2 = count_occ N.eq_dec pre 126%N)%nat.
Proof.
  induction n as [|n IH]; intros pre s Hl Hs He E.
  - destruct pre; [|cbn in Hl; lia]. exists []. split; [|reflexivity].
    apply (frames_from_junk ps []); auto.
  - pose proof (recvBuf_state pre 0) as HS.
    destruct (recvBuf pre false 0 []) as [[f t]|[[im la] bf]] eqn:EB.
    + destruct HS as [HL HC]. apply recvBuf_inl in EB as (j & c & Hj & Hc & -> & _).
      assert (E' : st_bytes s = j ++ 0x7e :: c ++ 0x7e :: (t ++ concat (map escape ps))).
      { rewrite E, <- !app_assoc. cbn [app]. now rewrite <- app_assoc. }
      destruct (frames_cons s j c _ Hs Hj Hc E') as (s' & _ & Eb & _ & Hs' & EF).
      rewrite HC in He. cbn [Nat.even] in He.
      destruct (IH t s' ltac:(lia) Hs' He Eb) as (fs & Ef & Len).
      exists ((0x7e :: c ++ [0x7e]) :: fs). split; [rewrite EF, Ef; reflexivity|].
      rewrite HC. cbn [length]. lia.
    + destruct im; rewrite HS in He; [discriminate|].
      exists []. split; [|cbn; lia]. apply (frames_from_junk ps pre); auto.
      now apply (count_occ_not_In N.eq_dec).
Qed.

Lemma frames_odd ps : forall n pre s, (length pre <= n)%nat -> ~ In [] (st_next s) ->
  Nat.odd (count_occ N.eq_dec pre 0x7e) = true ->
  st_bytes s = pre ++ concat (map escape ps) ->
  exists fs c, no_delim c /\ (length fs * 2 + 1 = count_occ N.eq_dec pre 126%N)%nat
    /\ frames s = fs ++ match ps with
                        | [] => []
                        | _ :: ps' => framed c :: repeat (framed []) (length ps')
                        end.
Proof.
  induction n as [|n IH]; intros pre s Hl Hs He E.
  - destruct pre; [discriminate|cbn in Hl; lia].
  - pose proof (recvBuf_state pre 0) as HS. pose proof (recvBuf_shape pre false 0 [] eq_refl) as HSh.
    destruct (recvBuf pre false 0 []) as [[f t]|[[im la] bf]] eqn:EB.
    + destruct HS as [HL HC]. apply recvBuf_inl in EB as (j & c & Hj & Hc & -> & _).
      assert (E' : st_bytes s = j ++ 0x7e :: c ++ 0x7e :: (t ++ concat (map escape ps))).
      { rewrite E, <- !app_assoc. cbn [app]. now rewrite <- app_assoc. }
      destruct (frames_cons s j c _ Hs Hj Hc E') as (s' & _ & Eb & _ & Hs' & EF).
      rewrite HC in He. 
      destruct (IH t s' ltac:(lia) Hs' ltac:(exact He) Eb) as (fs & c' & Hc' & Len & Ef).
      exists ((0x7e :: c ++ [0x7e]) :: fs), c'. split; [assumption|]. split.
      * rewrite HC. cbn [length]. lia.
      * rewrite EF, Ef. reflexivity.
    + destruct im; rewrite HS in He; [|discriminate]. clear IH HSh.
      assert (K : exists j c, no_delim j /\ no_delim c /\ pre = j ++ 0x7e :: c).
      { assert (In 0x7e pre) as Hin by (apply (count_occ_In N.eq_dec); lia).
        apply in_split in Hin as (j & c & ->).
        rewrite count_occ_app in HS. cbn [count_occ] in HS.
        destruct (N.eq_dec 126 126); [|congruence].
        exists j, c. unfold no_delim, delim. split; [|split; [|reflexivity]];
          apply (count_occ_not_In N.eq_dec); lia. }
      destruct K as (j & c & Hj & Hc & ->). exists [], c. split; [exact Hc|]. split; [cbn; lia|].
      cbn [app]. destruct ps as [|p ps].
      * pose proof (frames_unfold s Hs) as HU. cbn in E. rewrite app_nil_r in E. rewrite E in HU.
        unfold flatRecv in HU. rewrite EB in HU. exact HU.
      * assert (E' : st_bytes s = j ++ 0x7e :: c ++ 0x7e ::
                  (flat_map escByte p ++ 0x7e :: concat (map escape ps))).
        { rewrite E. cbn [map concat]. unfold escape at 1. rewrite <- !app_assoc. cbn [app].
          now rewrite <- !app_assoc. }
        destruct (frames_cons s j c _ Hs Hj Hc E') as (s' & _ & Eb & _ & Hs' & EF).
        rewrite EF. unfold framed at 1. f_equal. apply frames_stray; [assumption|].
        exists (flat_map escByte p). split; [apply esc_no7e|assumption].
Qed.

(** * Send *)
Lemma send_spec p ws out r : send p ws = (out, r) ->
  (exists rest, p = out ++ rest)
  /\ (r = Some (Ok tt) -> out = p)
  /\ (forall e, r = Some (Err e) -> exists n, In (n, Some e) ws)
  /\ r <> Some Panic.
Proof.
  unfold send. destruct p as [|x p].
  - intros H. inv H. repeat split; try discriminate. exists []. reflexivity.
  - intros H. apply sendLoop_spec in H. destruct r as [[[]|e|]|]; subst.
    + repeat split; try discriminate. exists []. now rewrite app_nil_r.
    + destruct H as [Hq Hn]. repeat split; try discriminate; auto.
      intros e' E. inv E. exact Hn.
    + destruct H.
    + repeat split; try discriminate. exact H.
Qed.

Lemma send_progress p ws :
  (forall w, In w ws -> exists n, w = (S n, None)) -> (length p <= length ws)%nat ->
  send p ws = (p, Some (Ok tt)).
Proof. intros Hw Hl. unfold send. destruct p; [reflexivity|]. now apply sendLoop_progress. Qed.

(** * Reads at the boundary *)
Lemma readSub_eq n s i : (0 <= n)%Z ->
  readSub n s i = if (Z.of_nat i + n <=? Z.of_nat (sl_cap s))%Z
                  then Ok (firstn (Z.to_nat n) (skipn i (sl_data s ++ sl_spare s)),
                           (i + Z.to_nat n)%nat)
                  else Panic.
Proof.
  intros Hn. unfold readSub, sl_sub.
  assert (E : (Z.of_nat i <=? Z.of_nat i + n)%Z = true) by lia. rewrite E. cbn [andb].
  destruct (Z.of_nat i + n <=? Z.of_nat (sl_cap s))%Z; [|reflexivity].
  do 3 f_equal; lia.
Qed.

Lemma ReadWord_eq s i :
  ReadWord s i = if (i + 2 <=? sl_cap s)%nat
                 then Ok (be16 (firstn 2 (skipn i (sl_data s ++ sl_spare s))), (i + 2)%nat) else Panic.
Proof.
  unfold ReadWord, rd_bind. rewrite readSub_eq by lia.
  change (Z.to_nat 2) with 2%nat.
  destruct (Z.leb_spec (Z.of_nat i + 2) (Z.of_nat (sl_cap s))), (Nat.leb_spec (i + 2) (sl_cap s));
    reflexivity || lia.
Qed.

Lemma ReadBCD_eq n s i :
  ReadBCD (Z.of_nat n) s i = if (i + n <=? sl_cap s)%nat
                 then Ok (bcd2NumberStr (firstn n (skipn i (sl_data s ++ sl_spare s))), (i + n)%nat)
                 else Panic.
Proof.
  unfold ReadBCD, rd_bind. rewrite readSub_eq by lia. rewrite Nat2Z.id.
  destruct (Z.leb_spec (Z.of_nat i + Z.of_nat n) (Z.of_nat (sl_cap s))),
    (Nat.leb_spec (i + n) (sl_cap s)); reflexivity || lia.
Qed.

Lemma ReadByte_eq s i :
  ReadByte s i = if (i <? sl_len s)%nat then Ok (nth i (sl_data s) 0, S i) else Panic.
Proof.
  unfold ReadByte, sl_at, sl_len. destruct (Nat.ltb_spec i (length (sl_data s))).
  - rewrite (nth_error_nth' (sl_data s) 0) by assumption. reflexivity.
  - destruct (nth_error (sl_data s) i) eqn:E; [|reflexivity].
    assert (nth_error (sl_data s) i <> None) by congruence. apply nth_error_Some in H0. lia.
Qed.

(** the attribute word as decodeHeader sees it *)
Definition attr_at (s : slice) : attr :=
  attrDecode (be16 (firstn 2 (skipn 2 (sl_data s ++ sl_spare s)))).
Definition hsize (a : attr) : nat :=
  12 + (if version_eqb (a_ver a) V2019 then 5 else 0) + (if a_fragd a then 4 else 0).

Lemma attrDecode_ver w : a_ver (attrDecode w) <> V2011.
Proof. unfold attrDecode. cbn. destruct (_ =? 1); discriminate. Qed.

(** decodeHeader either panics or stops after the announced header; it cannot panic
    when the data contains that many bytes *)
Lemma decodeHeader_cases s :
  (decodeHeader s O = Panic /\ (sl_len s < hsize (attr_at s))%nat) \/
  exists h, decodeHeader s O = Ok (h, hsize (attr_at s)) /\ h_attr h = attr_at s
    /\ h_phone h = bcd2NumberStr
         (if version_eqb (a_ver (attr_at s)) V2019
          then firstn 10 (skipn 5 (sl_data s ++ sl_spare s))
          else firstn 6 (skipn 4 (sl_data s ++ sl_spare s))).
Proof.
  assert (Hc : (sl_len s <= sl_cap s)%nat) by (unfold sl_len, sl_cap; lia).
  assert (Hge : (12 <= hsize (attr_at s))%nat) by (unfold hsize; lia).
  generalize (eq_refl (decodeHeader s O)). generalize (decodeHeader s O) at 2 3 4. intros r.
  unfold decodeHeader, rd_bind at 1. rewrite ReadWord_eq. cbn [Nat.add].
  destruct (Nat.leb_spec 2 (sl_cap s)); [|intros <-; left; split; [reflexivity|lia]].
  unfold rd_bind at 1. rewrite ReadWord_eq. cbn [Nat.add].
  destruct (Nat.leb_spec 4 (sl_cap s)); [|intros <-; left; split; [reflexivity|lia]].
  cbv zeta. fold (attr_at s). pose proof (attrDecode_ver (be16 (firstn 2 (skipn 2 (sl_data s ++ sl_spare s))))) as Hv.
  fold (attr_at s) in Hv. unfold hsize in *.
  destruct (a_ver (attr_at s)) eqn:EV; [congruence| |]; cbn [version_eqb] in *.
  - unfold rd_bind at 1, rd_ret at 1. unfold rd_bind at 1.
    change 6%Z with (Z.of_nat 6). rewrite ReadBCD_eq.
    destruct (Nat.leb_spec (4 + 6) (sl_cap s)); [|intros <-; left; split; [reflexivity|lia]]. cbn [Nat.add].
    unfold rd_bind at 1. rewrite ReadWord_eq. cbn [Nat.add].
    destruct (Nat.leb_spec 12 (sl_cap s)); [|intros <-; left; split; [reflexivity|lia]].
    destruct (a_fragd (attr_at s)).
    + unfold fragDecode, rd_bind. rewrite ReadWord_eq. cbn [Nat.add] in *.
      destruct (Nat.leb_spec 14 (sl_cap s)); [|intros <-; left; split; [reflexivity|lia]].
      rewrite ReadWord_eq. cbn [Nat.add] in *.
      destruct (Nat.leb_spec 16 (sl_cap s)); [|intros <-; left; split; [reflexivity|lia]].
      intros <-. right. eexists. split; [reflexivity|]. split; reflexivity.
    + intros <-. right. eexists. split; [reflexivity|]. split; reflexivity.
  - unfold rd_bind at 1. rewrite ReadByte_eq.
    destruct (Nat.ltb_spec 4 (sl_len s)); [|intros <-; left; split; [reflexivity|lia]].
    unfold rd_bind at 1. change 10%Z with (Z.of_nat 10). rewrite ReadBCD_eq.
    destruct (Nat.leb_spec (5 + 10) (sl_cap s)); [|intros <-; left; split; [reflexivity|lia]]. cbn [Nat.add].
    unfold rd_bind at 1. rewrite ReadWord_eq. cbn [Nat.add] in *.
    destruct (Nat.leb_spec 17 (sl_cap s)); [|intros <-; left; split; [reflexivity|lia]].
    destruct (a_fragd (attr_at s)).
    + unfold fragDecode, rd_bind. rewrite ReadWord_eq. cbn [Nat.add] in *.
      destruct (Nat.leb_spec 19 (sl_cap s)); [|intros <-; left; split; [reflexivity|lia]].
      rewrite ReadWord_eq. cbn [Nat.add] in *.
      destruct (Nat.leb_spec 21 (sl_cap s)); [|intros <-; left; split; [reflexivity|lia]].
      intros <-. right. eexists. split; [reflexivity|]. split; reflexivity.
    + intros <-. right. eexists. split; [reflexivity|]. split; reflexivity.
Qed.

Lemma testbit_hi a1 a0 k : a0 < 256 -> N.testbit (a1 * 256 + a0) (8 + k) = N.testbit a1 k.
Proof.
  intros H. rewrite (N.add_comm 8 k), <- (N.div_pow2_bits _ 8 k).
  replace ((a1 * 256 + a0) / 2 ^ 8) with a1; [reflexivity|].
  change (2 ^ 8) with 256. lia.
Qed.

Lemma attrDecode_bits w : w < 65536 ->
  a_ver (attrDecode w) = (if N.testbit w 14 then V2019 else V2013)
  /\ a_fragd (attrDecode w) = N.testbit w 13.
Proof.
  intros Hw. destruct (attrDecode_wf w Hw) as (_ & _ & _ & _ & _ & _ & Ef & Ev).
  destruct (attrDecode_fields w Hw) as (_ & _ & F & G & _). cbv zeta in *.
  rewrite Ef, Ev, F, G. pose proof (N.testbit_spec' w 14) as T14. pose proof (N.testbit_spec' w 13) as T13.
  change (2 ^ 14) with 16384 in T14. change (2 ^ 13) with 8192 in T13. rewrite <- T14, <- T13.
  split; [destruct (N.testbit w 14)|destruct (N.testbit w 13)]; reflexivity.
Qed.

Lemma attr_at_data x0 x1 a1 a0 r sp : a1 < 256 -> a0 < 256 ->
  let s := mkSlice (x0 :: x1 :: a1 :: a0 :: r) sp in
  hsize (attr_at s) = header_size a1
  /\ version_eqb (a_ver (attr_at s)) V2019 = N.testbit a1 6.
Proof.
  intros H1 H0 s. unfold attr_at, s. cbn [sl_data sl_spare app skipn firstn be16].
  destruct (attrDecode_bits (a1 * 256 + a0) ltac:(lia)) as [Ev Ef].
  unfold hsize. rewrite Ev, Ef.
  change 14 with (8 + 6) at 1 2. change 13 with (8 + 5). rewrite !testbit_hi by assumption.
  unfold header_size.
  destruct (N.testbit a1 6); split; reflexivity.
Qed.

Lemma header_cut_iff d sp : bytes_ok d = true ->
  (header_cut d <-> (length d < hsize (attr_at (mkSlice d sp)))%nat).
Proof.
  intros Hok. assert (G : (12 <= hsize (attr_at (mkSlice d sp)))%nat) by (unfold hsize; lia).
  destruct d as [|x0 [|x1 [|a1 [|a0 r]]]]; cbn [header_cut length]; try (split; [lia|auto]).
  rewrite !bytes_ok_cons in Hok. destruct Hok as (_ & _ & H1 & H0 & _).
  destruct (attr_at_data x0 x1 a1 a0 r sp H1 H0) as [-> _]. reflexivity.
Qed.

(** ** decodePacket on a frame *)
Lemma decodePacket_verify o c : decodePacket o (framed c) =
  rbind (verify o (unescape (framed c))) (fun pkt =>
      rbind (decodeHeader pkt O) (fun hi =>
      rbind (sl_from pkt (snd hi)) (fun bdy =>
      Ok (mkPacket (fst hi) bdy delim false)))).
Proof.
  pose proof (last_last (delim :: c) delim 0) as E. cbn [app] in E.
  unfold decodePacket, framed. rewrite E. reflexivity.
Qed.

Lemma decodePacket_cases o b code : bytes_ok b = true ->
  forall c, unescape (framed c) = b ++ [code] ->
  (code <> xor_sum b -> decodePacket o (framed c) = Err ErrVerifyFailed)
  /\ (code = xor_sum b -> header_cut b -> decodePacket o (framed c) = Panic)
  /\ (code = xor_sum b -> ~ header_cut b ->
      exists p, decodePacket o (framed c) = Ok p /\ pk_code p = delim
        /\ h_phone (pk_hdr p) = bcd2NumberStr (phone_field b)
        /\ sl_data (pk_body p) = skipn (header_length b) b).
Proof.
  intros Hok c Hu. rewrite decodePacket_verify, Hu, verify_app, xorAll_sum.
  split; [|split].
  - intros Hne. apply N.eqb_neq in Hne. now rewrite Hne.
  - intros -> Hcut. rewrite N.eqb_refl. cbn [rbind].
    match goal with |- context [mkSlice b ?sp] => generalize sp; intros spp end.
    set (s := mkSlice b spp). apply (header_cut_iff b (sl_spare s) Hok) in Hcut.
    change (mkSlice b (sl_spare s)) with s in Hcut.
    destruct (decodeHeader_cases s) as [[-> _]|(h & -> & _)]; [reflexivity|].
    cbn [rbind snd]. unfold sl_from. destruct (Nat.leb_spec (hsize (attr_at s)) (sl_len s)); [|reflexivity].
    unfold sl_len, s in *. cbn [sl_data] in *. lia.
  - intros -> Hcut. rewrite N.eqb_refl. cbn [rbind].
    match goal with |- context [mkSlice b ?sp] => generalize sp; intros spp end.
    set (s := mkSlice b spp).
    assert (Hge : (hsize (attr_at s) <= length b)%nat).
    { pose proof (header_cut_iff b (sl_spare s) Hok) as K.
      change (mkSlice b (sl_spare s)) with s in K.
      destruct (Nat.le_gt_cases (hsize (attr_at s)) (length b)); [assumption|].
      exfalso. now apply Hcut, K. }
    destruct (decodeHeader_cases s) as [[_ K]|(h & -> & _ & Hp)].
    { unfold sl_len, s in *. cbn [sl_data] in *. lia. }
    cbn [rbind snd fst]. unfold sl_from.
    destruct (Nat.leb_spec (hsize (attr_at s)) (sl_len s)) as [K|K];
      [|unfold sl_len, s in *; cbn [sl_data] in *; lia].
    cbn [rbind]. eexists. split; [reflexivity|]. cbn [pk_code pk_hdr pk_body sl_data].
    split; [reflexivity|]. split.
    + rewrite Hp. f_equal. unfold s at 2 3 4 5. cbn [sl_data sl_spare].
      assert (G : (12 <= hsize (attr_at s))%nat) by (unfold hsize; lia).
      assert (G' : version_eqb (a_ver (attr_at s)) V2019 = true -> (17 <= hsize (attr_at s))%nat).
      { intros Ev. unfold hsize. rewrite Ev. lia. }
      unfold s in Hge. unfold s. clear K Hp. subst s.
      destruct b as [|x0 [|x1 [|a1 [|a0 r]]]]; cbn [length] in Hge; try lia.
      rewrite !bytes_ok_cons in Hok. destruct Hok as (_ & _ & H1 & H0 & _).
      destruct (attr_at_data x0 x1 a1 a0 r spp H1 H0) as [_ Ev]. cbv zeta in Ev.
      rewrite Ev in *. unfold phone_field.
      destruct (N.testbit a1 6).
      * rewrite skipn_app, firstn_app. rewrite skipn_length.
        specialize (G' eq_refl). cbn [length].
        match goal with |- _ ++ firstn ?k _ = _ => replace k with O by (cbn [length] in *; lia) end.
        cbn [firstn]. apply app_nil_r.
      * rewrite skipn_app, firstn_app. rewrite skipn_length. cbn [length].
        match goal with |- _ ++ firstn ?k _ = _ => replace k with O by (cbn [length] in *; lia) end.
        cbn [firstn]. apply app_nil_r.
    + unfold s at 2. cbn [sl_data]. f_equal.
      assert (G : (12 <= hsize (attr_at s))%nat) by (unfold hsize; lia).
      clear - Hge Hok G. subst s.
      destruct b as [|x0 [|x1 [|a1 [|a0 r]]]]; cbn [length] in Hge; try lia.
      rewrite !bytes_ok_cons in Hok. destruct Hok as (_ & _ & H1 & H0 & _).
      destruct (attr_at_data x0 x1 a1 a0 r spp H1 H0) as [Ev _]. exact Ev.
Qed.

Lemma unescLoop_ok l : bytes_ok l = true -> bytes_ok (unescLoop l) = true.
Proof.
  assert (G : forall n l, (length l <= n)%nat -> bytes_ok l = true -> bytes_ok (unescLoop l) = true).
  { clear l. induction n as [|n IH]; intros l Hl H.
    - destruct l; [reflexivity|cbn in Hl; lia].
    - destruct l as [|a [|b t]]; [reflexivity|exact H|]. cbn [length] in Hl.
      cbn [unescLoop]. rewrite !bytes_ok_cons in H. destruct H as (Ha & Hb & Ht).
      destruct ((a =? 0x7d) && (b =? 0x02)).
      + rewrite bytes_ok_cons. split; [lia|]. apply IH; [lia|assumption].
      + destruct ((a =? 0x7d) && (b =? 0x01)).
        * rewrite bytes_ok_cons. split; [lia|]. apply IH; [lia|assumption].
        * change (bytes_ok (a :: unescLoop (b :: t)) = true).
          rewrite bytes_ok_cons. split; [lia|]. apply IH; [cbn; lia|].
          now rewrite bytes_ok_cons. }
  apply (G (length l)); lia.
Qed.

Lemma unescape_framed_ok c : bytes_ok c = true -> bytes_ok (unescape (framed c)) = true.
Proof. intros H. unfold framed. rewrite unescape_frame. now apply unescLoop_ok. Qed.

Lemma decodePacket_outcome o c : bytes_ok c = true ->
  (unescape (framed c) = [] /\ decodePacket o (framed c) = Err ErrEmptyPacket)
  \/ exists b code, unescape (framed c) = b ++ [code] /\ bytes_ok b = true
     /\ ((code <> xor_sum b /\ decodePacket o (framed c) = Err ErrVerifyFailed)
         \/ (code = xor_sum b /\ header_cut b /\ decodePacket o (framed c) = Panic)
         \/ (code = xor_sum b /\ ~ header_cut b /\ exists p, decodePacket o (framed c) = Ok p)).
Proof.
  intros Hc. pose proof (unescape_framed_ok c Hc) as Hu.
  destruct (unescape (framed c)) as [|code b] eqn:E using rev_ind.
  - left. split; [reflexivity|]. rewrite decodePacket_verify, E. reflexivity.
  - clear IHb. right. exists b, code. apply bytes_ok_app in Hu as [Hb _].
    split; [reflexivity|]. split; [assumption|].
    destruct (decodePacket_cases o b code Hb c E) as (K1 & K2 & K3).
    destruct (N.eq_dec code (xor_sum b)) as [Ec|Ec]; [|left; auto].
    assert (D : {header_cut b} + {~ header_cut b}).
    { unfold header_cut. destruct b as [|? [|? [|? [|? ?]]]]; auto. apply lt_dec. }
    destruct D; [right; left; auto|right; right]. split; [auto|]. split; [auto|].
    destruct (K3 Ec n) as (p & ? & _). eauto.
Qed.

Lemma decodePacket_panic_iff o c : bytes_ok c = true ->
  (decodePacket o (framed c) = Panic
   <-> exists b, unescape (framed c) = b ++ [xor_sum b] /\ header_cut b).
Proof.
  intros Hc. destruct (decodePacket_outcome o c Hc) as [[E R]|(b & code & E & Hb & R)].
  - rewrite R, E. split; [discriminate|]. intros (b & K & _). destruct b; discriminate.
  - split.
    + intros HP. destruct R as [[_ R]|[(-> & Hcut & _)|(_ & _ & p & R)]]; try congruence. eauto.
    + intros (b' & E' & Hcut). rewrite E in E'. apply app_inj_tail in E' as [-> ->].
      destruct R as [[R _]|[(_ & _ & R)|(_ & R & _)]]; [congruence|assumption|contradiction].
Qed.

(** phone fields *)
Lemma decodePacket_phone o c p b : bytes_ok c = true -> decodePacket o (framed c) = Ok p ->
  unescape (framed c) = b ++ [xor_sum b] ->
  h_phone (pk_hdr p) = bcd2NumberStr (phone_field b).
Proof.
  intros Hc Hp E. pose proof (unescape_framed_ok c Hc) as Hu. rewrite E in Hu.
  apply bytes_ok_app in Hu as [Hb _].
  destruct (decodePacket_cases o b _ Hb c E) as (_ & K2 & K3).
  assert (N : ~ header_cut b) by (intros K; rewrite (K2 eq_refl K) in Hp; discriminate).
  destruct (K3 eq_refl N) as (p' & Hp' & _ & Hph & _). congruence.
Qed.

Lemma phones_distinct o c1 c2 b1 b2 p1 p2 : bytes_ok c1 = true -> bytes_ok c2 = true ->
  decodePacket o (framed c1) = Ok p1 -> decodePacket o (framed c2) = Ok p2 ->
  unescape (framed c1) = b1 ++ [xor_sum b1] -> unescape (framed c2) = b2 ++ [xor_sum b2] ->
  forallb bcdByte (phone_field b1) = true -> forallb bcdByte (phone_field b2) = true ->
  h_phone (pk_hdr p1) = h_phone (pk_hdr p2) -> phone_field b1 = phone_field b2.
Proof.
  intros Hc1 Hc2 H1 H2 E1 E2 D1 D2 HE.
  rewrite (decodePacket_phone o c1 p1 b1), (decodePacket_phone o c2 p2 b2) in HE by assumption.
  rewrite !bcd2NumberStr_digits in HE by assumption. now apply bcdHex_inj.
Qed.

(** a field whose first byte ends in nibble F loses the first digit *)
Lemma bcd_first_F x f : x < 16 -> forallb bcdByte f = true ->
  bcd2NumberStr ((x * 16 + 15) :: f) = bcdHex f.
Proof.
  intros Hx Hf. unfold bcd2NumberStr, bcdHex. cbn [flat_map app]. fold (bcdHex f).
  replace ((x * 16 + 15) / 16) with x by lia. replace ((x * 16 + 15) mod 16) with 15 by lia.
  change (hexU 15) with 70.
  assert (N : ~ In 70 (bcdHex f)) by now apply digits_noF, bcdHex_digits.
  cbn [afterLastF]. rewrite (afterLastF_none (bcdHex f)) by assumption. cbn. reflexivity.
Qed.

(** * Oversized bodies *)
Lemma writeHeader_app h w : writeHeader h w =
  put16 (h_id h) ++ put16 (attrEncode (attr_set_len (h_attr h) (N.of_nat (length w) mod 65536)))
  ++ skipn 4 (encodeHeader (hdr_set_len h (N.of_nat (length w) mod 65536))) ++ w.
Proof.
  unfold writeHeader. rewrite encodeHeader_wire. unfold header_wire, put16.
  cbn [hdr_set_len h_attr h_id app skipn]. reflexivity.
Qed.

Lemma be16_2 x y : y < 65536 ->
  be16 (firstn 2 (skipn 2 (put16 x ++ put16 y))) = y.
Proof. intros H. unfold put16. cbn [app skipn firstn be16]. lia. Qed.

Lemma decode_writeHeader_attr h w sp h' i :
  decodeHeader (mkSlice (writeHeader h w) sp) O = Ok (h', i) ->
  h_attr h' = attrDecode (attrEncode (attr_set_len (h_attr h) (N.of_nat (length w) mod 65536))).
Proof.
  intros H. destruct (decodeHeader_cases (mkSlice (writeHeader h w) sp)) as [[K _]|(h2 & K & Ha & _)];
    rewrite K in H; [discriminate|]. inv H. rewrite Ha. unfold attr_at. cbn [sl_data sl_spare].
  f_equal. rewrite writeHeader_app. unfold put16 at 1 2. cbn [app skipn firstn be16].
  pose proof (attrEncode_lt (attr_set_len (h_attr h) (N.of_nat (length w) mod 65536))). lia.
Qed.

Lemma oversized h w sp h' i : attr_wf (h_attr h) -> (1024 <= N.of_nat (length w) < 65536) ->
  decodeHeader (mkSlice (writeHeader h w) sp) O = Ok (h', i) ->
  a_len (h_attr h') = N.of_nat (length w) mod 1024
  /\ a_len (h_attr h') <> N.of_nat (length w)
  /\ (a_enc (h_attr h) = 0 -> a_frag (h_attr h) = 0 -> a_sign (h_attr h) = 0 -> a_extra (h_attr h) = 0 ->
      a_enc (h_attr h') <> 0 \/ a_frag (h_attr h') <> 0 \/ a_sign (h_attr h') <> 0
      \/ a_extra (h_attr h') <> 0).
Proof.
  intros Hwf Hl H. apply decode_writeHeader_attr in H. rewrite H.
  set (a := attr_set_len (h_attr h) (N.of_nat (length w) mod 65536)).
  destruct (attrDecode_fields (attrEncode a) (attrEncode_lt a)) as (E1 & E2 & E3 & E4 & E5).
  cbv zeta in *. rewrite E1, E2, E3, E4, E5.
  destruct Hwf as (H1 & H2 & H3 & H4 & H5 & _).
  unfold a, attr_set_len, attrEncode. cbn [a_len a_enc a_frag a_sign a_extra].
  repeat split; try lia.
Qed.

Lemma decode_writeHeader h w sp : hdr_wf h -> (length w < 1024)%nat ->
  decodeHeader (mkSlice (writeHeader h w) sp) O
  = Ok (hdr_set_len h (N.of_nat (length w)), length (header_layout (hdr_set_len h (N.of_nat (length w))))).
Proof.
  intros Hwf Hl. unfold writeHeader. rewrite N.mod_small by lia.
  assert (Hwf' : hdr_wf (hdr_set_len h (N.of_nat (length w)))) by (apply hdr_set_len_wf; [assumption|lia]).
  rewrite encodeHeader_wire. pose proof (reads_header 0 _ Hwf' [] w sp eq_refl) as R.
  cbn [app] in R. rewrite R. now rewrite header_wire_layout.
Qed.

(** * Platform-initiated headers *)
Lemma unescape_framed_escape pkt : unescape (framed (flat_map escByte pkt)) = pkt.
Proof. rewrite <- escape_framed. apply unescape_escape. Qed.

Lemma encode_unescaped o h b w : encBody o h b = Ok w ->
  encodePacket o (mkMsg h b) = Ok (framed (flat_map escByte (writeHeader h w ++ [xor_sum (writeHeader h w)]))).
Proof.
  intros H. unfold encodePacket, msgEncode. cbn [m_hdr m_body]. rewrite H. cbn [rmap].
  rewrite escape_framed. unfold genVerifier. now rewrite xorAll_sum.
Qed.

Lemma writeHeader_gen2019 proto phone id sn w : digits phone = true -> length phone = 20%nat ->
  (length w < 1024)%nat ->
  writeHeader (genMsgHeader V2019 proto phone id sn) w =
  put16 id ++ put16 (16384 + N.of_nat (length w)) ++ BCD phone ++ put16 sn ++ w.
Proof.
  intros Hd Hl Hw. unfold writeHeader. rewrite N.mod_small by lia. rewrite encodeHeader_wire.
  unfold header_wire, genMsgHeader, hdr_set_len, attr_set_len, attrEncode.
  cbn [h_id h_attr h_proto h_phone h_sn h_frag a_len a_enc a_frag a_sign a_extra a_encd a_fragd a_ver versionDecode version_eqb].
  rewrite app_nil_r, numberStr2BCD_BCD by (assumption || lia). cbn [app]. rewrite <- !app_assoc.
  replace ((N.of_nat (length w) + 0 * 1024 + 0 * 8192 + 1 * 16384 + 0 * 32768) mod 65536)
    with (16384 + N.of_nat (length w)) by lia. reflexivity.
Qed.

Lemma gen2019_empty_panics o proto phone id sn b : digits phone = true -> length phone = 20%nat ->
  encBody o (genMsgHeader V2019 proto phone id sn) b = Ok [] ->
  exists frm, encodePacket o (mkMsg (genMsgHeader V2019 proto phone id sn) b) = Ok frm
    /\ decodePacket o frm = Panic.
Proof.
  intros Hd Hl Hb. eexists. split; [apply (encode_unescaped o _ b []); exact Hb|].
  pose proof (writeHeader_gen2019 proto phone id sn [] Hd Hl ltac:(cbn; lia)) as E.
  set (pkt := writeHeader _ []) in *.
  assert (HBl : length (BCD phone) = 10%nat).
  { pose proof (BCD_length phone Hd) as K. rewrite Hl in K. specialize (K eq_refl). lia. }
  assert (Hok : bytes_ok pkt = true).
  { rewrite E, !bytes_ok_app. rewrite !put16_ok. repeat split.
    rewrite <- Str2Byte_BCD by assumption. apply Str2Byte_ok. }
  destruct (decodePacket_cases o pkt (xor_sum pkt) Hok (flat_map escByte (pkt ++ [xor_sum pkt]))
              (unescape_framed_escape _)) as (_ & K & _).
  apply K; [reflexivity|]. rewrite E. unfold put16 at 1 2. cbn [app header_cut].
  change ((16384 + N.of_nat (length [])) / 256 mod 256) with 64.
  change (header_size 64) with 17%nat. cbn [length]. rewrite !app_length, HBl. cbn. lia.
Qed.

(** ... and with a body, the receiver reads a shifted phone number *)
Lemma bcdHex_app a b : bcdHex (a ++ b) = bcdHex a ++ bcdHex b.
Proof. unfold bcdHex. apply flat_map_app. Qed.
Lemma bcdHex_BCD s : digits s = true -> Nat.even (length s) = true -> bcdHex (BCD s) = s.
Proof.
  intros Hd He. rewrite <- Str2Byte_BCD by assumption.
  apply bcdHex_Str2Byte; [assumption|now apply digits_upHex].
Qed.
Lemma BCD_decimal s : digits s = true -> forallb bcdByte (BCD s) = true.
Proof.
  induction s as [| a | a b t IH] using list_pair_ind; intros Hd; try reflexivity.
  rewrite !digits_cons in Hd. destruct Hd as (Ha & Hb & Hd). cbn [BCD forallb].
  rewrite IH by assumption. unfold bcdByte. lia.
Qed.

Lemma gen2019_shifted o proto phone id sn b w : digits phone = true -> length phone = 20%nat ->
  sn < 2560 -> encBody o (genMsgHeader V2019 proto phone id sn) b = Ok w ->
  bytes_ok w = true -> (1 <= length w < 1024)%nat ->
  exists frm p, encodePacket o (mkMsg (genMsgHeader V2019 proto phone id sn) b) = Ok frm
    /\ decodePacket o frm = Ok p
    /\ h_phone (pk_hdr p) = skipn 2 phone ++ [48; 48 + sn / 256]
    /\ sl_data (pk_body p) = skipn 1 w.
Proof.
  intros Hd Hl Hsn Hb Hwok Hw. 
  pose proof (writeHeader_gen2019 proto phone id sn w Hd Hl ltac:(lia)) as E.
  rewrite (encode_unescaped o _ b w Hb).
  set (pkt := writeHeader _ w) in *.
  assert (HBl : length (BCD phone) = 10%nat).
  { pose proof (BCD_length phone Hd) as K. rewrite Hl in K. specialize (K eq_refl). lia. }
  assert (Hok : bytes_ok pkt = true).
  { rewrite E, !bytes_ok_app. rewrite !put16_ok. repeat split; [|assumption].
    rewrite <- Str2Byte_BCD by assumption. apply Str2Byte_ok. }
  assert (Hhi : (16384 + N.of_nat (length w)) / 256 mod 256 = 64 + N.of_nat (length w) / 256) by lia.
  assert (Hx : N.of_nat (length w) / 256 < 4) by lia.
  assert (B6 : N.testbit (64 + N.of_nat (length w) / 256) 6 = true /\ N.testbit (64 + N.of_nat (length w) / 256) 5 = false).
  { destruct (N.of_nat (length w) / 256) as [|[[?|?|]|[?|?|]|]]; try lia; split; reflexivity. }
  destruct B6 as [B6 B5].
  eexists _.
  destruct (decodePacket_cases o pkt (xor_sum pkt) Hok (flat_map escByte (pkt ++ [xor_sum pkt]))
              (unescape_framed_escape _)) as (_ & _ & K).
  destruct K as (p & Hp & _ & Hph & Hbody).
  - reflexivity.
  - rewrite E. unfold put16 at 1 2. cbn [app header_cut]. rewrite Hhi.
    unfold header_size. rewrite B6, B5. cbn [length]. rewrite !app_length, HBl. cbn [put16 length]. lia.
  - exists p. split; [reflexivity|]. split; [exact Hp|].
    rewrite Hph, Hbody, E. unfold put16 at 1 2 4 5. cbn [app]. unfold phone_field, header_length.
    rewrite Hhi. unfold header_size. rewrite B6, B5. clear E Hph Hbody Hok Hp Hb. clearbody pkt.
    destruct phone as [|c1 [|c2 rest]]; [discriminate|discriminate|].
    rewrite !digits_cons in Hd. destruct Hd as (_ & _ & Hd). cbn [length] in Hl.
    cbn [BCD length] in HBl. cbn [BCD app].
    rewrite !(skipn_cons 4), !(skipn_cons 3), !(skipn_cons 2), !(skipn_cons 1), !(skipn_cons 0), skipn_O.
    change (12 + 5 + 0)%nat with 17%nat. unfold put16 at 2 3. cbn [app].
    rewrite ?skipn_O.
    rewrite !(skipn_cons 16), !(skipn_cons 15), !(skipn_cons 14), !(skipn_cons 13), !(skipn_cons 12).
    assert (HBr : length (BCD rest) = 9%nat) by lia. clear HBl.
    assert (EQ : firstn 10 (BCD rest ++ put16 sn ++ w) = BCD rest ++ [sn / 256]).
    { rewrite firstn_app, firstn_all2, HBr by lia. f_equal. unfold put16. cbn. f_equal. lia. }
    rewrite EQ. split.
    + rewrite bcd2NumberStr_digits.
      * rewrite bcdHex_app, bcdHex_BCD; [|assumption|].
        2:{ replace (length rest) with 18%nat by lia. reflexivity. }
        f_equal. unfold bcdHex. cbn [flat_map app].
        replace (sn / 256 / 16) with 0 by lia.
        replace ((sn / 256) mod 16) with (sn / 256) by lia. unfold hexU.
        destruct (N.ltb_spec (sn / 256) 10); [reflexivity|lia].
      * rewrite forallb_app, BCD_decimal by assumption. cbn [forallb andb]. unfold bcdByte. lia.
    + rewrite app_assoc. rewrite skipn_app.
      rewrite skipn_all2 by (rewrite app_length, HBr; cbn; lia).
      rewrite app_length, HBr. reflexivity.
Qed.

Lemma gen2013_wf proto phone id sn n : digits phone = true -> length phone = 12%nat ->
  id < 65536 -> sn < 65536 -> n < 1024 -> 
  hdr_wf (mkHeader id (mkAttr n 0 0 0 0 EncNone false V2013) 0 phone sn None)
  /\ encodeHeader (hdr_set_len (genMsgHeader V2013 proto phone id sn) n)
     = encodeHeader (mkHeader id (mkAttr n 0 0 0 0 EncNone false V2013) 0 phone sn None).
Proof.
  intros Hd Hl Hi Hs Hn. split; [|reflexivity].
  unfold hdr_wf, attr_wf. cbn. repeat split; auto; lia.
Qed.

Lemma gen2013_roundtrip o proto phone id sn b w : digits phone = true -> length phone = 12%nat ->
  id < 65536 -> sn < 65536 -> encBody o (genMsgHeader V2013 proto phone id sn) b = Ok w ->
  (length w < 1024)%nat ->
  exists frm p, encodePacket o (mkMsg (genMsgHeader V2013 proto phone id sn) b) = Ok frm
    /\ decodePacket o frm = Ok p
    /\ h_id (pk_hdr p) = id /\ h_phone (pk_hdr p) = phone /\ h_sn (pk_hdr p) = sn
    /\ a_ver (h_attr (pk_hdr p)) = V2013 /\ a_len (h_attr (pk_hdr p)) = N.of_nat (length w)
    /\ h_frag (pk_hdr p) = None /\ sl_data (pk_body p) = w.
Proof.
  intros Hd Hl Hi Hs Hb Hw.
  destruct (gen2013_wf proto phone id sn (N.of_nat (length w)) Hd Hl Hi Hs ltac:(lia)) as [Hwf He].
  set (h := mkHeader _ _ _ _ _ _) in *.
  destruct (packet_roundtrip o h w Hwf Hw) as [sp Hd'].
  eexists _, _. split; [|split; [exact Hd'|]].
  - unfold encodePacket, msgEncode. cbn [m_hdr m_body]. rewrite Hb. reflexivity.
  - cbn. auto 10.
Qed.
