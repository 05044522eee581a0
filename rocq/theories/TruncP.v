(** Exactly the bodies a message type accepts *)
From Coq Require Import ZifyBool ZifyNat ZifyN.
From Verif Require Import Base HexM TimeM HashM HeaderM ParamsM GeoM MsgM PacketM FrameM SpecCodec SpecTrunc
  HexP TimeP HeaderP FrameP MsgP CodecP CodecP2.
Local Open Scope N_scope.
Ltac Zify.zify_post_hook ::= Z.div_mod_to_equations.

Definition ok {A} (m : rd A) (s : slice) (i : nat) : Prop := exists r, m s i = Ok r.
Lemma ok_ret {A} (a : A) s i : ok (rd_ret a) s i <-> True.
Proof. split; [auto|]. intros _. eexists. reflexivity. Qed.
Lemma ok_fail {A} e s i : ok (@rd_fail A e) s i <-> False.
Proof. split; [intros (? & [=])|tauto]. Qed.
Lemma ok_bfail {A B} e (f : A -> rd B) s i : ok (rd_bind (rd_fail e) f) s i <-> False.
Proof. split; [intros (? & [=])|tauto]. Qed.
Lemma ok_bret {A B} (a : A) (f : A -> rd B) s i : ok (rd_bind (rd_ret a) f) s i <-> ok (f a) s i.
Proof. reflexivity. Qed.
Lemma ok_idx {B} (f : nat -> rd B) s i : ok (rd_bind rd_idx f) s i <-> ok (f i) s i.
Proof. reflexivity. Qed.
Lemma ok_assoc {A B C} (m : rd A) (g : A -> rd B) (f : B -> rd C) s i :
  ok (rd_bind (rd_bind m g) f) s i <-> ok (rd_bind m (fun a => rd_bind (g a) f)) s i.
Proof. unfold ok, rd_bind. destruct (m s i) as [[a j]| |]; reflexivity. Qed.
Lemma ok_byte {B} (f : N -> rd B) s i : ok (rd_bind ReadByte f) s i <-> (i < sl_len s)%nat /\ ok (f (nth i (sl_data s) 0)) s (S i).
Proof.
  unfold ok, rd_bind, ReadByte, sl_at, sl_len. destruct (nth_error (sl_data s) i) as [b|] eqn:E.
  - pose proof (nth_error_nth _ _ 0 E) as ->. assert (L : (i < length (sl_data s))%nat) by (apply nth_error_Some; congruence). tauto.
  - apply nth_error_None in E. split; [intros (? & [=])|]. intros (L & _). lia.
Qed.
Lemma ok_sub {B} n (f : bytes -> rd B) s i : ok (rd_bind (readSub n) f) s i <->
  (0 <= n)%Z /\ (Z.of_nat i + n <= Z.of_nat (sl_cap s))%Z
  /\ ok (f (firstn (Z.to_nat n) (skipn i (sl_data s ++ sl_spare s)))) s (i + Z.to_nat n).
Proof.
  unfold ok, rd_bind, readSub, sl_sub. destruct (Z.leb_spec (Z.of_nat i) (Z.of_nat i + n)) as [H1|H1];
    destruct (Z.leb_spec (Z.of_nat i + n) (Z.of_nat (sl_cap s))) as [H2|H2]; cbn [andb];
    try (split; [intros (? & [=])|]; intros (? & ? & _); lia).
  replace (Z.to_nat (Z.of_nat i + n) - i)%nat with (Z.to_nat n) by lia.
  replace (Z.to_nat (Z.of_nat i + n)) with (i + Z.to_nat n)%nat by lia. split; [intros H; repeat split; [lia|lia|exact H]|tauto].
Qed.
Lemma ok_subn {B} (n : nat) (f : bytes -> rd B) s i : ok (rd_bind (readSub (Z.of_nat n)) f) s i <->
  (i + n <= sl_cap s)%nat /\ ok (f (firstn n (skipn i (sl_data s ++ sl_spare s)))) s (i + n).
Proof. rewrite ok_sub, Nat2Z.id. split; [intros (_ & H & K)|intros (H & K)]; repeat split; try assumption; lia. Qed.
Lemma ok_word {B} (f : N -> rd B) s i : ok (rd_bind ReadWord f) s i <->
  (i + 2 <= sl_cap s)%nat /\ ok (f (be16 (firstn 2 (skipn i (sl_data s ++ sl_spare s))))) s (i + 2).
Proof. unfold ReadWord. rewrite ok_assoc. exact (ok_subn 2 _ s i). Qed.
Lemma ok_dword {B} (f : N -> rd B) s i : ok (rd_bind ReadDoubleWord f) s i <->
  (i + 4 <= sl_cap s)%nat /\ ok (f (be32 (firstn 4 (skipn i (sl_data s ++ sl_spare s))))) s (i + 4).
Proof. unfold ReadDoubleWord. rewrite ok_assoc. exact (ok_subn 4 _ s i). Qed.
Lemma ok_time {B} now (f : civil -> rd B) s i : ok (rd_bind (ReadTime now) f) s i <->
  (i + 6 <= sl_cap s)%nat /\ ok (f (ParseTime now (bcd2NumberStr (firstn 6 (skipn i (sl_data s ++ sl_spare s)))))) s (i + 6).
Proof. unfold ReadTime, ReadBCD. rewrite !ok_assoc. rewrite (ok_subn 6 _ s i), ok_bret. reflexivity. Qed.
Lemma ok_bcd {B} (n : nat) (f : str -> rd B) s i : ok (rd_bind (ReadBCD (Z.of_nat n)) f) s i <->
  (i + n <= sl_cap s)%nat /\ ok (f (bcd2NumberStr (firstn n (skipn i (sl_data s ++ sl_spare s))))) s (i + n).
Proof. unfold ReadBCD. rewrite ok_assoc. exact (ok_subn n _ s i). Qed.
Lemma ok_rest {B} (f : slice -> rd B) s i : ok (rd_bind rd_rest f) s i <->
  (i <= sl_len s)%nat /\ ok (f (mkSlice (skipn i (sl_data s)) (sl_spare s))) s i.
Proof.
  unfold ok, rd_bind, rd_rest, sl_from. destruct (Nat.leb_spec i (sl_len s)); [tauto|]. split; [intros (? & [=])|lia].
Qed.
Lemma ok_lift {A B} (r : res A) (f : A -> B) s i : ok (rd_bind (rd_lift r) (fun a => rd_ret (f a))) s i <-> exists a, r = Ok a.
Proof.
  unfold ok, rd_bind, rd_lift, rd_ret. destruct r as [a| |]; [split; eauto|split; [intros (? & [=])|intros (? & [=])]..].
Qed.

Lemma be32_at l i : (i + 4 <= length l)%nat -> be32 (firstn 4 (skipn i l)) = u32_at l i.
Proof.
  intros H. unfold u32_at. rewrite <- (firstn_skipn i l) at 2 3 4 5.
  assert (L : length (firstn i l) = i) by (apply firstn_length_le; lia).
  rewrite !app_nth2 by lia. rewrite L, Nat.sub_diag, !Nat.add_sub_swap, !Nat.sub_diag by lia. cbn [Nat.add].
  assert (K : (4 <= length (skipn i l))%nat) by (rewrite skipn_length; lia).
  destruct (skipn i l) as [|a [|b [|c [|d r]]]]; cbn in K; try lia. reflexivity.
Qed.
Lemma ok_pdecode {B} o k ln (f : pval -> rd B) s i : exists v,
  ok (rd_bind (pdecode o k ln) f) s i <->
  let j := (i + value_size k ln)%nat in (k = PByte -> (j <= sl_len s)%nat) /\ (j <= sl_cap s)%nat /\ ok (f v) s j.
Proof.
  assert (LC : (sl_len s <= sl_cap s)%nat) by (unfold sl_len, sl_cap; lia).
  destruct k; cbn [pdecode value_size].
  - eexists. rewrite ok_assoc, ok_byte, ok_bret. replace (i + 1)%nat with (S i) by lia. split.
    + intros (H1 & H2). split; [intros _; lia|]. split; [lia|exact H2].
    + intros (H1 & H2 & H3). split; [|exact H3]. pose proof (H1 eq_refl). lia.
  - eexists. rewrite ok_assoc, ok_word, ok_bret. split; [intros (H1 & H2)|intros (_ & H1 & H2)]; repeat split; try discriminate; eassumption.
  - eexists. rewrite ok_assoc, ok_dword, ok_bret. split; [intros (H1 & H2)|intros (_ & H1 & H2)]; repeat split; try discriminate; eassumption.
  - eexists. rewrite ok_assoc, <- N_nat_Z, ok_bcd, ok_bret. split; [intros (H1 & H2)|intros (_ & H1 & H2)]; repeat split; try discriminate; eassumption.
  - eexists. unfold ReadString. rewrite ok_assoc, <- N_nat_Z, ok_subn, ok_bret. split; [intros (H1 & H2)|intros (_ & H1 & H2)]; repeat split; try discriminate; eassumption.
  - eexists. unfold ReadGBK. rewrite !ok_assoc, <- N_nat_Z, ok_subn, !ok_bret. split; [intros (H1 & H2)|intros (_ & H1 & H2)]; repeat split; try discriminate; eassumption.
Qed.
Lemma ok_entries o n : forall s i, ok (paramsDecodeLoop o n) s i <-> entries n (sl_data s ++ sl_spare s) (sl_len s) i.
Proof.
  induction n as [|n IH]; intros s i; cbn [paramsDecodeLoop entries]; [apply ok_ret|].
  assert (LA : length (sl_data s ++ sl_spare s) = sl_cap s) by (rewrite app_length; reflexivity).
  assert (LC : (sl_len s <= sl_cap s)%nat) by (unfold sl_len, sl_cap; lia).
  unfold paramDecode. rewrite ok_assoc, ok_dword, ok_assoc, ok_byte.
  destruct (Nat.ltb_spec (i + 4) (sl_len s)) as [L|L]; [|split; [intros (_ & H & _); lia|intros (H & _); lia]].
  rewrite be32_at by lia. rewrite <- (app_nth1 (sl_data s) (sl_spare s)) by exact L.
  set (ln := nth (i + 4) _ 0). destruct (argKind _) as [k|] eqn:Ek.
  - rewrite ok_assoc.
    destruct (ok_pdecode o k ln (fun a => rd_bind (rd_ret (mkParam (u32_at (sl_data s ++ sl_spare s) i) ln a))
      (fun p => rd_bind (paramsDecodeLoop o n) (fun ps => rd_ret (p :: ps)))) s (S (i + 4))) as (v & Hv). cbv zeta in Hv |- *. rewrite Hv, ok_bret. clear Hv.
    replace (S (i + 4)) with (i + 5)%nat by lia.
    assert (E : forall p j, ok (rd_bind (paramsDecodeLoop o n) (fun ps => rd_ret (p :: ps))) s j <-> ok (paramsDecodeLoop o n) s j).
    { intros p j. unfold ok, rd_bind, rd_ret. destruct (paramsDecodeLoop o n s j) as [[a j']| |];
        [split; eauto|split; intros (? & [=])..]. }
    rewrite E, IH, LA. split.
    + intros (H1 & _ & H2 & H3 & H4). split; [exact L|]. exists k. split; [reflexivity|]. split; [exact H2|split; assumption].
    + intros (_ & k' & [= <-] & H2 & H3 & H4). split; [lia|]. split; [exact L|]. split; [exact H2|split; assumption].
  - split; [intros (_ & _ & ? & [=])|intros (_ & k' & [=] & _)].
Qed.
Lemma ok_paramsDecode o ph cnt s : (exists d, paramsDecode o ph cnt s = Ok d) <-> entries (N.to_nat cnt) (sl_data s ++ sl_spare s) (sl_len s) 0.
Proof.
  rewrite <- (ok_entries o). unfold paramsDecode, ok, rmap. destruct (paramsDecodeLoop _ _ _ _); [split; eauto|split; intros (? & [=])..].
Qed.
Ltac oks := repeat (first [rewrite ok_assoc | rewrite ok_bret | rewrite ok_idx | rewrite ok_word | rewrite ok_dword | rewrite ok_byte | rewrite ok_time | rewrite ok_rest
  | rewrite ok_ret | rewrite ok_fail | rewrite ok_bfail | rewrite ok_sub | rewrite (ok_bcd 6) | progress unfold ReadString, ReadGBK, mqueryDecode, mediaDecode]).
Lemma accepted o now k h w sp :
  (exists b j, decBody o now k h (mkSlice w sp) O = Ok (b, j)) <-> fits k (a_ver (h_attr h)) (N.to_nat (a_len (h_attr h))) w sp.
Proof.
  assert (E : (exists b j, decBody o now k h (mkSlice w sp) O = Ok (b, j)) <-> ok (decBody o now k h) (mkSlice w sp) O).
  { unfold ok. split; [intros (b & j & H); eauto|intros ([b j] & H); eauto]. }
  rewrite E. clear E.
  assert (Ec : sl_cap (mkSlice w sp) = (length w + length sp)%nat) by reflexivity.
  assert (El : sl_len (mkSlice w sp) = length w) by reflexivity.
  assert (El' : forall n, sl_len (mkSlice (skipn n (sl_data (mkSlice w sp))) (sl_spare (mkSlice w sp))) = (length w - n)%nat) by (intros n; exact (skipn_length n w)).
  assert (Ec' : forall n, sl_cap (mkSlice (skipn n (sl_data (mkSlice w sp))) (sl_spare (mkSlice w sp))) = (length w - n + length sp)%nat).
  { intros n. unfold sl_cap. cbn [sl_data sl_spare]. rewrite skipn_length. reflexivity. }
  destruct k; cbn [decBody fits]; try (rewrite ok_ret; tauto).
  all: unfold dec0100, dec0102, dec0200; change 6%Z with (Z.of_nat 6).
  - oks. rewrite Ec, El. lia.
  - oks. rewrite Ec. destruct (a_ver (h_attr h)).
    1: oks. 3: oks. 2: destruct (Z.ltb_spec 33 (Z.of_N (a_len (h_attr h)) - Z.of_nat (0 + 2 + 2))), (Nat.ltb_spec 37 (N.to_nat (a_len (h_attr h)))); try lia;
      oks.
    all: rewrite ?Ec, ?El. all: try lia.
  - oks. destruct (a_ver (h_attr h)); oks; rewrite ?Ec, ?El; try lia. cbn [sl_data]. lia.
  - oks. rewrite Ec, El, ok_lift, ok_paramsDecode, El'. cbn [sl_data sl_spare]. split.
    + intros (_ & H & _ & K). split; [lia|exact K].
    + intros (H & K). repeat split; [lia|lia|lia|exact K].
  - oks. rewrite Ec. lia.
  - oks. rewrite Ec, El, ok_lift.
    match goal with |- context [exists a, ?m ?s ?i = Ok a] => change (exists a, m s i = Ok a) with (ok m s i) end.
    oks. rewrite El', Ec'. lia.
  - oks. rewrite Ec, El. lia.
  - oks. rewrite Ec. lia.
  - oks. rewrite Ec, El. lia.
  - oks. rewrite El, ok_lift, ok_paramsDecode, El'. cbn [sl_data sl_spare]. split.
    + intros (H & _ & K). split; [lia|exact K].
    + intros (H & K). repeat split; [lia|lia|exact K].
  - oks. rewrite Ec, El. lia.
Qed.
Lemma accepted_wire o now h w : hdr_wf h -> (length w < 1024)%nat -> exists p sp,
  decodePacket o (escape (genVerifier (writeHeader h w))) = Ok p
  /\ forall k, (exists m, msgDecode o now k p = Ok m)
               <-> fits k (a_ver (h_attr h)) (length w) w (xor_sum (writeHeader h w) :: sp).
Proof.
  intros Hh Hw. destruct (packet_roundtrip o h w Hh Hw) as [sp P]. rewrite xorAll_sum in P.
  eexists. exists sp. split; [exact P|]. intros k. rewrite <- (Nat2N.id (length w)) at 1.
  rewrite <- (accepted o now k (hdr_set_len h (N.of_nat (length w)))). unfold msgDecode, rmap. cbn [pk_hdr pk_body].
  destruct (decBody o now k _ _ O) as [[b j]| |]; [split; eauto|split; [intros (? & [=])|intros (? & ? & [=])]..].
Qed.
