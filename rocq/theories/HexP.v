(** Proofs about internal/codec/hex: hex strings, BCD, words, indexed reads *)
From Coq Require Import ZifyBool ZifyNat ZifyN.
From Verif Require Import Base HexM SpecCodec.
Local Open Scope N_scope.
Ltac Zify.zify_post_hook ::= Z.div_mod_to_equations.
Ltac inv H := inversion H; subst; clear H.

Lemma list_pair_ind {A} (P : list A -> Prop) :
  P [] -> (forall a, P [a]) -> (forall a b t, P t -> P (a :: b :: t)) -> forall l, P l.
Proof.
  intros H0 H1 H2.
  assert (H : forall l, P l /\ forall a, P (a :: l)).
  { induction l as [|x l [IH1 IH2]]; split; auto. }
  intros l. apply H.
Qed.

Lemma bytes_ok_cons b l : bytes_ok (b :: l) = true <-> (b < 256 /\ bytes_ok l = true).
Proof. unfold bytes_ok, byte_ok. cbn [forallb]. rewrite andb_true_iff, N.ltb_lt. tauto. Qed.
Lemma bytes_ok_app a b : bytes_ok (a ++ b) = true <-> bytes_ok a = true /\ bytes_ok b = true.
Proof. unfold bytes_ok. rewrite forallb_app, andb_true_iff. tauto. Qed.
Lemma bytes_ok_In l : bytes_ok l = true <-> forall b, In b l -> b < 256.
Proof.
  unfold bytes_ok. rewrite forallb_forall. unfold byte_ok.
  split; intros H b Hb; specialize (H b Hb); now apply N.ltb_lt.
Qed.

(** * Hex digits *)
Lemma fromHex_hexL d : d < 16 -> fromHex (hexL d) = Some d.
Proof.
  intros H. unfold hexL, fromHex. destruct (N.ltb_spec d 10).
  - assert (E : (48 <=? 48 + d) && (48 + d <=? 57) = true) by lia. rewrite E. f_equal; lia.
  - assert (E : (48 <=? 87 + d) && (87 + d <=? 57) = false) by lia. rewrite E.
    assert (E' : (97 <=? 87 + d) && (87 + d <=? 102) = true) by lia. rewrite E'. f_equal; lia.
Qed.
Lemma fromHex_hexU d : d < 16 -> fromHex (hexU d) = Some d.
Proof.
  intros H. unfold hexU, fromHex. destruct (N.ltb_spec d 10).
  - assert (E : (48 <=? 48 + d) && (48 + d <=? 57) = true) by lia. rewrite E. f_equal; lia.
  - assert (E : (48 <=? 55 + d) && (55 + d <=? 57) = false) by lia. rewrite E.
    assert (E' : (97 <=? 55 + d) && (55 + d <=? 102) = false) by lia. rewrite E'.
    assert (E2 : (65 <=? 55 + d) && (55 + d <=? 70) = true) by lia. rewrite E2. f_equal; lia.
Qed.
Lemma fromHex_lt c d : fromHex c = Some d -> d < 16.
Proof.
  unfold fromHex. intros H.
  destruct ((48 <=? c) && (c <=? 57)) eqn:E1; [inv H; lia|].
  destruct ((97 <=? c) && (c <=? 102)) eqn:E2; [inv H; lia|].
  destruct ((65 <=? c) && (c <=? 70)) eqn:E3; inv H; lia.
Qed.

Lemma Str2Byte_Byte2Str b : bytes_ok b = true -> Str2Byte (Byte2Str b) = b.
Proof.
  induction b as [|x b IH]; [reflexivity|]. rewrite bytes_ok_cons. intros [Hx Hb].
  unfold Byte2Str. cbn [flat_map app]. cbn [Str2Byte].
  rewrite !fromHex_hexL by lia. fold (Byte2Str b). rewrite (IH Hb). f_equal. lia.
Qed.

Lemma Str2Byte_ok s : bytes_ok (Str2Byte s) = true.
Proof.
  induction s as [| a | a b t IH] using list_pair_ind; try reflexivity.
  cbn [Str2Byte]. destruct (fromHex a) eqn:Ea; [|reflexivity].
  destruct (fromHex b) eqn:Eb; [|reflexivity].
  apply fromHex_lt in Ea, Eb. rewrite bytes_ok_cons. split; [lia|assumption].
Qed.

(** a valid pair contributes one byte; an invalid pair or a single digit ends *)
Lemma Str2Byte_valid a b t x y : fromHex a = Some x -> fromHex b = Some y ->
  Str2Byte (a :: b :: t) = (x * 16 + y) :: Str2Byte t.
Proof. intros Ha Hb. cbn [Str2Byte]. now rewrite Ha, Hb. Qed.

(** the valid even-length prefix decides the result *)
Lemma Str2Byte_prefix p t : Nat.even (length p) = true ->
  (forall c, In c p -> fromHex c <> None) ->
  Str2Byte (p ++ t) = Str2Byte p ++ Str2Byte t.
Proof.
  induction p as [| a | a b p IH] using list_pair_ind; intros He Hv.
  - reflexivity.
  - discriminate.
  - cbn [app Str2Byte].
    destruct (fromHex a) eqn:Ea; [|exfalso; apply (Hv a); [now left|assumption]].
    destruct (fromHex b) eqn:Eb; [|exfalso; apply (Hv b); [right; now left|assumption]].
    cbn [app]. rewrite IH; [reflexivity|exact He|].
    intros c Hc. apply Hv. right; now right.
Qed.

(** * BCD *)
Lemma digits_cons c s : digits (c :: s) = true <-> (48 <= c <= 57) /\ digits s = true.
Proof. unfold digits. cbn [forallb]. rewrite andb_true_iff. split; intros [? ?]; split; auto; lia. Qed.
Lemma digits_app a b : digits (a ++ b) = true <-> digits a = true /\ digits b = true.
Proof. unfold digits. rewrite forallb_app, andb_true_iff. tauto. Qed.
Lemma digits_In s c : digits s = true -> In c s -> 48 <= c <= 57.
Proof. unfold digits. rewrite forallb_forall. intros H Hc. specialize (H c Hc). lia. Qed.

Lemma fromHex_digit c : 48 <= c <= 57 -> fromHex c = Some (c - 48).
Proof. intros H. unfold fromHex. assert (E : (48 <=? c) && (c <=? 57) = true) by lia. now rewrite E. Qed.

Lemma fromHex_f : fromHex 102 = Some 15.
Proof. reflexivity. Qed.

Definition upHex (c : N) : bool := ((48 <=? c) && (c <=? 57)) || ((65 <=? c) && (c <=? 70)).

Lemma hexU_fromHex c d : upHex c = true -> fromHex c = Some d -> hexU d = c.
Proof.
  unfold upHex, fromHex, hexU. intros H1 H2.
  destruct ((48 <=? c) && (c <=? 57)) eqn:E1; [inv H2; destruct (N.ltb_spec (c-48) 10); lia|].
  destruct ((97 <=? c) && (c <=? 102)) eqn:E2; [inv H2; lia|].
  destruct ((65 <=? c) && (c <=? 70)) eqn:E3; inv H2.
  destruct (N.ltb_spec (c-55) 10); lia.
Qed.
Lemma upHex_Some c : upHex c = true -> exists d, fromHex c = Some d /\ d < 16.
Proof.
  unfold upHex, fromHex. intros H1.
  destruct ((48 <=? c) && (c <=? 57)) eqn:E1; [eexists; split; [reflexivity|lia]|].
  destruct ((97 <=? c) && (c <=? 102)) eqn:E2; [eexists; split; [reflexivity|lia]|].
  destruct ((65 <=? c) && (c <=? 70)) eqn:E3; [eexists; split; [reflexivity|lia]|discriminate].
Qed.

Lemma bcdHex_Str2Byte s : Nat.even (length s) = true -> forallb upHex s = true ->
  bcdHex (Str2Byte s) = s.
Proof.
  induction s as [| a | a b t IH] using list_pair_ind; intros He Hu.
  - reflexivity.
  - discriminate.
  - cbn [forallb] in Hu. apply andb_true_iff in Hu as [Ha Hu]. apply andb_true_iff in Hu as [Hb Hu].
    destruct (upHex_Some a Ha) as (x & Ex & Lx). destruct (upHex_Some b Hb) as (y & Ey & Ly).
    rewrite (Str2Byte_valid a b t x y Ex Ey). unfold bcdHex. cbn [flat_map app].
    replace ((x * 16 + y) / 16) with x by lia. replace ((x * 16 + y) mod 16) with y by lia.
    rewrite (hexU_fromHex a x), (hexU_fromHex b y) by assumption.
    f_equal. f_equal. apply IH; auto.
Qed.

Lemma bcdHex_app a b : bcdHex (a ++ b) = bcdHex a ++ bcdHex b.
Proof. unfold bcdHex. now rewrite flat_map_app. Qed.

Lemma bcdHex_length b : length (bcdHex b) = (2 * length b)%nat.
Proof. induction b as [|x b IH]; [reflexivity|]. unfold bcdHex in *. cbn [flat_map app length]. lia. Qed.

Lemma digits_upHex s : digits s = true -> forallb upHex s = true.
Proof.
  unfold digits. rewrite !forallb_forall. intros H c Hc. specialize (H c Hc).
  unfold upHex. now rewrite H.
Qed.

Lemma afterLastF_none s : ~ In 70 s -> afterLastF s = 0%nat.
Proof.
  induction s as [|c s IH]; [reflexivity|]. intros H. cbn [afterLastF].
  rewrite IH by (intros H'; apply H; now right).
  destruct (N.eqb_spec c 70) as [->|]; [exfalso; apply H; now left|reflexivity].
Qed.

Lemma afterLastF_spec s : 
  afterLastF s = 0%nat /\ ~ In 70 s \/
  exists p t, s = p ++ 70 :: t /\ ~ In 70 t /\ afterLastF s = S (length p).
Proof.
  induction s as [|c s IH]; [left; auto|]. cbn [afterLastF].
  destruct IH as [[E H]|(p & t & -> & H & E)].
  - rewrite E. destruct (N.eqb_spec c 70) as [->|N].
    + right. exists [], s. auto.
    + left. split; [reflexivity|]. intros [?|?]; auto.
  - rewrite E. right. exists (c :: p), t. auto.
Qed.

Lemma afterLastF_app_none p t : ~ In 70 t -> afterLastF (p ++ t) = afterLastF p.
Proof.
  intros H. induction p as [|c p IH]; [apply afterLastF_none; assumption|].
  cbn [app afterLastF]. now rewrite IH.
Qed.
Lemma afterLastF_repeat k : afterLastF (repeat 70 k) = k.
Proof. induction k as [|k IH]; [reflexivity|]. cbn [repeat afterLastF]. rewrite IH. destruct k; reflexivity. Qed.

Lemma digits_noF s : digits s = true -> ~ In 70 s.
Proof. intros H Hin. apply (digits_In s 70 H) in Hin. lia. Qed.

(** long digit strings are written as they are *)
Lemma numberStr2BCD_long s : (8 <= length s)%nat -> numberStr2BCD s = Str2Byte s.
Proof. intros H. unfold numberStr2BCD. replace (8 - length s)%nat with 0%nat by lia. reflexivity. Qed.

Lemma bcd_roundtrip_long s : digits s = true -> (8 <= length s)%nat ->
  Nat.even (length s) = true -> bcd2NumberStr (numberStr2BCD s) = s.
Proof.
  intros Hd Hl He. rewrite numberStr2BCD_long by assumption. unfold bcd2NumberStr.
  rewrite bcdHex_Str2Byte; [|assumption|now apply digits_upHex].
  rewrite afterLastF_none by (now apply digits_noF). reflexivity.
Qed.

Lemma Str2Byte_upper_f k t : Str2Byte (repeat 102 k ++ t) = Str2Byte (repeat 70 k ++ t).
Proof.
  revert t. induction k as [k IH] using lt_wf_ind. intros t.
  destruct k as [|[|k]].
  - reflexivity.
  - cbn [repeat app]. destruct t as [|b t]; [reflexivity|].
    cbn [Str2Byte]. reflexivity.
  - cbn [repeat app]. cbn [Str2Byte]. cbn [fromHex N.leb N.compare Pos.compare Pos.compare_cont andb].
    change (fromHex 102) with (Some 15). change (fromHex 70) with (Some 15).
    rewrite IH by lia. reflexivity.
Qed.

Lemma even_8 : Nat.even 8 = true. Proof. reflexivity. Qed.

Lemma bcd_roundtrip_short s : digits s = true -> (length s <= 8)%nat ->
  bcd2NumberStr (numberStr2BCD s) = s.
Proof.
  intros Hd Hl. unfold numberStr2BCD. rewrite Str2Byte_upper_f. unfold bcd2NumberStr.
  rewrite bcdHex_Str2Byte.
  - rewrite afterLastF_app_none by (now apply digits_noF). rewrite afterLastF_repeat.
    destruct (Nat.eqb_spec (8 - length s) 9); [lia|].
    rewrite skipn_app, repeat_length, Nat.sub_diag.
    rewrite skipn_all2 by (rewrite repeat_length; lia). reflexivity.
  - rewrite app_length, repeat_length.
    replace (8 - length s + length s)%nat with 8%nat by lia. reflexivity.
  - rewrite forallb_app, (digits_upHex s Hd), andb_true_r.
    apply forallb_forall. intros c Hc. apply repeat_spec in Hc. now subst.
Qed.

Lemma Str2Byte_length s : Nat.even (length s) = true -> forallb upHex s = true ->
  (length (Str2Byte s) * 2 = length s)%nat.
Proof.
  intros He Hu. rewrite <- (bcdHex_Str2Byte s He Hu) at 2. rewrite bcdHex_length. lia.
Qed.

Lemma numberStr2BCD_length s : digits s = true -> (8 <= length s)%nat ->
  Nat.even (length s) = true -> (length (numberStr2BCD s) * 2 = length s)%nat.
Proof.
  intros Hd Hl He. rewrite numberStr2BCD_long by assumption.
  apply Str2Byte_length; [assumption|now apply digits_upHex].
Qed.

Lemma numberStr2BCD_ok s : bytes_ok (numberStr2BCD s) = true.
Proof. apply Str2Byte_ok. Qed.

(** reading is injective on fields made of decimal nibbles *)
Lemma bcdHex_digits b : forallb bcdByte b = true -> digits (bcdHex b) = true.
Proof.
  induction b as [|x b IH]; [reflexivity|]. cbn [forallb]. unfold bcdByte at 1.
  rewrite !andb_true_iff, !N.ltb_lt. intros [[H1 H2] H3].
  unfold bcdHex. cbn [flat_map app]. rewrite !digits_cons. unfold hexU.
  destruct (N.ltb_spec (x / 16) 10); [|lia]. destruct (N.ltb_spec (x mod 16) 10); [|lia].
  repeat split; try lia. apply IH. assumption.
Qed.

Lemma bcdHex_inj b1 : forall b2, forallb bcdByte b1 = true -> forallb bcdByte b2 = true ->
  bcdHex b1 = bcdHex b2 -> b1 = b2.
Proof.
  induction b1 as [|x b1 IH]; intros [|y b2] H1 H2 E; try reflexivity; try discriminate.
  cbn [forallb] in H1, H2. unfold bcdByte at 1 in H1. unfold bcdByte at 1 in H2.
  rewrite !andb_true_iff, !N.ltb_lt in H1, H2.
  unfold bcdHex in E. cbn [flat_map app] in E. injection E as E1 E2 E3.
  unfold hexU in E1, E2. destruct H1 as [[A1 A2] A3], H2 as [[B1 B2] B3].
  destruct (N.ltb_spec (x / 16) 10); [|lia]. destruct (N.ltb_spec (y / 16) 10); [|lia].
  destruct (N.ltb_spec (x mod 16) 10); [|lia]. destruct (N.ltb_spec (y mod 16) 10); [|lia].
  f_equal; [lia|]. apply IH; auto.
Qed.

Lemma bcd2NumberStr_digits b : forallb bcdByte b = true -> bcd2NumberStr b = bcdHex b.
Proof.
  intros H. unfold bcd2NumberStr. rewrite afterLastF_none; [reflexivity|].
  apply digits_noF, bcdHex_digits, H.
Qed.

(** writing back a decimal field reproduces it when it has at least 4 bytes *)
Lemma numberStr2BCD_bcd2NumberStr b : forallb bcdByte b = true -> (4 <= length b)%nat ->
  numberStr2BCD (bcd2NumberStr b) = b.
Proof.
  intros H Hl. rewrite bcd2NumberStr_digits by assumption.
  rewrite numberStr2BCD_long by (rewrite bcdHex_length; lia). clear Hl.
  induction b as [|x b IH]; [reflexivity|].
  cbn [forallb] in H. unfold bcdByte at 1 in H. rewrite !andb_true_iff, !N.ltb_lt in H.
  destruct H as [[H1 H2] H3]. unfold bcdHex. cbn [flat_map app].
  rewrite (Str2Byte_valid _ _ _ (x / 16) (x mod 16)) by (apply fromHex_hexU; lia).
  fold (bcdHex b). rewrite IH by assumption. f_equal. lia.
Qed.

(** * Words *)
Lemma be16_put16 n : n < 65536 -> be16 (put16 n) = n.
Proof. intros H. unfold be16, put16. lia. Qed.
Lemma be32_put32 n : n < 4294967296 -> be32 (put32 n) = n.
Proof. intros H. unfold be32, put32. lia. Qed.
Lemma put16_ok n : bytes_ok (put16 n) = true.
Proof. unfold put16. rewrite !bytes_ok_cons. repeat split; try lia. Qed.
Lemma put32_ok n : bytes_ok (put32 n) = true.
Proof. unfold put32. rewrite !bytes_ok_cons. repeat split; try lia. Qed.

(** * Indexed reads *)
(** [reads i m w a]: at position [i], when the bytes there start with [w], the reader
    [m] returns [a] and stops just after [w]; whatever precedes, follows, or sits in
    the spare capacity. *)
Definition reads {A} (i : nat) (m : rd A) (w : bytes) (a : A) : Prop :=
  forall pre post sp, length pre = i ->
    m (mkSlice (pre ++ w ++ post) sp) i = Ok (a, (i + length w)%nat).

Lemma reads_ret {A} i (a : A) : reads i (rd_ret a) [] a.
Proof. intros pre post sp H. unfold rd_ret. cbn [length]. rewrite Nat.add_0_r. reflexivity. Qed.

Lemma reads_bind {A B} i (m : rd A) (f : A -> rd B) w1 w2 a b :
  reads i m w1 a -> reads (i + length w1) (f a) w2 b -> reads i (rd_bind m f) (w1 ++ w2) b.
Proof.
  intros H1 H2 pre post sp E. unfold rd_bind.
  rewrite <- app_assoc. rewrite (H1 pre (w2 ++ post) sp E).
  specialize (H2 (pre ++ w1) post sp). rewrite <- app_assoc in H2. rewrite H2.
  - rewrite app_length, Nat.add_assoc. reflexivity.
  - rewrite app_length. now rewrite E.
Qed.

Lemma reads_idx i : reads i rd_idx [] i.
Proof. intros pre post sp H. unfold rd_idx. cbn. now rewrite Nat.add_0_r. Qed.

Lemma reads_sub i n w : n = Z.of_nat (length w) -> reads i (readSub n) w w.
Proof.
  intros -> pre post sp E. unfold readSub, sl_sub, sl_cap. cbn [sl_data sl_spare].
  rewrite !app_length. subst i.
  assert (C : ((Z.of_nat (length pre) <=? Z.of_nat (length pre) + Z.of_nat (length w))%Z
     && (Z.of_nat (length pre) + Z.of_nat (length w) <=?
         Z.of_nat (length pre + (length w + length post) + length sp))%Z) = true) by lia.
  rewrite C.
  replace (Z.to_nat (Z.of_nat (length pre) + Z.of_nat (length w)))%nat
    with (length pre + length w)%nat by lia.
  f_equal. f_equal.
  rewrite skipn_app, skipn_app, skipn_all, Nat.sub_diag. cbn [skipn app].
  replace (length pre + length w - length pre)%nat with (length w) by lia.
  rewrite <- app_assoc, firstn_app, firstn_all, Nat.sub_diag. cbn. apply app_nil_r.
Qed.

Lemma reads_byte i b : reads i ReadByte [b] b.
Proof.
  intros pre post sp E. unfold ReadByte, sl_at. cbn [sl_data]. subst i.
  rewrite nth_error_app2 by lia. rewrite Nat.sub_diag. cbn. now rewrite Nat.add_1_r.
Qed.

Lemma reads_map {A B} i (m : rd A) (f : A -> B) w a :
  reads i m w a -> reads i (rd_bind m (fun x => rd_ret (f x))) w (f a).
Proof. intros H. rewrite <- (app_nil_r w). eapply reads_bind; [exact H|apply reads_ret]. Qed.

Lemma reads_word i n : n < 65536 -> reads i ReadWord (put16 n) n.
Proof.
  intros H. unfold ReadWord. rewrite <- (be16_put16 n H) at 2.
  apply (reads_map i (readSub 2) be16). apply reads_sub. reflexivity.
Qed.
Lemma reads_dword i n : n < 4294967296 -> reads i ReadDoubleWord (put32 n) n.
Proof.
  intros H. unfold ReadDoubleWord. rewrite <- (be32_put32 n H) at 2.
  apply (reads_map i (readSub 4) be32). apply reads_sub. reflexivity.
Qed.
Lemma reads_string i n w : n = Z.of_nat (length w) -> reads i (ReadString n) w w.
Proof. apply reads_sub. Qed.
Lemma reads_bcd i n w : n = Z.of_nat (length w) -> reads i (ReadBCD n) w (bcd2NumberStr w).
Proof. intros H. unfold ReadBCD. apply (reads_map i (readSub n) bcd2NumberStr). now apply reads_sub. Qed.
Lemma reads_gbk o i n w : n = Z.of_nat (length w) ->
  reads i (ReadGBK o n) w (match o_gbk_dec o w with Some s => s | None => [] end).
Proof.
  intros H. unfold ReadGBK.
  apply (reads_map i (readSub n) (fun b => match o_gbk_dec o b with Some s => s | None => [] end)).
  now apply reads_sub.
Qed.

(** * Specification-side layouts *)
Lemma put16_U16 n : n < 65536 -> put16 n = U16 n.
Proof. intros H. unfold put16, U16. f_equal; lia. Qed.
Lemma put32_U32 n : n < 4294967296 -> put32 n = U32 n.
Proof. intros H. unfold put32, U32. f_equal; lia. Qed.
Lemma Str2Byte_BCD s : digits s = true -> Str2Byte s = BCD s.
Proof.
  induction s as [| a | a b t IH] using list_pair_ind; intros Hd; try reflexivity.
  rewrite !digits_cons in Hd. destruct Hd as (Ha & Hb & Hd).
  cbn [Str2Byte BCD]. rewrite !fromHex_digit by assumption. now rewrite IH.
Qed.
Lemma numberStr2BCD_BCD s : digits s = true -> (8 <= length s)%nat -> numberStr2BCD s = BCD s.
Proof. intros Hd Hl. rewrite numberStr2BCD_long by assumption. now apply Str2Byte_BCD. Qed.
Lemma Str2Byte_ff k t : Str2Byte (repeat 102 (2 * k) ++ t) = repeat 255 k ++ Str2Byte t.
Proof.
  induction k as [|k IH]; [reflexivity|].
  replace (2 * S k)%nat with (S (S (2 * k)))%nat by lia. cbn [repeat app].
  rewrite (Str2Byte_valid 102 102 _ 15 15) by reflexivity. now rewrite IH.
Qed.
Lemma numberStr2BCD_short s : digits s = true -> (length s < 8)%nat -> Nat.even (length s) = true ->
  numberStr2BCD s = repeat 255 (4 - length s / 2) ++ BCD s.
Proof.
  intros Hd Hl He. unfold numberStr2BCD. apply Nat.even_spec in He as [k Hk].
  assert (Ek : (length s / 2 = k)%nat) by (rewrite Hk, Nat.mul_comm; apply Nat.div_mul; lia).
  replace (8 - length s)%nat with (2 * (4 - length s / 2))%nat by lia.
  rewrite Str2Byte_ff. now rewrite Str2Byte_BCD.
Qed.
