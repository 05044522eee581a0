(** Bodies that decode and encode to themselves (C129) *)
From Verif Require Import Base HexM TimeM HashM HeaderM ParamsM MsgM SpecCodec SpecTrunc SpecCanon HexP TimeP HeaderP ParamsP MsgP TruncP CodecP CodecP3 PacketM FrameP SizeP.
From Coq Require Import ZifyN ZifyNat ZifyBool Zify.
Local Open Scope N_scope.
Ltac Zify.zify_post_hook ::= Z.to_euclidean_division_equations.

Lemma cut n (w : bytes) : (n <= length w)%nat -> bytes_ok w = true ->
  exists a r, w = a ++ r /\ length a = n /\ bytes_ok a = true /\ bytes_ok r = true.
Proof.
  intros Hn Hb. exists (firstn n w), (skipn n w). split; [symmetry; apply firstn_skipn|]. split; [apply firstn_length_le, Hn|].
  rewrite <- (firstn_skipn n w) in Hb. apply bytes_ok_app in Hb. exact Hb.
Qed.
Lemma put_be16 w : length w = 2%nat -> bytes_ok w = true -> put16 (be16 w) = w.
Proof.
  intros H Hb. destruct w as [|a [|b [|? ?]]]; try discriminate. apply bytes_ok_cons in Hb as [Ha Hb]. apply bytes_ok_cons in Hb as [Hb _].
  unfold put16, be16. f_equal; [lia|]. f_equal. lia.
Qed.
Lemma put_be32 w : length w = 4%nat -> bytes_ok w = true -> put32 (be32 w) = w.
Proof.
  intros H Hb. destruct w as [|a [|b [|c [|d [|? ?]]]]]; try discriminate. apply bytes_ok_cons in Hb as [Ha Hb]. apply bytes_ok_cons in Hb as [Hb Hc].
  apply bytes_ok_cons in Hc as [Hc Hd]. apply bytes_ok_cons in Hd as [Hd _].
  unfold put32, be32. repeat (f_equal; try lia).
Qed.
Lemma rd_word i w : length w = 2%nat -> reads i ReadWord w (be16 w).
Proof. intros H. unfold ReadWord. apply (reads_map i (readSub 2) be16), reads_sub. rewrite H. reflexivity. Qed.
Lemma rd_dword i w : length w = 4%nat -> reads i ReadDoubleWord w (be32 w).
Proof. intros H. unfold ReadDoubleWord. apply (reads_map i (readSub 4) be32), reads_sub. rewrite H. reflexivity. Qed.
Lemma rd_byte i w : length w = 1%nat -> reads i ReadByte w (nth 0 w 0).
Proof. intros H. destruct w as [|b [|? ?]]; try discriminate. apply reads_byte. Qed.
Lemma rd_time i now w : length w = 6%nat -> reads i (ReadTime now) w (ParseTime now (bcd2NumberStr w)).
Proof. intros H. unfold ReadTime. apply (reads_map i (ReadBCD 6) (ParseTime now)), reads_bcd. rewrite H. reflexivity. Qed.

(** * BCD *)
Lemma Str2Byte_le s : (2 * length (Str2Byte s) <= length s)%nat.
Proof.
  induction s as [|a|a b t IH] using list_pair_ind; cbn [Str2Byte length]; try lia.
  destruct (fromHex a); [|cbn; lia]. destruct (fromHex b); cbn [length]; lia.
Qed.
Lemma bcdHex_F b : bytes_ok b = true -> (In 70 (bcdHex b) <-> ~ no_F b).
Proof.
  intros Hb. unfold no_F. induction b as [|x b IH].
  - split; [intros []|]. intros H. destruct H. constructor.
  - apply bytes_ok_cons in Hb as [Hx Hb]. specialize (IH Hb). unfold bcdHex. cbn [flat_map app]. fold (bcdHex b). cbn [In].
    assert (U : forall d, d < 16 -> (hexU d = 70 <-> d = 15)).
    { intros d Hd. unfold hexU. destruct (N.ltb_spec d 10); lia. }
    rewrite (U (x / 16)), (U (x mod 16)) by lia. rewrite IH. rewrite Forall_cons_iff. split.
    + intros [H|[H|H]] ([H1 H2] & H3); auto.
    + intros H. destruct (N.eq_dec (x / 16) 15) as [E|E]; [auto|]. destruct (N.eq_dec (x mod 16) 15) as [E'|E']; [auto|].
      right. right. intros F. apply H. auto.
Qed.
Lemma no_F_dec b : no_F b \/ ~ no_F b.
Proof.
  unfold no_F. induction b as [|x b [IH|IH]]; [left; constructor| |].
  - destruct (N.eq_dec (x / 16) 15) as [E|E]; [right; intros F; inversion F; tauto|].
    destruct (N.eq_dec (x mod 16) 15) as [E'|E']; [right; intros F; inversion F; tauto|]. left. constructor; auto.
  - right. intros F. inversion F. auto.
Qed.
Lemma Str2Byte_bcdHex b : bytes_ok b = true -> Str2Byte (bcdHex b) = b.
Proof.
  intros H. induction b as [|x b IH]; [reflexivity|]. apply bytes_ok_cons in H as [Hx Hb]. unfold bcdHex. cbn [flat_map app].
  rewrite (Str2Byte_valid _ _ _ (x / 16) (x mod 16)) by (apply fromHex_hexU; lia).
  fold (bcdHex b). rewrite IH by assumption. f_equal. lia.
Qed.
Lemma bcd_again4 b : bytes_ok b = true -> (4 <= length b)%nat -> no_F b -> numberStr2BCD (bcd2NumberStr b) = b.
Proof.
  intros Hb Hl HF. unfold bcd2NumberStr. rewrite afterLastF_none.
  - cbn [Nat.eqb skipn]. rewrite numberStr2BCD_long by (rewrite bcdHex_length; lia). apply Str2Byte_bcdHex, Hb.
  - rewrite bcdHex_F by assumption. auto.
Qed.
Lemma afterLastF_some s : In 70 s -> (1 <= afterLastF s)%nat.
Proof.
  induction s as [|c s IH]; [intros []|]. intros [->|H]; cbn [afterLastF].
  - destruct (afterLastF s); cbn; lia.
  - specialize (IH H). destruct (afterLastF s); lia.
Qed.
Lemma bcd_shorter b : bytes_ok b = true -> length b = 6%nat -> ~ no_F b -> (length (numberStr2BCD (bcd2NumberStr b)) < 6)%nat.
Proof.
  intros Hb Hl HF. apply bcdHex_F in HF; [|assumption]. apply afterLastF_some in HF. unfold numberStr2BCD.
  pose proof (Str2Byte_le (repeat 102 (8 - length (bcd2NumberStr b)) ++ bcd2NumberStr b)) as H. rewrite app_length, repeat_length in H.
  assert (L : (length (bcd2NumberStr b) <= 11)%nat).
  { unfold bcd2NumberStr. destruct (Nat.eqb_spec (afterLastF (bcdHex b)) 9); [cbn; lia|]. rewrite skipn_length, bcdHex_length. lia. }
  lia.
Qed.
Lemma bcd6_iff t r : bytes_ok t = true -> length t = 6%nat -> (numberStr2BCD (bcd2NumberStr t) = t ++ r <-> r = [] /\ no_F t).
Proof.
  intros Hb Hl. destruct (no_F_dec t) as [HF|HF].
  - rewrite bcd_again4 by (assumption || lia). split.
    + intros E. rewrite <- (app_nil_r t) in E at 1. apply app_inv_head in E. auto.
    + intros [-> _]. now rewrite app_nil_r.
  - pose proof (bcd_shorter t Hb Hl HF) as H. split; [|tauto]. intros E. rewrite E, app_length in H. lia.
Qed.

Lemma bcdHex_nibbles b : bcdHex b = map hexU (nibbles b).
Proof. induction b as [|x b IH]; [reflexivity|]. unfold bcdHex, nibbles in *. cbn [flat_map app map]. now rewrite IH. Qed.
Lemma nibbles_small b : bytes_ok b = true -> Forall (fun d => d < 16) (nibbles b).
Proof.
  induction b as [|x b IH]; [constructor|]. intros H. apply bytes_ok_cons in H as [Hx Hb]. unfold nibbles in *. cbn [flat_map app].
  constructor; [lia|]. constructor; [lia|]. auto.
Qed.
Lemma hexU_F d : d < 16 -> (hexU d = 70 <-> d = 15).
Proof. intros H. unfold hexU. destruct (N.ltb_spec d 10); lia. Qed.
Lemma upHex_hexU d : d < 16 -> upHex (hexU d) = true.
Proof. intros H. unfold upHex, hexU. destruct (N.ltb_spec d 10); lia. Qed.
Lemma upHex_map ds : Forall (fun d => d < 16) ds -> forallb upHex (map hexU ds) = true.
Proof. induction 1 as [|d ds Hd _ IH]; [reflexivity|]. cbn [map forallb]. now rewrite upHex_hexU, IH. Qed.
Lemma hexU_repeat ds n : Forall (fun d => d < 16) ds -> map hexU ds = repeat 70 n -> ds = repeat 15 n.
Proof.
  intros H. revert n. induction H as [|d ds Hd _ IH]; intros [|n] E; try discriminate; [reflexivity|]. cbn [map repeat] in *. injection E as E1 E2.
  apply hexU_F in E1; [|assumption]. subst d. f_equal. auto.
Qed.
Lemma F_in_map ds : Forall (fun d => d < 16) ds -> (In 70 (map hexU ds) <-> In 15 ds).
Proof.
  induction 1 as [|d ds Hd _ IH]; [tauto|]. cbn [map In]. rewrite IH, hexU_F by assumption. split; intros [H|H]; auto.
Qed.
(** four bytes: the half bytes of 15 in front come back *)
Lemma bcd4_iff b : bytes_ok b = true -> length b = 4%nat ->
  (numberStr2BCD (bcd2NumberStr b) = b <-> exists n ds, nibbles b = repeat 15 n ++ ds /\ ~ In 15 ds).
Proof.
  intros Hb Hl. pose proof (nibbles_small b Hb) as Hs. pose proof (bcdHex_nibbles b) as En. pose proof (bcdHex_length b) as Ll. rewrite Hl in Ll.
  set (p := afterLastF (bcdHex b)).
  assert (Hp : (p <= 8)%nat /\ ~ In 70 (skipn p (bcdHex b)) /\ (p = O \/ exists q, p = S q /\ nth q (bcdHex b) 0 = 70)).
  { unfold p. destruct (afterLastF_spec (bcdHex b)) as [[E H]|(q & t & E & H & E')].
    - rewrite E. cbn [skipn]. split; [lia|]. split; [exact H|auto].
    - rewrite E'. rewrite E in Ll. rewrite app_length in Ll. cbn [length] in Ll. split; [lia|]. rewrite E. split.
      + replace (S (length q)) with (1 + length q)%nat by lia. rewrite <- skipn_skipn', skipn_app, skipn_all, Nat.sub_diag. exact H.
      + right. exists (length q). split; [reflexivity|]. rewrite app_nth2, Nat.sub_diag by lia. reflexivity. }
  destruct Hp as (P8 & PF & PL).
  assert (E : numberStr2BCD (bcd2NumberStr b) = Str2Byte (repeat 70 p ++ skipn p (bcdHex b))).
  { unfold bcd2NumberStr. fold p. destruct (Nat.eqb_spec p 9); [lia|]. unfold numberStr2BCD. rewrite skipn_length, Ll.
    replace (8 - (2 * 4 - p))%nat with p by lia. apply Str2Byte_upper_f. }
  assert (I : numberStr2BCD (bcd2NumberStr b) = b <-> repeat 70 p ++ skipn p (bcdHex b) = bcdHex b).
  { rewrite E. split; intros H.
    - apply (f_equal bcdHex) in H. rewrite bcdHex_Str2Byte in H; [exact H| |].
      + rewrite app_length, repeat_length, skipn_length, Ll. replace (p + (2 * 4 - p))%nat with 8%nat by lia. reflexivity.
      + rewrite forallb_app. apply andb_true_iff. split.
        * apply forallb_forall. intros c Hc. apply repeat_spec in Hc. subst c. reflexivity.
        * rewrite En, skipn_map. apply upHex_map. apply Forall_forall. intros d Hd. rewrite List.Forall_forall in Hs. apply Hs.
          rewrite <- (firstn_skipn p). apply in_or_app. auto.
    - rewrite H. apply Str2Byte_bcdHex, Hb. }
  rewrite I. split.
  - intros H. exists p, (skipn p (nibbles b)). split.
    + rewrite <- (firstn_skipn p (nibbles b)) at 1. f_equal. apply hexU_repeat.
      * apply Forall_forall. intros d Hd. rewrite List.Forall_forall in Hs. apply Hs. rewrite <- (firstn_skipn p). apply in_or_app. auto.
      * rewrite <- firstn_map, <- En, <- H. rewrite firstn_app, repeat_length, Nat.sub_diag. cbn [firstn]. rewrite app_nil_r.
        apply firstn_all2. rewrite repeat_length. lia.
    + intros Hi. apply PF. rewrite En, skipn_map. apply in_map_iff. exists 15. split; [reflexivity|exact Hi].
  - intros (n & ds & Hn & Hd).
    assert (En' : bcdHex b = repeat 70 n ++ map hexU ds).
    { rewrite En, Hn, map_app. f_equal. clear. induction n; [reflexivity|]. cbn [repeat map]. now rewrite IHn. }
    assert (Ep : p = n).
    { unfold p. rewrite En', afterLastF_app_none; [apply afterLastF_repeat|]. rewrite F_in_map; [exact Hd|].
      apply Forall_forall. intros d Hi. rewrite List.Forall_forall in Hs. apply Hs. rewrite Hn. apply in_or_app. auto. }
    rewrite Ep, En'. f_equal. rewrite skipn_app, skipn_all2, repeat_length, Nat.sub_diag by (rewrite repeat_length; lia). reflexivity.
Qed.
Lemma bcd_short_length b : bytes_ok b = true -> (length b <= 4)%nat -> length (numberStr2BCD (bcd2NumberStr b)) = 4%nat.
Proof.
  intros Hb Hl. pose proof (bcdHex_length b) as Ll. pose proof (nibbles_small b Hb) as Hs.
  assert (P8 : (afterLastF (bcdHex b) <= 8)%nat).
  { destruct (afterLastF_spec (bcdHex b)) as [[-> _]|(q & t & E & _ & ->)]; [lia|]. rewrite E, app_length in Ll. cbn [length] in Ll. lia. }
  unfold bcd2NumberStr, numberStr2BCD. destruct (Nat.eqb_spec (afterLastF (bcdHex b)) 9); [lia|]. rewrite Str2Byte_upper_f.
  set (x := repeat 70 _ ++ _). assert (Lx : length x = 8%nat) by (unfold x; rewrite app_length, repeat_length, skipn_length; lia).
  assert (Hx : bcdHex (Str2Byte x) = x).
  { apply bcdHex_Str2Byte; [now rewrite Lx|]. unfold x. rewrite forallb_app. apply andb_true_iff. split.
    - apply forallb_forall. intros c Hc. apply repeat_spec in Hc. subst c. reflexivity.
    - rewrite bcdHex_nibbles, skipn_map. apply upHex_map. apply Forall_forall. intros d Hd. rewrite List.Forall_forall in Hs. apply Hs.
      rewrite <- (firstn_skipn (afterLastF (map hexU (nibbles b)))). apply in_or_app. auto. }
  pose proof (bcdHex_length (Str2Byte x)) as L. rewrite Hx, Lx in L. lia.
Qed.
Lemma bcd_shorter5 b : bytes_ok b = true -> (5 <= length b)%nat -> ~ no_F b -> (length (numberStr2BCD (bcd2NumberStr b)) < length b)%nat.
Proof.
  intros Hb Hl HF. apply bcdHex_F in HF; [|assumption]. apply afterLastF_some in HF. unfold numberStr2BCD.
  pose proof (Str2Byte_le (repeat 102 (8 - length (bcd2NumberStr b)) ++ bcd2NumberStr b)) as H. rewrite app_length, repeat_length in H.
  assert (L : (length (bcd2NumberStr b) <= 2 * length b - 1)%nat).
  { unfold bcd2NumberStr. destruct (Nat.eqb_spec (afterLastF (bcdHex b)) 9); [cbn; lia|]. rewrite skipn_length, bcdHex_length. lia. }
  lia.
Qed.
Lemma bcd_value b : bytes_ok b = true -> (length b < 256)%nat -> let e := numberStr2BCD (bcd2NumberStr b) in
  N.of_nat (length e) mod 256 = N.of_nat (length b) -> length e = length b /\ (e = b <-> bcd_again b).
Proof.
  intros Hb Hl e He. unfold e in *. unfold bcd_again.
  destruct (Nat.lt_trichotomy (length b) 4) as [L|[L|L]].
  - rewrite bcd_short_length in He by (assumption || lia). change (N.of_nat 4 mod 256) with 4 in He. lia.
  - rewrite bcd_short_length by (assumption || lia). split; [lia|]. rewrite bcd4_iff by assumption. split.
    + intros H. split; [lia|]. auto.
    + intros (_ & [H|(_ & H)]); [|exact H]. exists O, (nibbles b). split; [reflexivity|].
      intros Hi. apply (F_in_map _ (nibbles_small b Hb)) in Hi. rewrite <- bcdHex_nibbles in Hi. now apply bcdHex_F in Hi.
  - destruct (no_F_dec b) as [HF|HF].
    + rewrite bcd_again4 by (assumption || lia). split; [reflexivity|]. split; [intros _; split; [lia|auto]|reflexivity].
    + pose proof (bcd_shorter5 b Hb ltac:(lia) HF) as H. rewrite N.mod_small in He by lia. lia.
Qed.
Lemma bcd_kept b : bytes_ok b = true -> bcd_again b -> numberStr2BCD (bcd2NumberStr b) = b.
Proof.
  intros Hb (H4 & [HF|(L & H)]); [now apply bcd_again4|]. now apply bcd4_iff.
Qed.

(** * Times *)
Lemma time_again now t : civil_valid now -> year_window now -> bytes_ok t = true -> length t = 6%nat ->
  let x := numberStr2BCD (FormatTime (ParseTime now (bcd2NumberStr t))) in
  length x = 6%nat /\ (x = t <-> time_field t).
Proof.
  intros V Y Hb Hl x. unfold x.
  destruct (time_read now t Hl Hb) as (u & Hu & Hor).
  pose proof (rd_time 0 now t Hl [] [] [] eq_refl) as R. specialize (Hu [] [] []). cbn [app length] in R, Hu. change 0%nat with O in R. rewrite R in Hu.
  assert (E : u = ParseTime now (bcd2NumberStr t)) by congruence. rewrite <- E.
  assert (Vu : civil_valid u) by (destruct Hor as [(H & _)|[-> _]]; assumption).
  split; [apply time_bcd_length, Vu|]. rewrite time_BCD by assumption. unfold time_field. split.
  - intros H. destruct Hor as [(V1 & Y1 & H1)|[-> Hno]]; [exists u; auto|]. destruct (Hno now V Y). now rewrite H.
  - intros (v & V1 & Y1 & H1). destruct Hor as [(_ & _ & H2)|[_ Hno]]; [auto|]. destruct (Hno v V1 Y1 H1).
Qed.

(** * Texts *)
Lemma trimNul_fill s : exists n, s = trimNul s ++ repeat 0 n /\ (length (trimNul s) + n = length s)%nat.
Proof.
  induction s as [|c s (n & E & L)]; [exists O; auto|]. cbn [trimNul]. destruct (trimNul s) as [|x t] eqn:Et.
  - cbn [app length] in *. destruct (N.eqb_spec c 0) as [->|Hc].
    + exists (S n). cbn [app length repeat]. rewrite <- E. split; [reflexivity|lia].
    + exists n. cbn [app length]. rewrite <- E. split; [reflexivity|lia].
  - exists n. cbn [app length] in *. rewrite E at 1. split; [reflexivity|lia].
Qed.
Lemma fillTo_trim n s : length s = n -> fillTo n (trimNul s) = s.
Proof.
  intros H. destruct (trimNul_fill s) as (k & E & L). unfold fillTo. destruct (Nat.ltb_spec n (length (trimNul s))); [lia|].
  replace (n - length (trimNul s))%nat with k by lia. now rewrite <- E.
Qed.
Lemma fillOnly_trim n s : length s = n -> fillOnly n (trimNul s) = s.
Proof.
  intros H. destruct (trimNul_fill s) as (k & E & L). unfold fillOnly. replace (n - length (trimNul s))%nat with k by lia. now rewrite <- E.
Qed.

(** * Bodies *)
Lemma dec_is {A} (m : rd A) w' r sp a b j : reads 0 m w' a -> m (mkSlice (w' ++ r) sp) O = Ok (b, j) -> b = a.
Proof. intros R H. specialize (R [] r sp eq_refl). cbn [app] in R. rewrite R in H. congruence. Qed.
Lemma app_nil_iff (a b : bytes) : a ++ b = a <-> b = [].
Proof. split; [|intros ->; apply app_nil_r]. intros H. apply (app_inv_head a). now rewrite app_nil_r. Qed.
Lemma app_head_iff (a b c : bytes) : a ++ b = a ++ c <-> b = c.
Proof. split; [apply app_inv_head|now intros ->]. Qed.
Lemma Ok_iff (a b : bytes) : Ok a = Ok b <-> a = b.
Proof. split; congruence. Qed.
Lemma app_len_iff (a b c d : bytes) : length a = length c -> (a ++ b = c ++ d <-> a = c /\ b = d).
Proof.
  intros H. split; [|intros [-> ->]; reflexivity]. revert c H. induction a as [|x a IH]; intros [|y c] H; try discriminate; cbn [app].
  - auto.
  - intros E. injection E as -> E. injection H as H. destruct (IH c H E) as [-> ->]. auto.
Qed.

Ltac cutn n a w Hb := let r := fresh "r" in let E := fresh "E" in let L := fresh "L" a in let B := fresh "B" a in let Hb' := fresh in
  destruct (cut n w) as (a & r & E & L & B & Hb'); [lia|exact Hb|]; rewrite E in *; clear Hb; clear E w; rename Hb' into Hb; rename r into w; rewrite ?app_length in *.

Lemma again_reply sn id rs (w : bytes) : length sn = 2%nat -> length id = 2%nat -> length rs = 1%nat ->
  bytes_ok sn = true -> bytes_ok id = true ->
  (WriteByte (WriteWord (WriteWord [] (be16 sn)) (be16 id)) (nth 0 rs 0) = sn ++ id ++ rs ++ w <-> length (sn ++ id ++ rs ++ w) = 5%nat).
Proof.
  intros L1 L2 L3 B1 B2. unfold WriteByte, WriteWord. rewrite !put_be16 by assumption. cbn [app].
  destruct rs as [|x [|? ?]]; try discriminate. cbn [nth]. rewrite <- app_assoc, !app_head_iff. rewrite !app_length. cbn [app length].
  split; [intros E|intros E].
  - injection E as <-. cbn. lia.
  - destruct w; [reflexivity|]. cbn in E. lia.
Qed.

Lemma again_query c t1 t2 a ax m s st :
  length c = 1%nat -> length t1 = 6%nat -> length t2 = 6%nat -> length a = 4%nat -> length ax = 4%nat -> length m = 1%nat -> length s = 1%nat -> length st = 1%nat ->
  bytes_ok t1 = true -> bytes_ok t2 = true -> bytes_ok a = true -> bytes_ok ax = true ->
  forall now, civil_valid now -> year_window now ->
  exists q x1 x2, reads 0 (mqueryDecode now) (c ++ t1 ++ t2 ++ a ++ ax ++ m ++ s ++ st ++ []) q
    /\ mqueryEncode q = Ok (c ++ x1 ++ x2 ++ a ++ ax ++ m ++ s ++ st) /\ length x1 = 6%nat /\ length x2 = 6%nat
    /\ (x1 = t1 <-> time_field t1) /\ (x2 = t2 <-> time_field t2).
Proof.
  intros Lc L1 L2 La Lx Lm Ls Lt B1 B2 Ba Bx now V Y.
  destruct (time_again now t1 V Y B1 L1) as [K1 I1]. destruct (time_again now t2 V Y B2 L2) as [K2 I2].
  eexists. eexists. eexists. split; [|split; [|split; [exact K1|split; [exact K2|split; [exact I1|exact I2]]]]].
  - unfold mqueryDecode. repeat (eapply reads_bind; [first [now apply rd_time|now apply rd_dword|now apply rd_byte]|]). apply reads_ret.
  - unfold mqueryEncode. cbn [q_start q_end q_chan q_alarm q_alarmx q_media q_stream q_storage].
    unfold WriteTime, WriteBCD, WriteByte, WriteDoubleWord. rewrite !put_be32 by assumption.
    destruct c as [|c0 [|? ?]]; try discriminate. destruct m as [|m0 [|? ?]]; try discriminate.
    destruct s as [|s0 [|? ?]]; try discriminate. destruct st as [|st0 [|? ?]]; try discriminate. cbn [nth app].
    rewrite <- !app_assoc. reflexivity.
Qed.

Lemma reply_iff (f : N -> N -> N -> body) w r sp b j : (5 <= length w)%nat -> bytes_ok w = true ->
  rd_bind ReadWord (fun sn => rd_bind ReadWord (fun id => rd_bind ReadByte (fun r => rd_ret (f sn id r)))) (mkSlice w sp) O = Ok (b, j) ->
  r = w -> exists sn id rs, b = f sn id rs /\ (WriteByte (WriteWord (WriteWord [] sn) id) rs = r <-> length r = 5%nat).
Proof.
  intros Hl Hb H ->. cutn 2%nat a w Hb. cutn 2%nat c w Hb. cutn 1%nat d w Hb.
  exists (be16 a), (be16 c), (nth 0 d 0). split; [|rewrite <- !app_length; now apply again_reply].
  replace (a ++ c ++ d ++ w) with ((a ++ c ++ d ++ []) ++ w) in H by (rewrite <- !app_assoc; reflexivity).
  eapply dec_is; [|exact H]. repeat (eapply reads_bind; [first [now apply rd_word|now apply rd_byte]|]). apply reads_ret.
Qed.

Lemma loc_iff h w sp b j o : (28 <= length w)%nat -> bytes_ok w = true -> dec0200 (mkSlice w sp) O = Ok (b, j) ->
  (encBody o h b = Ok w <-> length w = 28%nat /\ no_F (field 22 6 w)).
Proof.
  intros Hl Hb H. cutn 4%nat a w Hb. cutn 4%nat c w Hb. cutn 4%nat d w Hb. cutn 4%nat e w Hb. cutn 2%nat f w Hb. cutn 2%nat g w Hb. cutn 2%nat i w Hb. cutn 6%nat t w Hb.
  replace (a ++ c ++ d ++ e ++ f ++ g ++ i ++ t ++ w) with ((a ++ c ++ d ++ e ++ f ++ g ++ i ++ t ++ []) ++ w) in H by (rewrite <- !app_assoc; reflexivity).
  eapply dec_is in H; [|unfold dec0200; repeat (eapply reads_bind; [first [now apply rd_word|now apply rd_dword|apply reads_bcd; rewrite Lt; reflexivity]|]); apply reads_ret].
  subst b. cbn [encBody]. rewrite Ok_iff. unfold enc0200. cbn [l_alarm l_status l_lat l_lon l_altitude l_speed l_dir l_time].
  unfold WriteBCD, WriteWord, WriteDoubleWord. rewrite !put_be16, !put_be32 by assumption. cbn [app]. rewrite <- !app_assoc, !app_head_iff.
  rewrite bcd6_iff by assumption.
  assert (E : field 22 6 (a ++ c ++ d ++ e ++ f ++ g ++ i ++ t ++ w) = t).
  { unfold field. replace (a ++ c ++ d ++ e ++ f ++ g ++ i ++ t ++ w) with ((a ++ c ++ d ++ e ++ f ++ g ++ i) ++ t ++ w) by (rewrite <- !app_assoc; reflexivity).
    rewrite skipn_app, skipn_all2 by (rewrite !app_length; lia). rewrite !app_length. cbn [app].
    match goal with |- firstn 6 (skipn ?n _) = _ => replace n with O by lia end. cbn [skipn].
    rewrite firstn_app, firstn_all2 by lia. replace (6 - length t)%nat with O by lia. cbn [firstn]. apply app_nil_r. }
  rewrite E, ?app_length. rewrite La, Lc, Ld, Le, Lf, Lg, Li, Lt. split; intros [H H']; (split; [|exact H']).
  - subst w. reflexivity.
  - destruct w; [reflexivity|]. cbn in H. lia.
Qed.

Lemma field_mid (a t r : bytes) n m : length a = n -> length t = m -> field n m (a ++ t ++ r) = t.
Proof.
  intros <- <-. unfold field. rewrite skipn_app, skipn_all, Nat.sub_diag. cbn [app skipn].
  rewrite firstn_app, firstn_all, Nat.sub_diag. cbn [firstn]. apply app_nil_r.
Qed.
Lemma nil_length (w : bytes) : w = [] <-> length w = O.
Proof. destruct w; cbn; split; congruence || lia. Qed.

Lemma clock_iff now h w sp b j o : civil_valid now -> year_window now -> (6 <= length w)%nat -> bytes_ok w = true ->
  rd_bind (ReadTime now) (fun t => rd_ret (B8004 (Some t))) (mkSlice w sp) O = Ok (b, j) -> (encBody o h b = Ok w <-> time_field w).
Proof.
  intros V Y Hl Hb H. cutn 6%nat t w Hb. destruct (time_again now t V Y Bt Lt) as [K I].
  replace (t ++ w) with ((t ++ []) ++ w) in H by (now rewrite app_nil_r).
  eapply dec_is in H; [|eapply reads_bind; [now apply rd_time|apply reads_ret]]. subst b. cbn [encBody]. rewrite Ok_iff.
  unfold WriteTime, WriteBCD. cbn [app].
  rewrite <- (app_nil_r (numberStr2BCD _)), app_len_iff by congruence. rewrite I. split.
  - intros [F <-]. now rewrite app_nil_r.
  - intros F. assert (L : length (t ++ w) = 6%nat).
    { destruct F as (u & V1 & _ & ->). rewrite <- time_BCD by assumption. now apply time_bcd_length. }
    rewrite app_length in L. destruct w; [|cbn in L; lia]. rewrite app_nil_r in F. auto.
Qed.

Lemma query_iff now h w sp b j o : civil_valid now -> year_window now -> (24 <= length w)%nat -> bytes_ok w = true ->
  rd_bind (mqueryDecode now) (fun q => rd_ret (B9205 q)) (mkSlice w sp) O = Ok (b, j) ->
  (encBody o h b = Ok w <-> length w = 24%nat /\ time_field (field 1 6 w) /\ time_field (field 7 6 w)).
Proof.
  intros V Y Hl Hb H. cutn 1%nat c w Hb. cutn 6%nat t w Hb. cutn 6%nat u w Hb. cutn 4%nat a w Hb. cutn 4%nat x w Hb. cutn 1%nat m w Hb. cutn 1%nat s w Hb. cutn 1%nat k w Hb.
  destruct (again_query c t u a x m s k Lc Lt Lu La Lx Lm Ls Lk Bt Bu Ba Bx now V Y) as (q & x1 & x2 & R & En & K1 & K2 & I1 & I2).
  replace (c ++ t ++ u ++ a ++ x ++ m ++ s ++ k ++ w) with (((c ++ t ++ u ++ a ++ x ++ m ++ s ++ k ++ []) ++ []) ++ w) in H
    by (rewrite <- !app_assoc; reflexivity).
  eapply dec_is in H; [|eapply reads_bind; [exact R|apply reads_ret]]. subst b. cbn [encBody]. rewrite En, Ok_iff.
  rewrite app_head_iff, app_len_iff by congruence. rewrite app_len_iff by congruence. rewrite !app_head_iff.
  assert (F1 : field 1 6 (c ++ t ++ u ++ a ++ x ++ m ++ s ++ k ++ w) = t) by now apply field_mid.
  assert (F2 : field 7 6 (c ++ t ++ u ++ a ++ x ++ m ++ s ++ k ++ w) = u).
  { rewrite (app_assoc c t). apply field_mid; [rewrite app_length; lia|assumption]. }
  rewrite F1, F2, I1, I2. rewrite <- (app_nil_r k) at 1. rewrite app_head_iff.
  split; [intros (H1 & H2 & <-); cbn; repeat split; auto; lia|]. intros (H1 & H2 & H3). repeat split; auto. symmetry. apply nil_length. lia.
Qed.

Lemma media_iff now h w sp b j o : civil_valid now -> year_window now -> (34 <= length w)%nat -> bytes_ok w = true ->
  decBody o now K1205 h (mkSlice w sp) O = Ok (b, j) ->
  (encBody o h b = Ok w <-> length w = 34%nat /\ time_field (field 7 6 w) /\ time_field (field 13 6 w)).
Proof.
  intros V Y Hl Hb H. cbn [decBody] in H.
  cutn 2%nat sn w Hb. cutn 4%nat n w Hb.
  cutn 1%nat c w Hb. cutn 6%nat t w Hb. cutn 6%nat u w Hb. cutn 4%nat a w Hb. cutn 4%nat x w Hb. cutn 1%nat m w Hb. cutn 1%nat s w Hb. cutn 1%nat k w Hb.
  cutn 4%nat z w Hb.
  destruct (again_query c t u a x m s k Lc Lt Lu La Lx Lm Ls Lk Bt Bu Ba Bx now V Y) as (q & x1 & x2 & R & En & K1 & K2 & I1 & I2).
  assert (E : b = B1205 (be16 sn) (be32 n) q (be32 z)).
  { rewrite (rest_bind _ _ sn (be16 sn)) in H by now apply rd_word. unfold rd_bind at 1 in H.
    pose proof (rd_dword 2 n Ln sn (c ++ t ++ u ++ a ++ x ++ m ++ s ++ k ++ z ++ w) sp Lsn) as D. rewrite Lsn, D in H.
    unfold rd_bind at 1 in H. 
    pose proof (rd_rest_spec (sn ++ n) (c ++ t ++ u ++ a ++ x ++ m ++ s ++ k ++ z ++ w) sp) as D2. rewrite app_length, Lsn, <- app_assoc in D2.
    rewrite D2 in H. clear D D2. unfold rd_bind at 1, rd_lift in H.
    assert (M : reads 0 (mediaDecode now) ((c ++ t ++ u ++ a ++ x ++ m ++ s ++ k ++ []) ++ z ++ []) (q, be32 z)).
    { unfold mediaDecode. eapply reads_bind; [exact R|]. eapply reads_bind; [now apply rd_dword|apply reads_ret]. }
    specialize (M [] w sp eq_refl). cbn [app] in M. rewrite <- !app_assoc in M. cbn [app] in M. rewrite M in H. unfold rd_ret in H. cbn [fst snd] in H. congruence. }
  subst b. clear H. cbn [encBody]. rewrite En. cbn [rmap]. rewrite Ok_iff. unfold WriteBytes, WriteDoubleWord, WriteWord.
  rewrite put_be16, !put_be32 by assumption. cbn [app]. rewrite <- !app_assoc, !app_head_iff.
  rewrite app_len_iff by congruence. rewrite app_len_iff by congruence. rewrite !app_head_iff.
  assert (F1 : field 7 6 (sn ++ n ++ c ++ t ++ u ++ a ++ x ++ m ++ s ++ k ++ z ++ w) = t).
  { rewrite (app_assoc n c), (app_assoc sn). apply field_mid; [rewrite !app_length; lia|assumption]. }
  assert (F2 : field 13 6 (sn ++ n ++ c ++ t ++ u ++ a ++ x ++ m ++ s ++ k ++ z ++ w) = u).
  { rewrite (app_assoc c t), (app_assoc n), (app_assoc sn). apply field_mid; [rewrite !app_length; lia|assumption]. }
  rewrite F1, F2, I1, I2. rewrite <- (app_nil_r z) at 1. rewrite app_head_iff.
  split; [intros (H1 & H2 & <-); cbn; repeat split; auto; lia|]. intros (H1 & H2 & H3). repeat split; auto. symmetry. apply nil_length. lia.
Qed.

Lemma reg_reply_iff o now h w sp b j : (3 <= length w)%nat -> a_len (h_attr h) = N.of_nat (length w) -> bytes_ok w = true ->
  decBody o now K8100 h (mkSlice w sp) O = Ok (b, j) -> encBody o h b = Ok w.
Proof.
  intros Hl Ha Hb H. cbn [decBody] in H. cutn 2%nat a w Hb. cutn 1%nat c w Hb.
  replace (a ++ c ++ w) with ((a ++ c ++ [] ++ w ++ []) ++ []) in H by (cbn [app]; now rewrite !app_nil_r).
  eapply dec_is in H; [|eapply reads_bind; [now apply rd_word|]; eapply reads_bind; [now apply rd_byte|]; eapply reads_bind; [apply reads_idx|];
    eapply reads_bind; [apply reads_string; cbn [length]; lia|apply reads_ret]].
  subst b. cbn [encBody]. unfold WriteString, WriteByte, WriteWord. rewrite put_be16 by assumption.
  destruct c as [|c0 [|? ?]]; try discriminate. cbn [nth app]. now rewrite <- !app_assoc.
Qed.

Lemma auth_iff o h w sp b j : a_len (h_attr h) = N.of_nat (length w) -> bytes_ok w = true ->
  fits K0102 (a_ver (h_attr h)) (length w) w [] -> dec0102 h (mkSlice w sp) O = Ok (b, j) ->
  (encBody o h b = Ok w <-> canonical o K0102 (a_ver (h_attr h)) w).
Proof.
  intros Ha Hb Hf H. unfold dec0102 in H. cbn [fits length] in Hf. cbn [canonical]. destruct (a_ver (h_attr h)) eqn:Ev.
  - eapply (dec_is _ []) in H; [|apply reads_ret]. subst b. cbn [encBody]. rewrite Ok_iff. unfold enc0102. rewrite Ev. split; auto.
  - replace w with (([] ++ w ++ []) ++ []) in H by (cbn [app]; now rewrite !app_nil_r).
    eapply dec_is in H; [|eapply reads_bind; [apply reads_idx|]; eapply reads_bind; [apply reads_string; cbn [length]; lia|apply reads_ret]].
    subst b. cbn [encBody]. rewrite Ok_iff. unfold enc0102. rewrite Ev. tauto.
  - destruct Hf as [Hl Hf]. cutn 1%nat n w Hb. destruct n as [|n [|? ?]]; try discriminate. cbn [nth app length] in Hf |- *.
    apply bytes_ok_cons in Bn as [Bn _].
    cutn (N.to_nat n) c w Hb. cutn 15%nat i w Hb. cutn 20%nat s w Hb.
    replace ([n] ++ c ++ i ++ s ++ w) with (([n] ++ c ++ i ++ s ++ []) ++ w) in H by (rewrite <- !app_assoc; reflexivity).
    eapply dec_is in H; [|eapply reads_bind; [apply reads_byte|]; do 3 (eapply reads_bind; [apply reads_string; lia|]); apply reads_ret].
    subst b. cbn [encBody]. rewrite Ok_iff. unfold enc0102. rewrite Ev. unfold WriteByte, WriteString.
    rewrite fillOnly_trim by assumption. unfold fillOnly. rewrite Li. cbn [Nat.sub repeat]. rewrite app_nil_r.
    rewrite Lc, N2Nat.id, N.mod_small by lia. cbn [app]. rewrite <- !app_assoc. cbn [app].
    change (n :: c ++ i ++ s ++ w) with ([n] ++ c ++ i ++ s ++ w). change (n :: c ++ i ++ s) with ([n] ++ c ++ i ++ s). rewrite !app_head_iff.
    rewrite <- (app_nil_r s) at 1. rewrite app_head_iff. cbn [app]. rewrite ?app_length. cbn [length]. rewrite ?app_length. cbn [nth].
    split; [intros <-; cbn; lia|]. intros E. symmetry. apply nil_length. lia.
Qed.

Lemma reg_read o h a c m d i k g ml dl il :
  length a = 2%nat -> length c = 2%nat -> length m = ml -> length d = dl -> length i = il -> length k = 1%nat ->
  a_len (h_attr h) = N.of_nat (length (a ++ c ++ m ++ d ++ i ++ k ++ g)) ->
  match a_ver (h_attr h) with
  | V2019 => (ml, dl, il) = (11, 30, 30)%nat
  | V2013 => (ml, dl, il) = (5, if (33 <? 1 + 5 + dl + 7 + length g)%nat then 20 else 8, 7)%nat
             /\ (dl = 20 -> 33 < 1 + 5 + dl + 7 + length g)%nat
  | V2011 => False
  end ->
  exists nm, reads 0 (dec0100 o h) (a ++ c ++ [] ++ [] ++ m ++ d ++ i ++ k ++ [] ++ g ++ [])
    (B0100 (mkReg (be16 a) (be16 c) (trimNul m) (trimNul d) (trimNul i) (nth 0 k 0) (match o_gbk_dec o g with Some s => s | None => [] end) nm)).
Proof.
  intros La Lc Lm Ld Li Lk Hlen Hver. rewrite !app_length in Hlen. eexists. unfold dec0100.
  eapply reads_bind; [now apply rd_word|]. eapply reads_bind; [now apply rd_word|]. eapply reads_bind; [apply reads_idx|]. cbv zeta.
  eapply (reads_bind _ _ _ [] _ (Z.of_nat ml, Z.of_nat dl, Z.of_nat il)).
  { destruct (a_ver (h_attr h)).
    - destruct Hver.
    - destruct Hver as [E Hg].
      match goal with |- context [if (33 <? ?e)%Z then _ else _] => assert (Ez : e = Z.of_nat (1 + 5 + dl + 7 + length g)) end.
      { injection E as -> _ ->. lia. }
      rewrite Ez. destruct (Z.ltb_spec 33 (Z.of_nat (1 + 5 + dl + 7 + length g))), (Nat.ltb_spec 33 (1 + 5 + dl + 7 + length g)); try lia;
        injection E as -> -> ->; apply reads_ret.
    - injection Hver as -> -> ->. apply reads_ret. }
  eapply reads_bind; [apply reads_string; now rewrite Lm|]. eapply reads_bind; [apply reads_string; now rewrite Ld|].
  eapply reads_bind; [apply reads_string; now rewrite Li|]. eapply reads_bind; [now apply rd_byte|]. eapply reads_bind; [apply reads_idx|].
  eapply reads_bind; [|apply reads_ret]. apply reads_gbk. cbn [length]. lia.
Qed.

Lemma gbk_iff o g pre : (match o_gbk_enc o (match o_gbk_dec o g with Some s => s | None => [] end) with Some x => pre ++ x | None => [] end = pre ++ g)
  <-> gbk_again o g \/ (pre ++ g = [] /\ o_gbk_enc o (match o_gbk_dec o g with Some s => s | None => [] end) = None).
Proof.
  unfold gbk_again. destruct (o_gbk_enc o _) as [x|].
  - rewrite app_head_iff. split; [intros ->; auto|]. intros [E|[_ E]]; congruence.
  - split; [intros <-; auto|]. intros [E|[E _]]; congruence.
Qed.

Lemma reg_iff o h w sp b j : a_len (h_attr h) = N.of_nat (length w) -> bytes_ok w = true -> gbk_again o (repeat 0 12) ->
  fits K0100 (a_ver (h_attr h)) (length w) w [] -> dec0100 o h (mkSlice w sp) O = Ok (b, j) ->
  (encBody o h b = Ok w <-> canonical o K0100 (a_ver (h_attr h)) w).
Proof.
  intros Ha Hb Hz Hf H. cbn [fits length] in Hf. cbn [canonical]. destruct (a_ver (h_attr h)) eqn:Ev; [destruct Hf| |].
  - destruct (Nat.ltb_spec 37 (length w)) as [Hl|Hl].
    + cutn 2%nat a w Hb. cutn 2%nat c w Hb. cutn 5%nat m w Hb. cutn 20%nat d w Hb. cutn 7%nat i w Hb. cutn 1%nat k w Hb.
      destruct (reg_read o h a c m d i k w 5 20 7 La Lc Lm Ld Li Lk) as (nm & R).
      { rewrite !app_length. exact Ha. }
      { rewrite Ev. split; [|lia]. destruct (Nat.ltb_spec 33 (1 + 5 + 20 + 7 + length w)); [reflexivity|lia]. }
      replace (a ++ c ++ m ++ d ++ i ++ k ++ w) with ((a ++ c ++ [] ++ [] ++ m ++ d ++ i ++ k ++ [] ++ w ++ []) ++ []) in H
        by (cbn [app]; now rewrite !app_nil_r).
      eapply dec_is in H; [|exact R]. subst b. cbn [encBody]. rewrite Ok_iff. unfold enc0100. rewrite Ev. cbn [r_prov r_city r_manu r_mode r_devid r_color r_plate].
      rewrite !fillTo_trim by assumption. unfold WriteGBK, WriteByte, WriteWord. rewrite !put_be16 by assumption.
      destruct k as [|k0 [|? ?]]; try discriminate. cbn [nth app].
      assert (S : a ++ c ++ m ++ d ++ i ++ k0 :: w = (((((a ++ c) ++ m) ++ d) ++ i) ++ [k0]) ++ w) by (rewrite <- !app_assoc; reflexivity).
      rewrite S, gbk_iff. rewrite skipn_app, skipn_all2 by (rewrite !app_length; cbn [length]; lia). rewrite !app_length. cbn [length app].
      match goal with |- context [skipn ?n w] => replace n with O by lia end. cbn [skipn].
      split; [intros [G|[G _]]; [split; [lia|exact G]|]|tauto].
      exfalso. destruct a; discriminate.
    + split; [|lia]. intros E. exfalso.
      cutn 2%nat a w Hb. cutn 2%nat c w Hb. cutn 5%nat m w Hb. cutn 8%nat d w Hb. cutn 7%nat i w Hb. cutn 1%nat k w Hb.
      destruct (reg_read o h a c m d i k w 5 8 7 La Lc Lm Ld Li Lk) as (nm & R).
      { rewrite !app_length. exact Ha. }
      { rewrite Ev. split; [|lia]. destruct (Nat.ltb_spec 33 (1 + 5 + 8 + 7 + length w)); [lia|reflexivity]. }
      replace (a ++ c ++ m ++ d ++ i ++ k ++ w) with ((a ++ c ++ [] ++ [] ++ m ++ d ++ i ++ k ++ [] ++ w ++ []) ++ []) in H
        by (cbn [app]; now rewrite !app_nil_r).
      eapply dec_is in H; [|exact R]. subst b. cbn [encBody] in E. rewrite Ok_iff in E. unfold enc0100 in E. rewrite Ev in E.
      cbn [r_prov r_city r_manu r_mode r_devid r_color r_plate] in E.
      rewrite !(fillTo_trim 5), !(fillTo_trim 7) in E by assumption. unfold WriteGBK, WriteByte, WriteWord in E. rewrite !put_be16 in E by assumption.
      destruct (o_gbk_enc o _) as [x|] eqn:Ex; [|destruct a; discriminate].
      cbn [app] in E. rewrite <- !app_assoc, !app_head_iff in E.
      assert (F : fillTo 20 (trimNul d) = d ++ repeat 0 12).
      { destruct (trimNul_fill d) as (n & Ed & Ln). unfold fillTo. destruct (Nat.ltb_spec 20 (length (trimNul d))); [lia|].
        replace (20 - length (trimNul d))%nat with (n + 12)%nat by lia. rewrite repeat_app, app_assoc, <- Ed. reflexivity. }
      rewrite F in E. rewrite <- !app_assoc, app_head_iff in E.
      assert (Lw : (length w <= 12)%nat) by lia.
      pose proof (f_equal (@length _) E) as Le. rewrite !app_length, repeat_length in Le. cbn [length] in Le.
      assert (Lx : length x = O) by lia. apply nil_length in Lx. subst x. assert (Lw' : length w = 12%nat) by (cbn in *; lia).
      change (repeat 0 12) with (repeat 0 7 ++ repeat 0 1 ++ repeat 0 4) in E. rewrite <- !app_assoc in E.
      rewrite app_len_iff in E by (rewrite Li; reflexivity). destruct E as [Ei E].
      rewrite app_len_iff in E by (rewrite Lk; reflexivity). destruct E as [Ek E].
      rewrite <- Ei, <- Ek in E. cbn [repeat nth app] in E. subst w. change (gbk_again o (repeat 0 12)) with (o_gbk_enc o (match o_gbk_dec o [0;0;0;0;0;0;0;0;0;0;0;0] with Some s => s | None => [] end) = Some (repeat 0 12)) in Hz.
      rewrite Hz in Ex. discriminate.
  - cutn 2%nat a w Hb. cutn 2%nat c w Hb. cutn 11%nat m w Hb. cutn 30%nat d w Hb. cutn 30%nat i w Hb. cutn 1%nat k w Hb.
    destruct (reg_read o h a c m d i k w 11 30 30 La Lc Lm Ld Li Lk) as (nm & R).
    { rewrite !app_length. exact Ha. }
    { rewrite Ev. reflexivity. }
    replace (a ++ c ++ m ++ d ++ i ++ k ++ w) with ((a ++ c ++ [] ++ [] ++ m ++ d ++ i ++ k ++ [] ++ w ++ []) ++ []) in H
      by (cbn [app]; now rewrite !app_nil_r).
    eapply dec_is in H; [|exact R]. subst b. cbn [encBody]. rewrite Ok_iff. unfold enc0100. rewrite Ev. cbn [r_prov r_city r_manu r_mode r_devid r_color r_plate].
    rewrite !fillTo_trim by assumption. unfold WriteGBK, WriteByte, WriteWord. rewrite !put_be16 by assumption.
    destruct k as [|k0 [|? ?]]; try discriminate. cbn [nth app].
    assert (S : a ++ c ++ m ++ d ++ i ++ k0 :: w = (((((a ++ c) ++ m) ++ d) ++ i) ++ [k0]) ++ w) by (rewrite <- !app_assoc; reflexivity).
    rewrite S, gbk_iff. rewrite skipn_app, skipn_all2 by (rewrite !app_length; cbn [length]; lia). rewrite !app_length. cbn [length app].
    match goal with |- context [skipn ?n w] => replace n with O by lia end. cbn [skipn].
    split; [intros [G|[G _]]; [exact G|]|tauto]. exfalso. destruct a; discriminate.
Qed.

Lemma again o now k h w sp b j : k <> K8103 -> k <> K0104 -> bytes_ok w = true -> a_len (h_attr h) = N.of_nat (length w) ->
  civil_valid now -> year_window now -> gbk_again o (repeat 0 12) ->
  fits k (a_ver (h_attr h)) (length w) w [] -> decBody o now k h (mkSlice w sp) O = Ok (b, j) ->
  (encBody o h b = Ok w <-> canonical o k (a_ver (h_attr h)) w).
Proof.
  intros N1 N2 Hb Ha V Y Hz Hf H.
  assert (Em : forall b0, (fun _ i => Ok (b0, i)) (mkSlice w sp) O = Ok (b, j) -> encBody o h b0 = Ok [] -> (encBody o h b = Ok w <-> w = [])).
  { intros b0 E0 E. assert (b = b0) by congruence. subst b0. rewrite E. rewrite Ok_iff. split; auto. }
  destruct k; try (now destruct N1); try (now destruct N2); cbn [decBody] in H; try (exact (Em _ H eq_refl)).
  - destruct (reply_iff B0001 w w sp b j Hf Hb H eq_refl) as (sn & id & rs & -> & I). cbn [encBody canonical]. rewrite Ok_iff. exact I.
  - now apply (reg_iff o h w sp b j).
  - now apply (auth_iff o h w sp b j).
  - cbn [fits length] in Hf. rewrite Nat.add_0_r in Hf. now apply (loc_iff h w sp b j o).
  - cbn [fits length] in Hf. apply (media_iff now h w sp b j o); auto. lia.
  - destruct (reply_iff B8001 w w sp b j Hf Hb H eq_refl) as (sn & id & rs & -> & I). cbn [encBody canonical]. rewrite Ok_iff. exact I.
  - cbn [fits length] in Hf. apply (clock_iff now h w sp b j o); auto. lia.
  - cbn [fits length] in Hf. cbn [canonical]. split; [auto|]. intros _. apply (reg_reply_iff o now h w sp b j); auto. lia.
  - now apply (query_iff now h w sp b j o).
Qed.

(** * Frames *)
Lemma fits_more k v n w sp : k <> K8103 -> k <> K0104 -> fits k v n w [] -> fits k v n w sp.
Proof.
  intros N1 N2. destruct k; try tauto; try destruct v; cbn [fits length]; try lia.
  destruct (Nat.ltb_spec 37 n); lia.
Qed.
Lemma encodeHeader_length h n : length (encodeHeader (hdr_set_len h n)) = length (encodeHeader h).
Proof.
  unfold encodeHeader, hdr_set_len, WriteBCD, WriteWord, WriteByte. cbn [h_attr h_id h_phone h_sn h_proto h_frag attr_set_len a_ver].
  destruct (version_eqb _ _), (h_frag h); rewrite !app_length; cbn [length put16]; lia.
Qed.
Lemma sent_again o h w c b : hdr_wf h -> a_len (h_attr h) = N.of_nat (length w) ->
  let p := header_layout h ++ w in escapes (p ++ [xor_sum p]) c ->
  (encodePacket o (mkMsg h b) = Ok (framed c) <-> encBody o h b = Ok w).
Proof.
  intros Hh Ha p Hc.
  assert (Ef : escape (genVerifier p) = framed c).
  { destruct (escape_spec (p ++ [xor_sum p])) as (c' & E & H & _). unfold genVerifier. rewrite xorAll_sum, E. f_equal. now rewrite (escapes_fun _ _ Hc), (escapes_fun _ _ H). }
  assert (Eh : hdr_set_len h (N.of_nat (length w)) = h).
  { rewrite <- Ha. destruct h as [? [] ? ? ? ?]. reflexivity. }
  assert (Hl : N.of_nat (length w) < 65536).
  { destruct Hh as (_ & (Hat & _) & _). rewrite Ha in Hat. lia. }
  unfold encodePacket, msgEncode. cbn [m_hdr m_body].
  destruct (encBody o h b) as [w'| |]; cbn [rmap]; [|split; discriminate|split; discriminate]. split.
  - intros E. apply Ok_iff in E. rewrite <- Ef in E. apply escape_inj in E. unfold genVerifier in E. apply app_inj_tail in E as [E _].
    unfold writeHeader, p in E. rewrite <- (proj1 (header_layout_roundtrip h Hh)) in E. rewrite app_len_iff in E by apply encodeHeader_length.
    destruct E as [_ ->]. reflexivity.
  - intros E. injection E as ->. unfold writeHeader. rewrite N.mod_small by lia. rewrite Eh, (proj1 (header_layout_roundtrip h Hh)). now rewrite <- Ef.
Qed.
Lemma received_body o h w c : hdr_wf h -> let p := header_layout h ++ w in escapes (p ++ [xor_sum p]) c ->
  exists q sp, decodePacket o (framed c) = Ok q /\ pk_hdr q = h /\ pk_body q = mkSlice w sp.
Proof.
  intros Hh p Hc. destruct (length_unread o h w c Hh Hc) as (q & E & H1 & H2). exists q, (sl_spare (pk_body q)). split; [exact E|]. split; [exact H1|].
  destruct (pk_body q) as [d s]. cbn [sl_data sl_spare] in *. congruence.
Qed.

Theorem relay o now k h w c : hdr_wf h -> k <> K8103 -> k <> K0104 -> bytes_ok w = true -> a_len (h_attr h) = N.of_nat (length w) ->
  civil_valid now -> year_window now -> gbk_again o (repeat 0 12) -> fits k (a_ver (h_attr h)) (length w) w [] ->
  let p := header_layout h ++ w in escapes (p ++ [xor_sum p]) c ->
  exists q m, decodePacket o (framed c) = Ok q /\ msgDecode o now k q = Ok m
    /\ (encodePacket o m = Ok (framed c) <-> canonical o k (a_ver (h_attr h)) w).
Proof.
  intros Hh N1 N2 Hb Ha V Y Hz Hf p Hc. destruct (received_body o h w c Hh Hc) as (q & sp & E & H1 & H2).
  assert (D : exists b j, decBody o now k h (mkSlice w sp) O = Ok (b, j)).
  { apply accepted. rewrite Ha, Nat2N.id. now apply fits_more. }
  destruct D as (b & j & D). exists q, (mkMsg h b). split; [exact E|]. split.
  - unfold msgDecode. rewrite H1, H2, D. reflexivity.
  - rewrite (sent_again o h w c b Hh Ha Hc). exact (again o now k h w sp b j N1 N2 Hb Ha V Y Hz Hf D).
Qed.
(** a location report with additional information items does not come out as it came in *)
Lemma items_lost o now h w c : hdr_wf h -> bytes_ok w = true -> a_len (h_attr h) = N.of_nat (length w) -> (28 < length w)%nat ->
  civil_valid now -> year_window now -> gbk_again o (repeat 0 12) ->
  let p := header_layout h ++ w in escapes (p ++ [xor_sum p]) c ->
  exists q m, decodePacket o (framed c) = Ok q /\ msgDecode o now K0200 q = Ok m /\ encodePacket o m <> Ok (framed c).
Proof.
  intros Hh Hb Ha Hl V Y Hz p Hc.
  destruct (relay o now K0200 h w c Hh ltac:(discriminate) ltac:(discriminate) Hb Ha V Y Hz) as (q & m & E1 & E2 & I); [cbn; lia|exact Hc|].
  exists q, m. split; [exact E1|]. split; [exact E2|]. rewrite I. cbn [canonical]. lia.
Qed.

(** * Exactly the canonical parameter lists *)
Lemma be32_lt x : length x = 4%nat -> bytes_ok x = true -> be32 x < 4294967296.
Proof.
  intros H Hb. destruct x as [|a [|b [|c [|d [|? ?]]]]]; try discriminate. apply bytes_ok_cons in Hb as [Ha Hb]. apply bytes_ok_cons in Hb as [Hb Hc].
  apply bytes_ok_cons in Hc as [Hc Hd]. apply bytes_ok_cons in Hd as [Hd _]. unfold be32. lia.
Qed.
Lemma value_iff o k ln val : gbk_short o -> bytes_ok val = true -> ln < 256 -> length val = value_size k ln ->
  exists x ev, (forall i, reads i (pdecode o k ln) val x) /\ pencode o k x = Ok ev
    /\ (N.of_nat (length ev) mod 256 = ln -> length ev = length val /\ N.of_nat (length val) = ln /\ (ev = val <-> value_again o k val))
    /\ (value_again o k val -> ev = val).
Proof.
  intros Hg Hb Hn Hl. destruct k; cbn [value_size] in Hl; unfold pdecode, pencode; cbn [value_again].
  - destruct val as [|c [|? ?]]; try discriminate. exists (VU8 c), [c]. split; [intros i; apply (reads_map i ReadByte VU8), reads_byte|]. split; [reflexivity|].
    split; [|reflexivity]. intros H. split; [reflexivity|]. split; [exact H|]. split; reflexivity.
  - exists (VU16 (be16 val)), val. split; [intros i; apply (reads_map i ReadWord VU16); now apply rd_word|].
    split; [cbn [any2uint16 rmap]; unfold WriteWord; rewrite put_be16 by assumption; reflexivity|].
    split; [|reflexivity]. intros H. rewrite Hl in *. split; [reflexivity|]. split; [exact H|]. split; auto.
  - exists (VU32 (be32 val)), val. split; [intros i; apply (reads_map i ReadDoubleWord VU32); now apply rd_dword|].
    split; [cbn [any2uint32 rmap]; unfold WriteDoubleWord; rewrite put_be32 by assumption; reflexivity|].
    split; [|reflexivity]. intros H. rewrite Hl in *. split; [reflexivity|]. split; [exact H|]. split; auto.
  - exists (VStr (bcd2NumberStr val)), (numberStr2BCD (bcd2NumberStr val)). split; [intros i; apply (reads_map i (ReadBCD _) VStr), reads_bcd; lia|].
    split; [reflexivity|]. split; [|intros H; now apply bcd_kept]. intros H.
    destruct (bcd_value val Hb ltac:(lia)) as [L I]; [rewrite H; lia|]. split; [exact L|]. split; [lia|exact I].
  - exists (VStr val), val. split; [intros i; apply (reads_map i (ReadString _) VStr), reads_string; lia|]. split; [reflexivity|]. split; [|reflexivity].
    intros H. split; [reflexivity|]. split; [lia|]. split; auto.
  - eexists. exists (written o val). split; [intros i; apply (reads_map i (ReadGBK o _) VStr), reads_gbk; lia|]. split; [reflexivity|]. split; [|auto].
    intros H. specialize (Hg val ltac:(lia)). rewrite N.mod_small in H by lia. split; [lia|]. split; [lia|]. reflexivity.
Qed.
Lemma split_entry n pre r : bytes_ok r = true -> entries (S n) (pre ++ r) (length (pre ++ r)) (length pre) ->
  exists x k ln val r', r = x ++ ln :: val ++ r' /\ length x = 4%nat /\ argKind (be32 x) = Some k /\ length val = value_size k ln
    /\ entries n ((pre ++ x ++ ln :: val) ++ r') (length ((pre ++ x ++ ln :: val) ++ r')) (length (pre ++ x ++ ln :: val)).
Proof.
  intros Hb (Hl & k & Hk & Hj). cbv zeta in Hj. destruct Hj as (_ & Hj & He). rewrite app_length in Hl.
  destruct (cut 4 r ltac:(lia) Hb) as (x & r1 & -> & Lx & Bx & B1). rewrite app_length in Hl. destruct r1 as [|ln r1]; [cbn in Hl; lia|].
  assert (Eu : u32_at (pre ++ x ++ ln :: r1) (length pre) = be32 x).
  { rewrite <- be32_at by (rewrite !app_length; lia). f_equal. rewrite skipn_app, skipn_all, Nat.sub_diag. cbn [skipn app].
    rewrite firstn_app, <- Lx, firstn_all, Nat.sub_diag. cbn [firstn]. apply app_nil_r. }
  assert (En : nth (length pre + 4) (pre ++ x ++ ln :: r1) 0 = ln).
  { rewrite app_nth2 by lia. replace (length pre + 4 - length pre)%nat with (length x) by lia. rewrite app_nth2, Nat.sub_diag by lia. reflexivity. }
  rewrite Eu in Hk. rewrite En in Hj, He. rewrite !app_length in Hj. cbn [length] in Hj.
  apply bytes_ok_cons in B1 as [_ B1]. destruct (cut (value_size k ln) r1 ltac:(lia) B1) as (val & r' & -> & Lv & Bv & B').
  exists x, k, ln, val, r'. split; [reflexivity|]. split; [exact Lx|]. split; [exact Hk|]. split; [exact Lv|].
  assert (E1 : pre ++ x ++ ln :: val ++ r' = (pre ++ x ++ ln :: val) ++ r') by (rewrite <- !app_assoc; reflexivity).
  assert (E2 : (length pre + 5 + value_size k ln)%nat = length (pre ++ x ++ ln :: val)) by (rewrite !app_length; cbn [length]; lia).
  rewrite E1, E2 in He. exact He.
Qed.
Lemma loop_iff o sp n : gbk_short o -> forall pre r, bytes_ok r = true -> entries n (pre ++ r) (length (pre ++ r)) (length pre) ->
  exists ps j w', paramsDecodeLoop o n (mkSlice (pre ++ r) sp) (length pre) = Ok (ps, j)
    /\ (forall pkt, paramsEncodeLoop o ps pkt = Ok (pkt ++ w'))
    /\ (w' = r <-> exists es, length es = n /\ r = concat es /\ Forall (entry_again o) es).
Proof.
  intros Hg. induction n as [|n IH]; intros pre r Hb He.
  - exists [], (length pre), []. split; [reflexivity|]. split; [intros pkt; cbn; now rewrite app_nil_r|]. split.
    + intros <-. exists []. repeat split; constructor.
    + intros (es & L & -> & _). destruct es; [reflexivity|discriminate].
  - destruct (split_entry n pre r Hb He) as (x & k & ln & val & r' & -> & Lx & Hk & Lv & He').
    apply bytes_ok_app in Hb as [Bx Hb]. apply bytes_ok_cons in Hb as [Bn Hb]. apply bytes_ok_app in Hb as [Bv Br].
    destruct (value_iff o k ln val Hg Bv Bn Lv) as (v & ev & R & Ev & Hval & Hval').
    destruct (IH (pre ++ x ++ ln :: val) r' Br He') as (ps & j & w' & D & En & I).
    pose proof (be32_lt x Lx Bx) as Hid. pose proof (put_be32 x Lx Bx) as Hx.
    assert (Rp : forall i, reads i (paramDecode o) (x ++ [ln] ++ val) (mkParam (be32 x) ln v)).
    { intros i. unfold paramDecode. eapply reads_bind; [now apply rd_dword|]. eapply reads_bind; [apply reads_byte|]. rewrite Hk.
      apply (reads_map _ (pdecode o k _) (mkParam _ _)), R. }
    exists (mkParam (be32 x) ln v :: ps), j, (x ++ (N.of_nat (length ev) mod 256) :: ev ++ w'). split; [|split].
    + cbn [paramsDecodeLoop]. unfold rd_bind at 1. specialize (Rp (length pre) pre r' sp eq_refl). rewrite <- !app_assoc in Rp. cbn [app] in Rp. rewrite Rp.
      unfold rd_bind. rewrite <- !app_assoc in D. cbn [app] in D. rewrite <- ?app_assoc in D.
      replace (length pre + length (x ++ ln :: val))%nat with (length (pre ++ x ++ ln :: val)) by (rewrite !app_length; cbn [length app]; lia).
      cbn [app] in D. rewrite D. reflexivity.
    + intros pkt. cbn [paramsEncodeLoop]. unfold paramEncode. cbn [p_id p_val]. rewrite Hk, Ev. cbn [rbind]. rewrite En.
      unfold WriteBytes, WriteByte, WriteDoubleWord. cbn [app]. rewrite Hx. rewrite <- !app_assoc. reflexivity.
    + rewrite app_head_iff. split.
      * intros E. injection E as E1 E2. destruct (Hval E1) as (L1 & L2 & Iv). apply app_len_iff in E2 as [E2 E3]; [|exact L1].
        apply I in E3 as (es & Le & -> & Hes). exists ((x ++ ln :: val) :: es). split; [cbn; now rewrite Le|]. split; [cbn [concat]; now rewrite <- app_assoc|].
        constructor; [|exact Hes]. exists (be32 x), k, val. rewrite L2. rewrite <- put32_U32, Hx by assumption. split; [reflexivity|]. split; [assumption|].
        split; [lia|]. split; [assumption|]. now apply Iv.
      * intros (es & Le & Ec & Hes). destruct es as [|e es]; [discriminate|]. cbn [length] in Le. injection Le as Le.
        apply Forall_inv in Hes as He1. apply Forall_inv_tail in Hes as He2. cbn [concat] in Ec.
        destruct He1 as (id & k' & val' & -> & Hi & Hl & Hk' & Hv'). rewrite <- app_assoc in Ec. cbn [app] in Ec.
        apply app_len_iff in Ec as [Ex Ec]; [|rewrite Lx; reflexivity]. injection Ec as En' Ec.
        assert (Eid : be32 x = id) by (rewrite Ex, <- put32_U32, be32_put32 by assumption; reflexivity).
        rewrite Eid, Hk' in Hk. injection Hk as ->.
        assert (Ll : length val = length val').
        { rewrite Lv, En'. destruct k; cbn [value_size value_again] in *; lia. }
        apply app_len_iff in Ec as [<- Er]; [|exact Ll]. rewrite (Hval' Hv'). rewrite En', N.mod_small by lia. f_equal. f_equal.
        apply I. exists es. auto.
Qed.
Lemma list_iff o ph c sp r : gbk_short o -> c < 256 -> bytes_ok r = true -> entries (N.to_nat c) r (length r) 0 ->
  exists d w', paramsDecode o ph c (mkSlice r sp) = Ok d /\ paramsEncode o d = Ok (c :: w') /\ (w' = r <-> list_again o (c :: r)).
Proof.
  intros Hg Hc Hb He. destruct (loop_iff o sp (N.to_nat c) Hg [] r Hb He) as (ps & j & w' & D & E & I). cbn [app length] in D.
  exists (mkParams ph c ps), w'. split; [unfold paramsDecode; rewrite D; reflexivity|]. split; [unfold paramsEncode; cbn [dp_list dp_cnt]; rewrite E; reflexivity|].
  rewrite I. unfold list_again. split.
  - intros (es & L & -> & H). exists es. split; [f_equal; lia|]. split; [lia|exact H].
  - intros (es & E1 & L & H). injection E1 as E1 E2. exists es. split; [lia|]. auto.
Qed.
Theorem relay_8103 o now h w c : hdr_wf h -> bytes_ok w = true -> a_len (h_attr h) = N.of_nat (length w) -> gbk_short o ->
  fits K8103 (a_ver (h_attr h)) (length w) w [] ->
  let p := header_layout h ++ w in escapes (p ++ [xor_sum p]) c ->
  exists q m, decodePacket o (framed c) = Ok q /\ msgDecode o now K8103 q = Ok m
    /\ (encodePacket o m = Ok (framed c) <-> list_again o w).
Proof.
  intros Hh Hb Ha Hg Hf p Hc. destruct (received_body o h w c Hh Hc) as (q & sp & E & H1 & H2).
  destruct Hf as [Hl He]. destruct w as [|n r]; [cbn in Hl; lia|]. cbn [skipn nth length Nat.sub] in He. rewrite app_nil_r, Nat.sub_0_r in He.
  apply bytes_ok_cons in Hb as [Hn Hb]. destruct (list_iff o (h_phone h) n sp r Hg Hn Hb He) as (d & w' & D & En & I).
  exists q, (mkMsg h (B8103 n (Some d))). split; [exact E|]. split.
  - unfold msgDecode. rewrite H1, H2. cbn [decBody].
    change (n :: r) with ([n] ++ r). rewrite (rest_bind _ _ _ n) by apply reads_byte. unfold rd_bind at 1. rewrite rd_rest_spec.
    unfold rd_bind, rd_lift, rd_ret. rewrite D. reflexivity.
  - rewrite (sent_again o h (n :: r) c _ Hh Ha Hc). cbn [encBody]. rewrite En, Ok_iff, <- I. split; [intros F; now injection F|now intros ->].
Qed.
Theorem relay_0104 o now h w c : hdr_wf h -> bytes_ok w = true -> a_len (h_attr h) = N.of_nat (length w) -> gbk_short o ->
  fits K0104 (a_ver (h_attr h)) (length w) w [] ->
  let p := header_layout h ++ w in escapes (p ++ [xor_sum p]) c ->
  exists q m, decodePacket o (framed c) = Ok q /\ msgDecode o now K0104 q = Ok m
    /\ (encodePacket o m = Ok (framed c) <-> list_again o (skipn 2 w)).
Proof.
  intros Hh Hb Ha Hg Hf p Hc. destruct (received_body o h w c Hh Hc) as (q & sp & E & H1 & H2).
  destruct Hf as [Hl He]. destruct w as [|s1 [|s2 [|n r]]]; try (cbn in Hl; lia). cbn [skipn nth length Nat.sub] in He. rewrite app_nil_r, Nat.sub_0_r in He.
  apply bytes_ok_cons in Hb as [Hs1 Hb]. apply bytes_ok_cons in Hb as [Hs2 Hb]. apply bytes_ok_cons in Hb as [Hn Hb].
  destruct (list_iff o (h_phone h) n sp r Hg Hn Hb He) as (d & w' & D & En & I).
  assert (Ls : length [s1; s2] = 2%nat) by reflexivity.
  assert (Bs : bytes_ok [s1; s2] = true) by (apply bytes_ok_cons; split; [exact Hs1|]; apply bytes_ok_cons; split; [exact Hs2|reflexivity]).
  exists q, (mkMsg h (B0104 (be16 [s1; s2]) n (Some d))). split; [exact E|]. split.
  - unfold msgDecode. rewrite H1, H2. cbn [decBody]. change (s1 :: s2 :: n :: r) with ([s1; s2] ++ n :: r).
    rewrite (rest_bind _ _ [s1; s2] (be16 [s1; s2])) by now apply rd_word. unfold rd_bind at 1.
    pose proof (reads_byte 2 n [s1; s2] r sp Ls) as R. cbn [app] in R. cbn [length app]. rewrite R. unfold rd_bind at 1.
    pose proof (rd_rest_spec [s1; s2; n] r sp) as R2. cbn [length app Nat.add] in R2 |- *.
    rewrite R2. unfold rd_bind, rd_lift, rd_ret. rewrite D. reflexivity.
  - rewrite (sent_again o h _ c _ Hh Ha Hc). cbn [encBody skipn]. rewrite En. cbn [rmap]. rewrite Ok_iff, <- I. unfold WriteBytes, WriteWord.
    rewrite put_be16 by assumption. cbn [app]. split; [intros F; now injection F|now intros ->].
Qed.
