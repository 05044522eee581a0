(** Round trips of parameter lists, messages and packets *)
From Coq Require Import ZifyBool ZifyNat ZifyN.
From Verif Require Import Base HexM TimeM HashM HeaderM ParamsM MsgM PacketM SpecCodec DecP HexP TimeP HeaderP FrameP.
Local Open Scope N_scope.
Ltac Zify.zify_post_hook ::= Z.div_mod_to_equations.

(** * Parameters *)
Lemma BCD_length s : digits s = true -> Nat.even (length s) = true -> (length (BCD s) * 2 = length s)%nat.
Proof.
  intros Hd He. rewrite <- Str2Byte_BCD by assumption.
  apply Str2Byte_length; [assumption|now apply digits_upHex].
Qed.

Lemma pencode_fits o k v w v' : value_fits o k v w v' ->
  pencode o k v = Ok w /\ (length w < 256)%nat
    /\ forall i, reads i (pdecode o k (N.of_nat (length w))) w v'.
Proof.
  intros H. destruct H.
  - split; [reflexivity|]. split; [cbn; lia|]. intros i.
    apply (reads_map i ReadByte VU8), reads_byte.
  - split; [|split; [cbn; lia|]].
    + cbn. unfold f2u. assert (E : ((0 <=? z) && (z <? 2 ^ Z.of_N 8))%Z = true) by (cbn; lia).
      rewrite E. reflexivity.
    + intros i. apply (reads_map i ReadByte VU8), reads_byte.
  - rewrite <- put16_U16 by assumption. split; [reflexivity|]. split; [cbn; lia|]. intros i.
    apply (reads_map i ReadWord VU16), reads_word. lia.
  - rewrite <- put16_U16 by lia. split; [|split; [cbn; lia|]].
    + cbn [pencode any2uint16 rmap]. unfold f2u.
      assert (E : ((0 <=? z) && (z <? 2 ^ Z.of_N 16))%Z = true) by (cbn; lia).
      rewrite E. reflexivity.
    + intros i. apply (reads_map i ReadWord VU16), reads_word. lia.
  - rewrite <- put32_U32 by assumption. split; [reflexivity|]. split; [cbn; lia|]. intros i.
    apply (reads_map i ReadDoubleWord VU32), reads_dword. lia.
  - rewrite <- put32_U32 by lia. split; [|split; [cbn; lia|]].
    + cbn [pencode any2uint32 rmap]. unfold f2u.
      assert (E : ((0 <=? z) && (z <? 2 ^ Z.of_N 32))%Z = true) by (cbn; lia).
      rewrite E. reflexivity.
    + intros i. apply (reads_map i ReadDoubleWord VU32), reads_dword. lia.
  - split; [cbn [pencode any2string rmap app]; unfold WriteBCD; cbn [app]; now rewrite numberStr2BCD_BCD by (assumption || lia)|].
    split; [pose proof (BCD_length s H H1); lia|].
    intros i. rewrite <- (bcd_roundtrip_long s) at 3 by (assumption || lia).
    rewrite <- numberStr2BCD_BCD by (assumption || lia).
    apply (reads_map i (ReadBCD (Z.of_N (N.of_nat (length (numberStr2BCD s))))) VStr), reads_bcd. lia.
  - split; [cbn [pencode any2string rmap app]; unfold WriteBCD; cbn [app]; now rewrite numberStr2BCD_short by (assumption || lia)|].
    split; [rewrite app_length, repeat_length; pose proof (BCD_length s H H1); lia|].
    intros i. rewrite <- (bcd_roundtrip_short s) at 5 by (assumption || lia).
    rewrite <- numberStr2BCD_short by (assumption || lia).
    apply (reads_map i (ReadBCD (Z.of_N (N.of_nat (length (numberStr2BCD s))))) VStr), reads_bcd. lia.
  - split; [reflexivity|]. split; [assumption|]. intros i.
    apply (reads_map i (ReadString (Z.of_N (N.of_nat (length s)))) VStr), reads_string. lia.
  - destruct H as [He Hd]. split; [cbn [pencode any2string rmap app]; unfold WriteGBK; cbn [app]; now rewrite He|].
    split; [assumption|]. intros i.
    apply (reads_map i (ReadGBK o (Z.of_N (N.of_nat (length g)))) VStr).
    pose proof (reads_gbk o i (Z.of_N (N.of_nat (length g))) g ltac:(lia)) as R.
    rewrite Hd in R. exact R.
Qed.

Lemma param_roundtrip o p w q : param_sent o p w q ->
  paramEncode o p = Ok w /\ forall i, reads i (paramDecode o) w q.
Proof.
  intros (k & v & Hk & Hid & Hv & Eid & Hl & ->).
  destruct (pencode_fits o k _ _ _ Hv) as (Hw & Hlen & Hr).
  rewrite <- argKind_type in Hk. rewrite <- put32_U32 by assumption. split.
  - unfold paramEncode. rewrite Hk, Hw. cbn [rbind]. unfold WriteBytes, WriteByte, WriteDoubleWord.
    cbn [app]. rewrite <- !app_assoc. f_equal. f_equal. cbn [app]. f_equal. lia.
  - intros i. unfold paramDecode. eapply reads_bind; [apply reads_dword, Hid|].
    eapply reads_bind; [apply reads_byte|]. rewrite Hk.
    replace q with (mkParam (p_id p) (N.of_nat (length v)) (p_val q))
      by (destruct q; cbn in *; subst; reflexivity).
    apply (reads_map _ (pdecode o k (N.of_nat (length v))) (mkParam (p_id p) (N.of_nat (length v)))).
    apply Hr.
Qed.

Lemma paramsLoop_roundtrip o ps w qs : params_list_sent o ps w qs ->
  length ps = length qs /\ (forall pkt, paramsEncodeLoop o ps pkt = Ok (pkt ++ w))
    /\ forall i, reads i (paramsDecodeLoop o (length qs)) w qs.
Proof.
  induction 1 as [|p wp q ps w qs Hp Hps (Hl & He & Hd)].
  - split; [reflexivity|]. split; [intros; cbn; now rewrite app_nil_r|]. intros i. apply reads_ret.
  - destruct (param_roundtrip o p wp q Hp) as (Hpe & Hpd).
    split; [cbn; congruence|]. split.
    + intros pkt. cbn [paramsEncodeLoop]. rewrite Hpe, He. unfold WriteBytes. now rewrite app_assoc.
    + intros i. cbn [paramsDecodeLoop length]. eapply reads_bind; [apply Hpd|].
      apply (reads_map _ (paramsDecodeLoop o (length qs)) (cons q)). apply Hd.
Qed.

Lemma params_roundtrip o d wd e : params_sent o d wd e ->
  exists w, wd = dp_cnt d :: w /\ paramsEncode o d = Ok wd
    /\ forall post sp, paramsDecode o (dp_phone e) (dp_cnt d) (mkSlice (w ++ post) sp) = Ok e.
Proof.
  intros (Hl & Hc & Hce & w & HF & ->). destruct (paramsLoop_roundtrip o _ _ _ HF) as (Hll & He & Hd).
  exists w. split; [reflexivity|]. split.
  - unfold paramsEncode. rewrite He. reflexivity.
  - intros post sp. unfold paramsDecode.
    rewrite Hc, Nat2N.id, Hll. specialize (Hd 0%nat [] post sp eq_refl). cbn [app] in Hd.
    rewrite Hd. cbn. rewrite <- Hll, <- Hc, <- Hce. destruct e; reflexivity.
Qed.

(** * Messages *)
Lemma trimNul_zeros n : trimNul (repeat 0 n) = [].
Proof. induction n as [|n IH]; [reflexivity|]. cbn [repeat trimNul]. now rewrite IH. Qed.
Lemma trimNul_app_zeros s n : trimNul (s ++ repeat 0 n) = trimNul s.
Proof.
  induction s as [|c s IH]; [apply trimNul_zeros|]. cbn [app trimNul]. now rewrite IH.
Qed.
(** [trimNul s = s] says that s does not end in NUL *)
Lemma trimNul_id_iff s : trimNul s = s <-> (s = [] \/ exists t c, s = t ++ [c] /\ c <> 0).
Proof.
  split.
  - destruct s as [|c s] using rev_ind; [auto|]. intros H. right. exists s, c. split; [reflexivity|].
    intros ->. assert (E : trimNul (s ++ repeat 0 1) = trimNul s) by apply trimNul_app_zeros.
    cbn [repeat] in E. rewrite E in H.
    assert (L : forall l, (length (trimNul l) <= length l)%nat).
    { induction l as [|x l IHl]; [reflexivity|]. cbn [trimNul]. destruct (trimNul l) eqn:El.
      - destruct (x =? 0); cbn; lia.
      - cbn in *. lia. }
    specialize (L s). rewrite H, app_length in L. cbn in L. lia.
  - intros [-> | (t & c & -> & Hc)]; [reflexivity|].
    induction t as [|x t IH]; cbn [app trimNul].
    + destruct (N.eqb_spec c 0); [congruence|reflexivity].
    + rewrite IH. destruct (t ++ [c]) eqn:E; [destruct t; discriminate|reflexivity].
Qed.

Lemma fillTo_fits n s : text_fits n s ->
  fillTo n s = padded n s /\ length (padded n s) = n /\ trimNul (padded n s) = s.
Proof.
  intros [Hl Ht]. apply trimNul_id_iff in Ht. unfold fillTo, padded. destruct (Nat.ltb_spec n (length s)); [lia|]. split; [reflexivity|].
  split; [rewrite app_length, repeat_length; lia|]. now rewrite trimNul_app_zeros.
Qed.
Lemma fillOnly_fits n s : text_fits n s ->
  fillOnly n s = padded n s /\ length (padded n s) = n /\ trimNul (padded n s) = s.
Proof.
  intros [Hl Ht]. apply trimNul_id_iff in Ht. unfold fillOnly, padded. split; [reflexivity|].
  split; [rewrite app_length, repeat_length; lia|]. now rewrite trimNul_app_zeros.
Qed.

Lemma query_roundtrip now q w : query_layout q w ->
  mqueryEncode q = Ok w /\ length w = 24%nat /\ forall i, reads i (mqueryDecode now) w q.
Proof.
  intros H. destruct H as [c t1 t2 a ax m s st V1 Y1 V2 Y2 Ha Hax].
  rewrite <- !time_BCD, <- !put32_U32 by assumption. split; [|split].
  - unfold mqueryEncode. cbn [q_start q_end q_chan q_alarm q_alarmx q_media q_stream q_storage].
    unfold WriteByte, WriteTime, WriteDoubleWord, WriteBCD.
    cbn [app]. rewrite <- !app_assoc. reflexivity.
  - cbn [app length]. rewrite !app_length. rewrite !time_bcd_length by assumption. reflexivity.
  - intros i. unfold mqueryDecode.
    eapply reads_bind; [apply reads_byte|].
    eapply reads_bind; [apply reads_time; assumption|].
    eapply reads_bind; [apply reads_time; assumption|].
    eapply reads_bind; [apply reads_dword; assumption|].
    eapply reads_bind; [apply reads_dword; assumption|].
    eapply (reads_bind _ _ _ [m]); [apply reads_byte|].
    eapply (reads_bind _ _ _ [s]); [apply reads_byte|].
    eapply (reads_bind _ _ _ [st] []); [apply reads_byte|]. apply reads_ret.
Qed.

(** reading back a body, with or without trailing bytes *)
Definition reads_body (o : oracle) (now : civil) (h : header) (k : mkind) (w : bytes) (b : body) : Prop :=
  forall sp, exists j, decBody o now k h (mkSlice w sp) O = Ok (b, j).

Lemma reads_reads_body o now h k w b : reads 0 (decBody o now k h) w b -> reads_body o now h k w b.
Proof.
  intros H sp. specialize (H [] [] sp eq_refl). cbn [app] in H. rewrite app_nil_r in H. eauto.
Qed.

Lemma rd_rest_spec w1 post sp : rd_rest (mkSlice (w1 ++ post) sp) (length w1) = Ok (mkSlice post sp, length w1).
Proof.
  unfold rd_rest, sl_from, sl_len. cbn [sl_data sl_spare]. rewrite app_length.
  destruct (Nat.leb_spec (length w1) (length w1 + length post)); [|lia].
  rewrite skipn_app, skipn_all, Nat.sub_diag. reflexivity.
Qed.

(** a prefix read, then a sub-decoder on the rest *)
Lemma rest_bind {A B} (m : rd A) (k : A -> rd B) w1 a s sp :
  reads 0 m w1 a ->
  rd_bind m k (mkSlice (w1 ++ s) sp) O = k a (mkSlice (w1 ++ s) sp) (length w1).
Proof. intros H. unfold rd_bind. specialize (H [] s sp eq_refl). cbn [app] in H. rewrite H. reflexivity. Qed.

(** the receiver of a registration, given the field widths *)
Lemma reads_0100 o h prov city manu mode did color plate g ml dl il :
  prov < 65536 -> city < 65536 ->
  text_fits ml manu -> text_fits dl mode -> text_fits il did -> gbk_fits o plate g ->
  match a_ver (h_attr h) with
  | V2019 => (ml, dl, il) = (11, 30, 30)%nat
  | V2013 => (ml, dl, il) = (5, 20, 7)%nat /\ g <> []
  | V2011 => False
  end ->
  a_len (h_attr h) = N.of_nat (5 + ml + dl + il + length g) ->
  reads 0 (dec0100 o h)
    (U16 prov ++ U16 city ++ padded ml manu ++ padded dl mode ++ padded il did ++ [color] ++ g)
    (B0100 (mkReg prov city manu mode did color plate
                    (regionName o (pad0 2 (itoa prov) ++ pad0 4 (itoa city))))).
Proof.
  intros Hp Hc T1 T2 T3 [Henc Hdec] Hver Hlen.
  destruct (fillTo_fits _ _ T1) as (_ & L1 & R1). destruct (fillTo_fits _ _ T2) as (_ & L2 & R2).
  destruct (fillTo_fits _ _ T3) as (_ & L3 & R3).
  rewrite <- !put16_U16 by assumption. unfold dec0100.
  eapply reads_bind; [now apply reads_word|]. eapply reads_bind; [now apply reads_word|].
  eapply (reads_bind _ _ _ []); [apply reads_idx|]. cbv zeta.
  eapply (reads_bind _ _ _ [] _ (Z.of_nat ml, Z.of_nat dl, Z.of_nat il)).
  { destruct (a_ver (h_attr h)).
    - destruct Hver.
    - destruct Hver as [E Hg]. injection E as -> -> ->.
      assert (Lg : (1 <= length g)%nat) by (destruct g; [congruence|cbn; lia]).
      match goal with |- context [if (33 <? ?e)%Z then _ else _] => assert (E : (33 <? e)%Z = true) end.
      { rewrite Hlen. cbn [length put16]. lia. }
      rewrite E. apply reads_ret.
    - injection Hver as -> -> ->. apply reads_ret. }
  eapply reads_bind; [apply reads_string; now rewrite L1|].
  eapply reads_bind; [apply reads_string; now rewrite L2|].
  eapply reads_bind; [apply reads_string; now rewrite L3|].
  eapply reads_bind; [apply reads_byte|].
  eapply (reads_bind _ _ _ []); [apply reads_idx|].
  rewrite <- (app_nil_r g). eapply reads_bind.
  - apply reads_gbk. rewrite Hlen. rewrite L1, L2, L3. cbn [length put16]. lia.
  - rewrite Hdec, R1, R2, R3. apply reads_ret.
Qed.

Lemma body_roundtrip o now h b w b' : hdr_wf h -> body_sent o h b w b' ->
  encBody o h b = Ok w /\ kind_of b' = kind_of b
    /\ (length w < 1024 ->
        reads_body o now (hdr_set_len h (N.of_nat (length w))) (kind_of b) w b')%nat.
Proof.
  intros Hwf HS.
  destruct HS.
  - (* 0001 *)
    rewrite <- !put16_U16 by assumption. split; [reflexivity|]. split; [reflexivity|]. intros _.
    apply reads_reads_body. cbn [decBody kind_of].
    eapply reads_bind; [now apply reads_word|]. eapply reads_bind; [now apply reads_word|].
    apply (reads_map _ ReadByte (B0001 sn id)), reads_byte.
  - (* 8001 *)
    rewrite <- !put16_U16 by assumption. split; [reflexivity|]. split; [reflexivity|]. intros _.
    apply reads_reads_body. cbn [decBody kind_of].
    eapply reads_bind; [now apply reads_word|]. eapply reads_bind; [now apply reads_word|].
    apply (reads_map _ ReadByte (B8001 sn id)), reads_byte.
  - repeat split. intros _. apply reads_reads_body, reads_ret.
  - repeat split. intros _. apply reads_reads_body, reads_ret.
  - repeat split. intros _. apply reads_reads_body, reads_ret.
  - repeat split. intros _. apply reads_reads_body, reads_ret.
  - repeat split. intros _. apply reads_reads_body, reads_ret.
  - repeat split. intros _. apply reads_reads_body, reads_ret.
  - repeat split. intros _. apply reads_reads_body, reads_ret.
  - (* 0100, 2019 *)
    destruct (fillTo_fits _ _ H2) as (E1 & L1 & R1). destruct (fillTo_fits _ _ H3) as (E2 & L2 & R2).
    destruct (fillTo_fits _ _ H4) as (E3 & L3 & R3).
    split; [|split; [reflexivity|]].
    { cbn [encBody]. unfold enc0100. rewrite H. unfold WriteGBK.
      cbn [r_plate r_manu r_mode r_devid r_color r_prov r_city]. destruct H5 as [-> _].
      rewrite E1, E2, E3, <- !put16_U16 by assumption.
      unfold WriteByte, WriteWord. cbn [app]. now rewrite <- !app_assoc. }
    apply area_iff in H6 as ->; try assumption.
    intros Hl. apply reads_reads_body. cbn [decBody kind_of]. apply reads_0100; auto.
    + cbn [hdr_set_len h_attr attr_set_len a_ver]. now rewrite H.
    + cbn [hdr_set_len h_attr attr_set_len a_len]. rewrite !app_length, L1, L2, L3. cbn [length U16]. lia.
  - (* 0100, 2013 *)
    destruct (fillTo_fits _ _ H2) as (E1 & L1 & R1). destruct (fillTo_fits _ _ H3) as (E2 & L2 & R2).
    destruct (fillTo_fits _ _ H4) as (E3 & L3 & R3).
    split; [|split; [reflexivity|]].
    { cbn [encBody]. unfold enc0100. rewrite H. unfold WriteGBK.
      cbn [r_plate r_manu r_mode r_devid r_color r_prov r_city]. destruct H5 as [-> _].
      rewrite E1, E2, E3, <- !put16_U16 by assumption.
      unfold WriteByte, WriteWord. cbn [app]. now rewrite <- !app_assoc. }
    apply area_iff in H7 as ->; try assumption.
    intros Hl. apply reads_reads_body. cbn [decBody kind_of]. apply reads_0100; auto.
    + cbn [hdr_set_len h_attr attr_set_len a_ver]. now rewrite H.
    + cbn [hdr_set_len h_attr attr_set_len a_len]. rewrite !app_length, L1, L2, L3. cbn [length U16]. lia.
  - (* 0102, 2013 *)
    split; [cbn; unfold enc0102; now rewrite H|]. split; [reflexivity|]. intros Hl.
    apply reads_reads_body. cbn [decBody kind_of]. unfold dec0102.
    change (a_ver (h_attr (hdr_set_len h (N.of_nat (length code))))) with (a_ver (h_attr h)).
    rewrite H. eapply (reads_bind _ _ _ []); [apply reads_idx|]. 
    apply (reads_map _ (ReadString _) (fun c => B0102 0 c [] [])). apply reads_string.
    cbn. lia.
  - (* 0102, 2019 *)
    destruct (fillOnly_fits _ _ H2) as (E & L & R).
    split; [|split; [reflexivity|]].
    { cbn [encBody]. unfold enc0102. rewrite H, E. unfold WriteByte, WriteString.
      assert (E' : fillOnly 15 imei = imei).
      { unfold fillOnly. rewrite H1. cbn. apply app_nil_r. }
      rewrite E'. cbn [app]. rewrite N.mod_small by lia. now rewrite <- !app_assoc. }
    intros Hl. apply reads_reads_body. cbn [decBody kind_of]. unfold dec0102.
    set (hh := hdr_set_len h _). assert (Hv : a_ver (h_attr hh) = V2019) by exact H. rewrite Hv.
    eapply reads_bind; [apply reads_byte|].
    eapply reads_bind; [apply reads_string; lia|].
    eapply reads_bind; [apply reads_string; now rewrite H1|].
    rewrite <- (app_nil_r (padded 20 sw)).
    eapply reads_bind; [apply reads_string; now rewrite L|]. rewrite R. apply reads_ret.
  - (* 0104 *)
    destruct (params_roundtrip o d w e H0) as (w' & -> & He & Hd).
    rewrite <- !put16_U16 by assumption. split; [|split; [reflexivity|]].
    { cbn [encBody]. rewrite He. reflexivity. }
    intros _ sp. eexists. cbn [decBody kind_of].
    rewrite (rest_bind ReadWord _ (put16 sn) sn) by now apply reads_word.
    unfold rd_bind at 1.
    pose proof (reads_byte (length (put16 sn)) (dp_cnt d) (put16 sn) w' sp eq_refl) as RB.
    cbn [app] in RB. rewrite RB.
    unfold rd_bind at 1.
    change (put16 sn ++ dp_cnt d :: w') with (put16 sn ++ [dp_cnt d] ++ w'). rewrite app_assoc.
    replace (length (put16 sn) + length [dp_cnt d])%nat with (length (put16 sn ++ [dp_cnt d]))
      by now rewrite app_length.
    rewrite rd_rest_spec. unfold rd_bind, rd_lift.
    specialize (Hd [] sp). rewrite app_nil_r in Hd.
    change (h_phone (hdr_set_len h _)) with (h_phone h). rewrite <- H1.
    rewrite Hd. reflexivity.
  - (* 8103 *)
    destruct (params_roundtrip o d w e H) as (w' & -> & He & Hd).
    split; [|split; [reflexivity|]].
    { cbn [encBody]. rewrite He. reflexivity. }
    intros _ sp. eexists. cbn [decBody kind_of].
    change (dp_cnt d :: w') with ([dp_cnt d] ++ w').
    rewrite (rest_bind ReadByte _ [dp_cnt d] (dp_cnt d)) by apply reads_byte.
    unfold rd_bind at 1. rewrite rd_rest_spec. unfold rd_bind, rd_lift.
    specialize (Hd [] sp). rewrite app_nil_r in Hd.
    change (h_phone (hdr_set_len h _)) with (h_phone h). rewrite <- H0.
    rewrite Hd. reflexivity.
  - (* 0200 *)
    rewrite <- !put16_U16, <- !put32_U32, <- numberStr2BCD_BCD by (assumption || (rewrite H7; lia)).
    split; [|split; [reflexivity|]].
    { cbn [encBody]. unfold enc0200, WriteDoubleWord, WriteWord, WriteBCD. cbn [app].
      now rewrite <- !app_assoc. }
    intros _. apply reads_reads_body. cbn [decBody kind_of]. unfold dec0200.
    do 4 (eapply reads_bind; [now apply reads_dword|]).
    do 3 (eapply reads_bind; [now apply reads_word|]).
    rewrite <- (app_nil_r (numberStr2BCD _)). eapply reads_bind; [apply reads_bcd|].
    + pose proof (numberStr2BCD_length t H6) as E. rewrite H7 in E.
      specialize (E ltac:(lia) eq_refl). lia.
    + rewrite bcd_roundtrip_long; auto; try (rewrite H7; [lia || reflexivity]).
      apply reads_ret.
  - (* 1205 *)
    destruct (query_roundtrip now q qw H2) as (He & Hl & Hr).
    rewrite <- !put16_U16, <- !put32_U32 by assumption.
    split; [|split; [reflexivity|]].
    { cbn [encBody]. rewrite He. cbn [rmap]. unfold WriteBytes, WriteDoubleWord, WriteWord.
      cbn [app]. now rewrite <- !app_assoc. }
    intros _ sp. eexists. cbn [decBody kind_of].
    rewrite (rest_bind ReadWord _ (put16 sn) sn) by now apply reads_word.
    unfold rd_bind at 1.
    pose proof (reads_dword (length (put16 sn)) cnt H0 (put16 sn) (qw ++ put32 size) sp eq_refl) as RB.
    rewrite RB. unfold rd_bind at 1.
    rewrite app_assoc.
    replace (length (put16 sn) + length (put32 cnt))%nat with (length (put16 sn ++ put32 cnt))
      by now rewrite app_length.
    rewrite rd_rest_spec. unfold rd_bind at 1. unfold rd_lift.
    assert (RM : reads 0 (mediaDecode now) (qw ++ put32 size) (q, size)).
    { unfold mediaDecode. eapply reads_bind; [apply Hr|].
      apply (reads_map _ ReadDoubleWord (fun s => (q, s))). now apply reads_dword. }
    specialize (RM [] [] sp eq_refl). cbn [app] in RM. rewrite app_nil_r in RM.
    change 0%nat with O in RM. rewrite RM. reflexivity.
  - (* 8004 *)
    rewrite <- time_BCD by assumption. split; [reflexivity|]. split; [reflexivity|]. intros _.
    apply reads_reads_body. cbn [decBody kind_of].
    apply (reads_map _ (ReadTime now) (fun t => B8004 (Some t))). now apply reads_time.
  - (* 8100 *)
    rewrite <- !put16_U16 by assumption. split; [reflexivity|split; [reflexivity|]].
    intros Hl. apply reads_reads_body. cbn [decBody kind_of].
    eapply reads_bind; [now apply reads_word|]. eapply reads_bind; [apply reads_byte|].
    eapply (reads_bind _ _ _ []); [apply reads_idx|].
    apply (reads_map _ (ReadString _) (B8100 sn r)). apply reads_string.
    unfold hdr_set_len, attr_set_len. cbn [h_attr a_len]. rewrite !app_length. cbn [length put16]. lia.
  - (* 9205 *)
    destruct (query_roundtrip now q w H) as (He & Hl & Hr).
    split; [exact He|]. split; [reflexivity|]. intros _.
    apply reads_reads_body. cbn [decBody kind_of].
    apply (reads_map _ (mqueryDecode now) B9205). apply Hr.
Qed.

(** * Packets *)
Lemma hdr_set_len_wf h n : hdr_wf h -> n < 1024 -> hdr_wf (hdr_set_len h n).
Proof.
  intros (H1 & H2 & H3 & H4 & H5 & H6 & H7) Hn. unfold hdr_wf, hdr_set_len. cbn.
  repeat split; auto; try apply H2.
Qed.

Lemma packet_roundtrip o h w : hdr_wf h -> (length w < 1024)%nat ->
  exists sp, decodePacket o (escape (genVerifier (writeHeader h w)))
    = Ok (mkPacket (hdr_set_len h (N.of_nat (length w)))
                   (mkSlice w (xorAll (writeHeader h w) :: sp)) 0x7e false).
Proof.
  intros Hwf Hl. unfold decodePacket, escape at 1. rewrite unescape_escape.
  unfold writeHeader. rewrite N.mod_small by lia. rewrite encodeHeader_wire.
  set (h' := hdr_set_len h (N.of_nat (length w))).
  assert (Hwf' : hdr_wf h') by (apply hdr_set_len_wf; [assumption|lia]).
  unfold genVerifier. rewrite verify_app, N.eqb_refl. cbn [rbind].
  match goal with |- context [xorAll _ :: ?x] => exists x; generalize x; intros sp end.
  pose proof (reads_header 0 h' Hwf' [] w (xorAll (header_wire h' ++ w) :: sp) eq_refl) as R. cbn [app] in R.
  rewrite R. cbn [rbind snd fst]. rewrite Nat.add_0_l.
  unfold sl_from, sl_len. cbn [sl_data sl_spare]. rewrite app_length.
  destruct (Nat.leb_spec (length (header_wire h')) (length (header_wire h') + length w)); [|lia].
  cbn [rbind]. rewrite skipn_app, skipn_all, Nat.sub_diag. cbn [skipn app].
  unfold escape. rewrite app_comm_cons, last_last. reflexivity.
Qed.

Lemma message_roundtrip o now h b w b' : hdr_wf h -> body_sent o h b w b' ->
  (length w < 1024)%nat ->
  let h' := hdr_set_len h (N.of_nat (length w)) in
  exists frm p, encodePacket o (mkMsg h b) = Ok frm /\ decodePacket o frm = Ok p
    /\ frm = framed (flat_map escByte (genVerifier (header_layout h' ++ w)))
    /\ pk_hdr p = h' /\ sl_data (pk_body p) = w
    /\ msgDecode o now (kind_of b) p = Ok (mkMsg h' b').
Proof.
  intros Hwf Hb Hl h'. destruct (body_roundtrip o now h b w b' Hwf Hb) as (Hw & Hk & Hr).
  specialize (Hr Hl).
  destruct (packet_roundtrip o h w Hwf Hl) as [sp Hd].
  eexists _, _. split; [|split; [exact Hd|split; [|split; [reflexivity|split; [reflexivity|]]]]].
  - unfold encodePacket, msgEncode. cbn [m_hdr m_body]. rewrite Hw. reflexivity.
  - rewrite escape_framed. do 3 f_equal. unfold writeHeader. rewrite N.mod_small by lia.
    rewrite encodeHeader_wire, header_wire_layout; [reflexivity|].
    apply hdr_set_len_wf; [assumption|lia].
  - unfold msgDecode. cbn [pk_hdr pk_body]. destruct (Hr (xorAll (writeHeader h w) :: sp)) as [j Hj].
    change O with 0%nat in *. rewrite Hj. reflexivity.
Qed.
