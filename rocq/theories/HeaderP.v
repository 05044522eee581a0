(** Proofs about message headers *)
From Coq Require Import ZifyBool ZifyNat ZifyN.
From Verif Require Import Base HexM HeaderM SpecCodec HexP.
Local Open Scope N_scope.
Ltac Zify.zify_post_hook ::= Z.div_mod_to_equations.

Lemma field_bits w s k m : m = N.shiftl (N.ones k) s ->
  N.shiftr (N.land w m) s = (w / 2 ^ s) mod 2 ^ k.
Proof.
  intros ->. rewrite N.shiftr_land, N.shiftr_shiftl_l by lia. rewrite N.sub_diag.
  rewrite N.shiftl_0_r, N.land_ones, N.shiftr_div_pow2. reflexivity.
Qed.

(** C12: the decoded bit fields *)
Lemma attrDecode_fields w : w < 65536 ->
  let a := attrDecode w in
  a_len a = w mod 1024 /\ a_enc a = (w / 1024) mod 8 /\ a_frag a = (w / 8192) mod 2
  /\ a_sign a = (w / 16384) mod 2 /\ a_extra a = w / 32768.
Proof.
  intros Hw. unfold attrDecode. cbn [a_len a_enc a_frag a_sign a_extra].
  rewrite (field_bits w 10 3 0x1c00 eq_refl), (field_bits w 13 1 0x2000 eq_refl),
    (field_bits w 14 1 0x4000 eq_refl), (field_bits w 15 1 0x8000 eq_refl).
  change 0x3ff with (N.ones 10). rewrite N.land_ones.
  change (2 ^ 10) with 1024. change (2 ^ 3) with 8. change (2^13) with 8192.
  change (2 ^ 1) with 2. change (2 ^ 14) with 16384. change (2 ^ 15) with 32768.
  repeat split; lia.
Qed.

Lemma attrEncode_attrDecode w : w < 65536 -> attrEncode (attrDecode w) = w.
Proof.
  intros Hw. destruct (attrDecode_fields w Hw) as (E1 & E2 & E3 & E4 & E5).
  unfold attrEncode. cbv zeta in *. rewrite E1, E2, E3, E4, E5. lia.
Qed.

Lemma attrEncode_lt a : attrEncode a < 65536.
Proof. unfold attrEncode. lia. Qed.

Lemma attrDecode_attrEncode a : attr_wf a -> attrDecode (attrEncode a) = a.
Proof.
  intros (H1 & H2 & H3 & H4 & H5 & H6 & H7 & H8).
  destruct (attrDecode_fields (attrEncode a) (attrEncode_lt a)) as (E1 & E2 & E3 & E4 & E5).
  cbv zeta in *.
  assert (F1 : a_len (attrDecode (attrEncode a)) = a_len a) by (rewrite E1; unfold attrEncode; lia).
  assert (F2 : a_enc (attrDecode (attrEncode a)) = a_enc a) by (rewrite E2; unfold attrEncode; lia).
  assert (F3 : a_frag (attrDecode (attrEncode a)) = a_frag a) by (rewrite E3; unfold attrEncode; lia).
  assert (F4 : a_sign (attrDecode (attrEncode a)) = a_sign a) by (rewrite E4; unfold attrEncode; lia).
  assert (F5 : a_extra (attrDecode (attrEncode a)) = a_extra a) by (rewrite E5; unfold attrEncode; lia).
  clear E1 E2 E3 E4 E5.
  unfold attrDecode in *. cbn [a_len a_enc a_frag a_sign a_extra] in *.
  rewrite F1, F2, F3, F4, F5. rewrite <- H6, <- H7, <- H8. destruct a; reflexivity.
Qed.

Lemma attrDecode_wf w : w < 65536 -> attr_wf (attrDecode w).
Proof.
  intros Hw. destruct (attrDecode_fields w Hw) as (E1 & E2 & E3 & E4 & E5). cbv zeta in *.
  unfold attr_wf. rewrite E1, E2, E3, E4, E5. repeat split; try lia.
  all: rewrite <- ?E2, <- ?E3, <- ?E4; reflexivity.
Qed.

(** the bytes written *)
Definition header_wire (h : header) : bytes :=
  put16 (h_id h) ++ put16 (attrEncode (h_attr h))
  ++ (if version_eqb (a_ver (h_attr h)) V2019 then [h_proto h] else [])
  ++ numberStr2BCD (h_phone h) ++ put16 (h_sn h)
  ++ (match h_frag h with Some f => put16 (f_total f) ++ put16 (f_index f) | None => [] end).

Lemma encodeHeader_wire h : encodeHeader h = header_wire h.
Proof.
  unfold encodeHeader, header_wire, WriteWord, WriteByte, WriteBCD, fragEncode, WriteWord.
  destruct (version_eqb (a_ver (h_attr h)) V2019), (h_frag h) as [f|]; cbn [app];
    rewrite <- ?app_assoc; cbn [app]; rewrite ?app_nil_r; reflexivity.
Qed.

Lemma attr_wf_ver a : attr_wf a -> a_ver a = V2019 \/ a_ver a = V2013.
Proof. intros (_ & _ & _ & _ & _ & _ & _ & H). rewrite H. destruct (a_sign a =? 1); auto. Qed.

Lemma phone_bcd_length h : hdr_wf h ->
  length (numberStr2BCD (h_phone h)) = match a_ver (h_attr h) with V2019 => 10%nat | _ => 6%nat end.
Proof.
  intros (H1 & H2 & H3 & H4 & H5 & _).
  pose proof (numberStr2BCD_length (h_phone h) H4) as E. rewrite H5 in E.
  destruct (a_ver (h_attr h)); cbn [phone_digits] in E;
    specialize (E ltac:(lia) eq_refl); lia.
Qed.

Lemma bcd_phone h : hdr_wf h -> bcd2NumberStr (numberStr2BCD (h_phone h)) = h_phone h.
Proof.
  intros (H1 & H2 & H3 & H4 & H5 & _). apply bcd_roundtrip_long; auto.
  - rewrite H5. destruct (a_ver (h_attr h)); cbn; lia.
  - rewrite H5. destruct (a_ver (h_attr h)); reflexivity.
Qed.

Lemma reads_frag i f : frag_wf f -> reads i fragDecode (put16 (f_total f) ++ put16 (f_index f)) f.
Proof.
  intros [H1 H2]. unfold fragDecode. eapply reads_bind; [apply reads_word, H1|].
  rewrite <- (app_nil_r (put16 (f_index f))). eapply reads_bind; [apply reads_word, H2|].
  destruct f; apply reads_ret.
Qed.

Lemma reads_header i h : hdr_wf h -> reads i decodeHeader (header_wire h) h.
Proof.
  intros Hwf. pose proof (phone_bcd_length h Hwf) as Hpl. pose proof (bcd_phone h Hwf) as Hbp.
  destruct Hwf as (H1 & H2 & H3 & H4 & H5 & H6 & H7).
  unfold decodeHeader, header_wire.
  eapply reads_bind; [apply reads_word, H1|].
  eapply reads_bind; [apply reads_word, attrEncode_lt|].
  cbv zeta. rewrite (attrDecode_attrEncode _ H2).
  eapply (reads_bind _ _ _ _ _ (h_proto h)).
  { destruct (version_eqb (a_ver (h_attr h)) V2019).
    - apply reads_byte.
    - rewrite H6. apply reads_ret. }
  eapply (reads_bind _ _ _ _ _ (h_phone h)).
  { rewrite <- Hbp at 2.
    destruct (attr_wf_ver _ H2) as [E|E]; rewrite E in *; cbn [version_eqb];
      apply reads_bcd; rewrite Hpl; reflexivity. }
  eapply reads_bind; [apply reads_word, H3|].
  rewrite <- (app_nil_r (match h_frag h with Some _ => _ | None => _ end)).
  eapply (reads_bind _ _ _ _ _ (h_frag h)).
  { destruct (a_fragd (h_attr h)).
    - destruct H7 as (f & -> & Hf). apply (reads_map _ fragDecode Some). now apply reads_frag.
    - rewrite H7. apply reads_ret. }
  destruct h; apply reads_ret.
Qed.

Lemma attrEncode_word a : attr_wf a -> attrEncode a = attr_word a.
Proof. intros (H1 & H2 & H3 & H4 & H5 & _). unfold attrEncode, attr_word. lia. Qed.

Lemma header_wire_layout h : hdr_wf h -> header_wire h = header_layout h.
Proof.
  intros (H1 & H2 & H3 & H4 & H5 & H6 & H7). unfold header_wire, header_layout.
  rewrite <- (attrEncode_word _ H2). pose proof (attrEncode_lt (h_attr h)).
  rewrite (put16_U16 _ H1), (put16_U16 (attrEncode _)), (put16_U16 (h_sn h)) by assumption.
  rewrite numberStr2BCD_BCD; [|assumption|].
  2:{ rewrite H5. destruct (a_ver (h_attr h)); cbn; lia. }
  do 5 f_equal. destruct (h_frag h) as [f|] eqn:Ef; [|reflexivity].
  destruct (a_fragd (h_attr h)); [|discriminate].
  destruct H7 as (f' & E & Hf1 & Hf2). injection E as <-.
  now rewrite !put16_U16 by assumption.
Qed.
