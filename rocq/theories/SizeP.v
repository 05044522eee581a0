(** Proofs of C115, C116: lengths of frames, announced and real lengths of bodies *)
From Coq Require Import Lia ZifyN ZifyBool ZifyNat.
From Verif Require Import Base HexM TimeM HeaderM ParamsM GeoM MsgM PacketM FrameM SpecCodec SpecSize.
From Verif Require Import HexP TimeP HeaderP FrameP MsgP CodecP CodecP2 CodecP3.
Local Open Scope N_scope.

Lemma doubles_app p q : doubles (p ++ q) = (doubles p + doubles q)%nat.
Proof. unfold doubles. now rewrite filter_app, app_length. Qed.
Lemma doubles_le p : (doubles p <= length p)%nat.
Proof. unfold doubles. induction p as [|v p IH]; cbn; [lia|]. destruct (doubled v); cbn; lia. Qed.
Lemma escape_length p : length (escape p) = (2 + length p + doubles p)%nat.
Proof.
  rewrite escape_framed. unfold framed. cbn [length]. rewrite app_length. cbn [length].
  enough (length (flat_map escByte p) = (length p + doubles p)%nat) by lia.
  induction p as [|v p IH]; [reflexivity|]. cbn [flat_map length]. rewrite app_length, IH. change (v :: p) with ([v] ++ p). rewrite doubles_app.
  unfold doubles at 2. cbn [filter]. unfold doubled.
  destruct (escByte_cases v) as [[-> ->]|[[-> ->]|(H1 & H2 & ->)]]; cbn [length N.eqb Pos.eqb orb]; try lia.
  apply N.eqb_neq in H1, H2. rewrite H1, H2. cbn. lia.
Qed.

Lemma encoded_packet o h b w : hdr_wf h -> encBody o h b = Ok w -> (length w < 1024)%nat ->
  encodePacket o (mkMsg h b) = Ok (escape (sent_packet h w)).
Proof.
  intros Hh Hb Hw. unfold encodePacket, msgEncode. cbn [m_hdr m_body]. rewrite Hb. cbn [rmap]. unfold sent_packet, genVerifier.
  rewrite xorAll_sum. unfold writeHeader. rewrite N.mod_small by lia.
  assert (Hwf : hdr_wf (hdr_set_len h (N.of_nat (length w)))) by (apply hdr_set_len_wf; [assumption|lia]).
  now rewrite (proj1 (header_layout_roundtrip _ Hwf)).
Qed.
Theorem frame_length o h b w : hdr_wf h -> encBody o h b = Ok w -> (length w < 1024)%nat ->
  exists frm, encodePacket o (mkMsg h b) = Ok frm /\ length frm = (2 + length (sent_packet h w) + doubles (sent_packet h w))%nat.
Proof. intros Hh Hb Hw. exists (escape (sent_packet h w)). split; [now apply encoded_packet|apply escape_length]. Qed.

Lemma BCD_single s : digits s = true -> doubles (BCD s) = O.
Proof.
  induction s as [| a | a b t IH] using list_pair_ind; intros Hd; try reflexivity.
  rewrite !digits_cons in Hd. destruct Hd as (Ha & Hb & Hd). cbn [BCD].
  change (?x :: BCD t) with ([x] ++ BCD t). rewrite doubles_app, IH by assumption. unfold doubles, doubled. cbn [filter].
  replace ((a - 48) * 16 + (b - 48) =? 126) with false by lia. replace ((a - 48) * 16 + (b - 48) =? 125) with false by lia. reflexivity.
Qed.
Lemma U16_len n : length (U16 n) = 2%nat.
Proof. reflexivity. Qed.
(** the parts of a header *)
Lemma header_parts h : hdr_wf h ->
  length (header_layout h) = (4 + (if version_eqb (a_ver (h_attr h)) V2019 then 11 else 6) + 2 + (if a_fragd (h_attr h) then 4 else 0))%nat
  /\ (doubles (header_layout h) <= doubles (U16 (h_id h)) + 2 + (if version_eqb (a_ver (h_attr h)) V2019 then 1 else 0) + 2 + (if a_fragd (h_attr h) then 4 else 0))%nat.
Proof.
  intros (_ & _ & _ & Hd & Hl & _ & Hf). unfold header_layout. rewrite !app_length, !doubles_app, BCD_single by assumption.
  pose proof (BCD_length (h_phone h) Hd) as HB. unfold phone_digits in Hl. rewrite Hl in HB.
  pose proof (doubles_le (U16 (attr_word (h_attr h)))) as D1. pose proof (doubles_le (U16 (h_sn h))) as D2. rewrite U16_len in D1, D2.
  pose proof (doubles_le [h_proto h]) as D4. assert (D5 : doubles [] = O) by reflexivity. cbn [length] in D4. rewrite !U16_len.
  destruct (a_fragd (h_attr h)); [destruct Hf as (f & -> & _)|rewrite Hf].
  - rewrite app_length, doubles_app, !U16_len. pose proof (doubles_le (U16 (f_total f))) as D6. pose proof (doubles_le (U16 (f_index f))) as D7.
    rewrite U16_len in D6, D7. destruct (a_ver (h_attr h)); specialize (HB eq_refl); cbn [version_eqb length] in *; lia.
  - destruct (a_ver (h_attr h)); specialize (HB eq_refl); cbn [version_eqb length] in *; lia.
Qed.
Lemma with_len_fields h n : h_id (with_len h n) = h_id h /\ a_ver (h_attr (with_len h n)) = a_ver (h_attr h) /\ a_fragd (h_attr (with_len h n)) = a_fragd (h_attr h).
Proof. auto. Qed.
Lemma sent_parts h w : hdr_wf h -> (length w < 1024)%nat ->
  (2 + length (sent_packet h w) + doubles (sent_packet h w)
   <= 10 + (if version_eqb (a_ver (h_attr h)) V2019 then 12 else 6) + 2 + (if a_fragd (h_attr h) then 8 else 0) + doubles (U16 (h_id h)) + 2 * length w + 2)%nat.
Proof.
  intros Hh Hw. assert (Hwf : hdr_wf (with_len h (N.of_nat (length w)))) by (apply hdr_set_len_wf; [assumption|lia]).
  destruct (header_parts _ Hwf) as [P1 P2]. destruct (with_len_fields h (N.of_nat (length w))) as (E1 & E2 & E3). rewrite E1, E2, E3 in *.
  unfold sent_packet. rewrite !app_length, !doubles_app. pose proof (doubles_le w) as D. pose proof (doubles_le [xor_sum (header_layout (with_len h (N.of_nat (length w))) ++ w)]) as D'.
  cbn [length] in *. destruct (version_eqb _ _), (a_fragd _); lia.
Qed.
(** C115: frames of unfragmented messages fit, of fragments with up to 8 bytes more *)
Theorem frame_fits o h b w : hdr_wf h -> encBody o h b = Ok w -> (length w < 1024)%nat -> doubles (U16 (h_id h)) = O ->
  exists frm, encodePacket o (mkMsg h b) = Ok frm /\ (length frm <= max_frame + (if fragment h then 8 else 0))%nat.
Proof.
  intros Hh Hb Hw Hi. destruct (frame_length o h b w Hh Hb Hw) as (frm & He & Hl). exists frm. split; [exact He|].
  pose proof (sent_parts h w Hh Hw) as P. rewrite Hi, <- Hl in P. destruct Hh as (_ & (_ & _ & _ & _ & _ & _ & Hfd & _) & _). rewrite Hfd in P. unfold fragment.
  set (M := max_frame). assert (HM : M = (2046 + 26)%nat) by reflexivity. destruct (version_eqb _ _), (_ =? 1); lia.
Qed.
(** a longest fragment does not *)
Lemma doubles_all w : (forall v, In v w -> doubled v = true) -> doubles w = length w.
Proof.
  unfold doubles. induction w as [|v w IH]; intros H; [reflexivity|]. cbn [filter]. rewrite (H v (or_introl eq_refl)). cbn [length]. f_equal.
  apply IH. intros x Hx. apply H. now right.
Qed.
Theorem frame_over o h b w : hdr_wf h -> encBody o h b = Ok w -> length w = 1023%nat -> (forall v, In v w -> doubled v = true) ->
  a_ver (h_attr h) = V2019 -> fragment h = true -> (3 <= doubles (header_layout (with_len h 1023)))%nat ->
  exists frm, encodePacket o (mkMsg h b) = Ok frm /\ (max_frame < length frm)%nat.
Proof.
  intros Hh Hb Hw Hall Hv Hf Hd. destruct (frame_length o h b w Hh Hb ltac:(lia)) as (frm & He & Hl). exists frm. split; [exact He|].
  assert (Hwf : hdr_wf (with_len h 1023)) by (apply hdr_set_len_wf; [assumption|lia]).
  destruct (header_parts _ Hwf) as [P1 _]. destruct (with_len_fields h 1023) as (_ & E2 & E3). rewrite E2, E3, Hv in P1.
  assert (Hfd : a_fragd (h_attr h) = true) by (destruct Hh as (_ & (_ & _ & _ & _ & _ & _ & -> & _) & _); exact Hf). rewrite Hfd in P1.
  unfold sent_packet in Hl. rewrite Hw in Hl. change (N.of_nat 1023) with 1023 in Hl. rewrite !app_length, !doubles_app in Hl.
  rewrite (doubles_all w Hall), P1, Hw in Hl. cbn [version_eqb] in Hl. cbn [length] in Hl.
  set (M := max_frame). assert (HM : M = (2046 + 26)%nat) by reflexivity. lia.
Qed.
(** received frames have any length *)
Theorem recv_long s j c r : ~ In [] (st_next s) -> no_delim j -> no_delim c -> st_bytes s = j ++ framed c ++ r ->
  exists s' frm, recv s = (Ok frm, s') /\ length frm = (2 + length c)%nat.
Proof.
  intros H1 H2 H3 H4. destruct (recv_frame s j c r H1 H2 H3 H4) as (s' & Hr & _). exists s', (framed c). split; [exact Hr|].
  unfold framed. cbn [length]. rewrite app_length. cbn [length]. lia.
Qed.

(** C116 *)
Theorem length_unread o h w c : hdr_wf h -> let p := header_layout h ++ w in escapes (p ++ [xor_sum p]) c ->
  exists q, decodePacket o (framed c) = Ok q /\ pk_hdr q = h /\ sl_data (pk_body q) = w.
Proof.
  intros Hh p Hc. rewrite decodePacket_verify, (unescape_escapes _ _ Hc), verify_app, xorAll_sum, N.eqb_refl. cbn [rbind].
  unfold p. rewrite (proj2 (header_layout_roundtrip h Hh)). cbn [rbind fst snd].
  unfold sl_from, sl_len. cbn [sl_data sl_spare]. rewrite app_length.
  destruct (Nat.leb_spec (length (header_layout h)) (length (header_layout h) + length w)); [|lia].
  cbn [rbind]. rewrite skipn_app, skipn_all, Nat.sub_diag. cbn [skipn app]. eauto.
Qed.
