(** The codec lemmas in the form of the properties *)
From Coq Require Import ZifyBool ZifyNat ZifyN.
From Verif Require Import Base HexM TimeM HashM HeaderM ParamsM GeoM MsgM PacketM FrameM SpecCodec.
From Verif Require Import DecP HexP TimeP HeaderP FrameP MsgP CodecP CodecP2.
Local Open Scope N_scope.
Ltac Zify.zify_post_hook ::= Z.div_mod_to_equations.

Lemma escapes_flat p : escapes p (flat_map escByte p).
Proof.
  induction p as [|v p IH]; cbn [flat_map]; [constructor|].
  destruct (escByte_cases v) as [[-> ->]|[[-> ->]|(H1 & H2 & ->)]]; cbn [app];
    [apply es_7e|apply es_7d|apply es_plain]; auto.
Qed.
Lemma escapes_fun p e : escapes p e -> e = flat_map escByte p.
Proof.
  induction 1; cbn [flat_map]; [reflexivity|..]; rewrite IHescapes; [|reflexivity|reflexivity].
  destruct (escByte_cases v) as [[Ev _]|[[Ev _]|(_ & _ & Ev)]]; [congruence|congruence|].
  now rewrite Ev.
Qed.
Lemma escape_spec p : exists c, escape p = framed c /\ escapes p c /\ no_delim c /\ well_escaped c.
Proof.
  exists (flat_map escByte p). split; [apply escape_framed|]. split; [apply escapes_flat|].
  split; [apply esc_no7e|apply esc_well_escaped].
Qed.
Lemma escape_inj p q : escape p = escape q -> p = q.
Proof. intros H. rewrite <- (unescape_escape p), H. apply unescape_escape. Qed.
Lemma escape_onto c : well_escaped c -> exists p, escape p = framed c.
Proof. intros H. exists (unescLoop c). now rewrite escape_framed, (well_escaped_unesc c H). Qed.
Lemma unescape_escapes p e : escapes p e -> unescape (framed e) = p.
Proof. intros H. rewrite (escapes_fun _ _ H). apply unescape_framed_escape. Qed.

Lemma recv_frame s j c r : ~ In [] (st_next s) -> no_delim j -> no_delim c ->
  st_bytes s = j ++ framed c ++ r ->
  exists s', recv s = (Ok (framed c), s') /\ st_bytes s' = r
    /\ st_end s' = st_end s /\ ~ In [] (st_next s').
Proof.
  intros Hs Hj Hc H. unfold framed in H. rewrite <- app_comm_cons, <- app_assoc in H. cbn [app] in H.
  destruct (frames_cons s j c r Hs Hj Hc H) as (s' & H1 & H2 & H3 & H4 & _). exists s'. auto.
Qed.

Lemma frames_escaped ps js tail s : ~ In [] (st_next s) ->
  (forall j, In j js -> no_delim j) -> no_delim tail ->
  st_bytes s = interleaved js (map escape ps) tail ->
  frames s = map escape ps /\ map unescape (frames s) = ps.
Proof.
  intros Hs Hj Ht H. rewrite map_escape in H.
  assert (E : frames s = map escape ps).
  { rewrite map_escape. eapply frames_packets; eauto. intros c Hc. apply in_map_iff in Hc as (p & <- & _).
    apply esc_no7e. }
  split; [exact E|]. rewrite E, map_map. rewrite (map_ext _ id) by apply unescape_escape. apply map_id.
Qed.

(** C06 *)
Lemma stray_loses ps pre s : ~ In [] (st_next s) ->
  Nat.odd (count_occ N.eq_dec pre delim) = true ->
  st_bytes s = pre ++ concat (map escape ps) ->
  exists fs c, no_delim c /\ (length fs * 2 + 1 = count_occ N.eq_dec pre delim)%nat
    /\ frames s = fs ++ match ps with
                        | [] => []
                        | _ :: ps' => framed c :: repeat (framed []) (length ps')
                        end.
Proof. intros. eapply frames_odd with (n := length pre); eauto. Qed.
Lemma stray_even ps pre s : ~ In [] (st_next s) ->
  Nat.even (count_occ N.eq_dec pre delim) = true ->
  st_bytes s = pre ++ concat (map escape ps) ->
  exists fs, frames s = fs ++ map escape ps /\ (length fs * 2 = count_occ N.eq_dec pre delim)%nat.
Proof. intros. eapply frames_even with (n := length pre); eauto. Qed.

(** C08 *)
Lemma verify_sum o p : (exists s, verify o p = Ok s) <-> p <> [] /\ xor_sum p = 0.
Proof. rewrite <- xorAll_sum. apply verify_iff. Qed.
Lemma verify_encoded o p : exists s, verify o (genVerifier p) = Ok s /\ sl_data s = p.
Proof. destruct (verify_gen o p) as [sp H]. exists (mkSlice p sp). auto. Qed.
Lemma genVerifier_sum p : genVerifier p = p ++ [xor_sum p].
Proof. unfold genVerifier. now rewrite xorAll_sum. Qed.
Lemma verify_corrupt o pre x y post : x <> y -> xor_sum (pre ++ x :: post) = 0 ->
  verify o (pre ++ y :: post) = Err ErrVerifyFailed.
Proof. rewrite <- xorAll_sum. apply verify_one_byte. Qed.

(** C09 *)
Lemma decodePacket_code o c p b code : bytes_ok c = true -> decodePacket o (framed c) = Ok p ->
  unescape (framed c) = b ++ [code] -> pk_code p = delim /\ code = xor_sum b.
Proof.
  intros Hc H Hu. pose proof (unescape_framed_ok c Hc) as Hok. rewrite Hu in Hok.
  apply bytes_ok_app in Hok as [Hb _].
  destruct (decodePacket_cases o b code Hb c Hu) as (H1 & H2 & H3).
  destruct (N.eq_dec code (xor_sum b)) as [E|E].
  - split; [|exact E].
    destruct (decodePacket_outcome o c Hc) as [[E1 E2]|(b' & code' & E1 & _ & [[_ E2]|[(Ec & _ & E2)|(Ec & Hn & _)]])];
      try congruence.
    rewrite E1 in Hu. apply app_inj_tail in Hu as [-> ->].
    destruct (H3 E Hn) as (p' & Hp & Hcode & _). congruence.
  - rewrite (H1 E) in H. discriminate.
Qed.

(** C10 *)
Lemma packet_delivered o h b w : hdr_wf h -> encBody o h b = Ok w -> (length w < 1024)%nat ->
  exists frm p, encodePacket o (mkMsg h b) = Ok frm /\ decodePacket o frm = Ok p
    /\ pk_hdr p = hdr_set_len h (N.of_nat (length w)) /\ sl_data (pk_body p) = w.
Proof.
  intros Hh Hb Hw. destruct (packet_roundtrip o h w Hh Hw) as [sp Hp].
  exists (escape (genVerifier (writeHeader h w))).
  exists (mkPacket (hdr_set_len h (N.of_nat (length w))) (mkSlice w (xorAll (writeHeader h w) :: sp)) 0x7e false).
  split; [|auto]. unfold encodePacket, msgEncode. cbn [m_hdr m_body]. now rewrite Hb.
Qed.

Lemma body_delivered o h b w b' : hdr_wf h -> body_sent o h b w b' -> (length w < 1024)%nat ->
  delivered o h b b'.
Proof.
  intros Hh Hb Hw. exists (N.of_nat (length w)). intros now.
  destruct (message_roundtrip o now h b w b' Hh Hb Hw) as (frm & p & H1 & H2 & _ & H3 & H4 & H5).
  exists frm, p. split; [exact H1|]. split; [exact H2|]. split; [exact H3|]. rewrite H4, H3. auto.
Qed.

(** C11 *)
Lemma header_layout_roundtrip h : hdr_wf h ->
  encodeHeader h = header_layout h /\
  forall post sp, decodeHeader (mkSlice (header_layout h ++ post) sp) O = Ok (h, length (header_layout h)).
Proof.
  intros H. split; [rewrite encodeHeader_wire; now apply header_wire_layout|].
  intros post sp. rewrite <- header_wire_layout by exact H.
  exact (reads_header O h H [] post sp eq_refl).
Qed.

(** C12 *)
Lemma attr_bits w : w < 65536 ->
  let a := attrDecode w in
  (a_len a = w mod 1024 /\ a_enc a = (w / 1024) mod 8 /\ a_frag a = (w / 8192) mod 2
   /\ a_sign a = (w / 16384) mod 2 /\ a_extra a = w / 32768)
  /\ (a_ver a = V2019 <-> N.testbit w 14 = true) /\ (a_ver a = V2013 <-> N.testbit w 14 = false)
  /\ a_fragd a = N.testbit w 13
  /\ attrEncode a = w.
Proof.
  intros H a. subst a. split; [now apply attrDecode_fields|].
  destruct (attrDecode_bits w H) as [H1 H2].
  split; [|split; [|split; [exact H2|now apply attrEncode_attrDecode]]];
    rewrite H1; destruct (N.testbit w 14); split; congruence.
Qed.

(** C18 *)
Lemma hex_val_fromHex c : hex_val c = fromHex c.
Proof.
  unfold hex_val, fromHex.
  destruct (N.leb_spec 48 c), (N.ltb_spec c 58), (N.leb_spec c 57), (N.leb_spec 65 c), (N.ltb_spec c 71),
    (N.leb_spec c 70), (N.leb_spec 97 c), (N.ltb_spec c 103), (N.leb_spec c 102); cbn [andb]; try lia;
    try reflexivity; f_equal; lia.
Qed.
Lemma hex_spells_spec s l : hex_spells s l ->
  Str2Byte s = l /\ Nat.even (length s) = true /\ (forall c, In c s -> fromHex c <> None).
Proof.
  induction 1 as [|a b x y s l Ha Hb H (IH1 & IH2 & IH3)]; [cbn; auto; tauto|].
  rewrite hex_val_fromHex in Ha, Hb. split; [|split].
  - rewrite (Str2Byte_valid _ _ _ _ _ Ha Hb). now rewrite IH1.
  - exact IH2.
  - intros c [<-|[<-|Hc]]; [congruence|congruence|auto].
Qed.
Lemma Str2Byte_spells s l t : hex_spells s l ->
  match t with a :: b :: _ => hex_val a = None \/ hex_val b = None | _ => True end ->
  Str2Byte (s ++ t) = l.
Proof.
  intros Hs Ht. destruct (hex_spells_spec s l Hs) as (H1 & H2 & H3).
  rewrite Str2Byte_prefix by assumption. rewrite H1.
  assert (E : Str2Byte t = []).
  { destruct t as [|a [|b t]]; [reflexivity|reflexivity|]. cbn [Str2Byte].
    rewrite !hex_val_fromHex in Ht. destruct (fromHex a), (fromHex b); destruct Ht; try discriminate; reflexivity. }
  rewrite E. apply app_nil_r.
Qed.
Lemma hexL_val d : d < 16 -> hex_val (hexL d) = Some d.
Proof. intros. rewrite hex_val_fromHex. now apply fromHex_hexL. Qed.
Lemma Byte2Str_spells b : bytes_ok b = true -> hex_spells (Byte2Str b) b.
Proof.
  induction b as [|x b IH]; intros H; [constructor|]. apply bytes_ok_cons in H as [Hx Hb].
  cbn [Byte2Str flat_map app]. replace x with (x / 16 * 16 + x mod 16) at 3 by lia.
  constructor; [apply hexL_val; lia|apply hexL_val; lia|now apply IH].
Qed.

(** C19 *)
Lemma bcd_read s pre post sp : digits s = true ->
  ((8 <= length s)%nat /\ Nat.even (length s) = true \/ (length s <= 8)%nat) ->
  ReadBCD (Z.of_nat (length (WriteBCD [] s))) (mkSlice (pre ++ WriteBCD [] s ++ post) sp) (length pre)
  = Ok (s, (length pre + length (WriteBCD [] s))%nat).
Proof.
  intros Hd Hl. unfold WriteBCD. cbn [app].
  rewrite (reads_bcd (length pre) (Z.of_nat (length (numberStr2BCD s))) (numberStr2BCD s) eq_refl pre post sp eq_refl).
  do 2 f_equal. destruct Hl as [[H1 H2]|H]; [now apply bcd_roundtrip_long|now apply bcd_roundtrip_short].
Qed.
Lemma bcd_written s : digits s = true -> (8 <= length s)%nat -> WriteBCD [] s = BCD s.
Proof. intros. unfold WriteBCD. cbn [app]. now apply numberStr2BCD_BCD. Qed.

(** C20 *)
Lemma phone_refuted o x f1 a0 sn p1 p2 :
  forallb bcdByte f1 = true -> length f1 = 5%nat -> x < 16 -> x <> 0 ->
  let pkt y := [0; 2; 0; a0] ++ (y * 16 + 15) :: f1 ++ U16 sn in
  forall c1 c2, unescape (framed c1) = pkt x ++ [xor_sum (pkt x)] ->
  unescape (framed c2) = pkt 0 ++ [xor_sum (pkt 0)] ->
  bytes_ok c1 = true -> bytes_ok c2 = true ->
  decodePacket o (framed c1) = Ok p1 -> decodePacket o (framed c2) = Ok p2 ->
  phone_field (pkt x) <> phone_field (pkt 0) /\ h_phone (pk_hdr p1) = h_phone (pk_hdr p2).
Proof.
  intros Hf Hlen Hx Hx0 pkt c1 c2 U1 U2 B1 B2 D1 D2.
  assert (F : forall y, phone_field (pkt y) = (y * 16 + 15) :: f1).
  { intros y. unfold pkt, phone_field. cbn [app]. change (N.testbit 0 6) with false. cbn [skipn].
    destruct f1 as [|f1a [|f1b [|f1c [|f1d [|f1e [|]]]]]]; try discriminate Hlen. reflexivity. }
  split.
  - rewrite !F. intros E. inversion E. lia.
  - rewrite (decodePacket_phone o c1 p1 (pkt x) B1 D1 U1), (decodePacket_phone o c2 p2 (pkt 0) B2 D2 U2).
    rewrite !F, !bcd_first_F by (assumption || lia). reflexivity.
Qed.

Lemma reads_U16 i n : n < 65536 -> reads i ReadWord (U16 n) n.
Proof. intros. rewrite <- put16_U16 by assumption. now apply reads_word. Qed.
Lemma reads_U32 i n : n < 4294967296 -> reads i ReadDoubleWord (U32 n) n.
Proof. intros. rewrite <- put32_U32 by assumption. now apply reads_dword. Qed.
(** C26: additional items after the mandatory part *)
Lemma loc_extra o now h alarm status lat lon alt sp dir t w extra :
  hdr_wf h -> body_sent o h (B0200 (mkLoc alarm status lat lon alt sp dir t)) w
                        (B0200 (mkLoc alarm status lat lon alt sp dir t)) ->
  (length (w ++ extra) < 1024)%nat ->
  exists p, decodePacket o (escape (genVerifier (writeHeader h (w ++ extra)))) = Ok p
    /\ msgDecode o now K0200 p = Ok (mkMsg (pk_hdr p) (B0200 (mkLoc alarm status lat lon alt sp dir t))).
Proof.
  intros Hh Hb Hl. destruct (packet_roundtrip o h (w ++ extra) Hh Hl) as [sp0 Hp].
  eexists. split; [exact Hp|]. unfold msgDecode. cbn [pk_hdr pk_body].
  assert (R : reads O (decBody o now K0200 (hdr_set_len h (N.of_nat (length (w ++ extra))))) w
               (B0200 (mkLoc alarm status lat lon alt sp dir t))).
  { inversion Hb; subst. cbn [decBody]. unfold dec0200.
    repeat match goal with
    | |- reads _ (rd_bind ReadDoubleWord _) _ _ =>
        eapply reads_bind; [apply reads_U32; eassumption|cbv beta]
    | |- reads _ (rd_bind ReadWord _) _ _ =>
        eapply reads_bind; [apply reads_U16; eassumption|cbv beta]
    end.
    match goal with H : digits t = true, L : length t = _ |- _ =>
      assert (L8 : (8 <= length t)%nat) by lia; assert (EV : Nat.even (length t) = true) by now rewrite L end.
    rewrite <- numberStr2BCD_BCD by assumption.
    rewrite <- (app_nil_r (numberStr2BCD t)).
    eapply reads_bind; [apply reads_bcd|].
    - pose proof (numberStr2BCD_length t ltac:(assumption) L8 EV). lia.
    - rewrite bcd_roundtrip_long by assumption. apply reads_ret. }
  specialize (R [] extra (xorAll (writeHeader h (w ++ extra)) :: sp0) eq_refl).
  cbn [app] in R. rewrite R. reflexivity.
Qed.

(** C73 *)
Lemma message_layout o now h b w b' : hdr_wf h -> body_sent o h b w b' -> (length w < 1024)%nat ->
  let h' := hdr_set_len h (N.of_nat (length w)) in
  let pkt := header_layout h' ++ w in
  (exists e, encodePacket o (mkMsg h b) = Ok (framed e) /\ escapes (pkt ++ [xor_sum pkt]) e)
  /\ forall e, escapes (pkt ++ [xor_sum pkt]) e ->
     exists p, decodePacket o (framed e) = Ok p /\ pk_hdr p = h' /\ sl_data (pk_body p) = w
       /\ msgDecode o now (kind_of b) p = Ok (mkMsg h' b').
Proof.
  intros Hh Hb Hw h' pkt.
  destruct (message_roundtrip o now h b w b' Hh Hb Hw) as (frm & p & H1 & H2 & H6 & H3 & H4 & H5).
  fold h' in H6, H3, H5. fold pkt in H6. rewrite genVerifier_sum in H6. split.
  - eexists. rewrite H1, H6. split; [reflexivity|apply escapes_flat].
  - intros e He. rewrite (escapes_fun _ _ He), <- H6. exists p. auto.
Qed.

(** C21 *)
Lemma time_roundtrip now t pre post sp : civil_valid t -> year_window t ->
  WriteTime [] t = BCD (time_digits t) /\
  ReadTime now (mkSlice (pre ++ WriteTime [] t ++ post) sp) (length pre)
  = Ok (t, (length pre + length (WriteTime [] t))%nat).
Proof.
  intros Hv Hy. unfold WriteTime, WriteBCD. cbn [app]. split; [now apply time_BCD|].
  now apply (reads_time (length pre) now t Hv Hy).
Qed.
Lemma bcd2NumberStr_long b : (12 <= length (bcd2NumberStr b))%nat -> length b = 6%nat ->
  bcd2NumberStr b = bcdHex b.
Proof.
  intros H Hb. unfold bcd2NumberStr in *. pose proof (bcdHex_length b) as L.
  destruct (Nat.eqb (afterLastF (bcdHex b)) 9); [cbn in H; lia|].
  rewrite skipn_length in H. assert (afterLastF (bcdHex b) = O) as -> by lia. reflexivity.
Qed.
Lemma time_read now w : length w = 6%nat -> bytes_ok w = true ->
  exists t, (forall pre post sp, ReadTime now (mkSlice (pre ++ w ++ post) sp) (length pre)
                                 = Ok (t, (length pre + 6)%nat))
    /\ ((civil_valid t /\ year_window t /\ w = BCD (time_digits t))
        \/ (t = now /\ forall u, civil_valid u -> year_window u -> w <> BCD (time_digits u))).
Proof.
  intros Hw Hok. destruct (ReadTime_total now w Hw) as (t & Hr & Hc). exists t. split.
  - intros pre post sp. rewrite (Hr (length pre) pre post sp eq_refl). now rewrite Hw.
  - destruct Hc as [(Hv & Hy & He)|[He Hn]]; [left|right].
    + split; [exact Hv|]. split; [exact Hy|]. rewrite <- time_BCD by exact Hv.
      rewrite <- He. rewrite bcd2NumberStr_long by (rewrite ?He, ?FormatTime_length; lia).
      symmetry. 
      assert (D : digits (bcdHex w) = true).
      { rewrite <- bcd2NumberStr_long by (rewrite ?He, ?FormatTime_length; lia). rewrite He.
        now apply digits_FormatTime. }
      rewrite numberStr2BCD_long by (rewrite bcdHex_length; lia).
      clear - Hok. induction w as [|x w IH]; [reflexivity|].
      apply bytes_ok_cons in Hok as [Hx Hok]. cbn [bcdHex flat_map app].
      rewrite (Str2Byte_valid _ _ _ (x / 16) (x mod 16)) by (apply fromHex_hexU; lia).
      fold (bcdHex w). rewrite IH by exact Hok. f_equal. lia.
    + split; [exact He|]. intros u Hv Hy E. apply (Hn u Hv Hy). rewrite E, <- time_BCD by exact Hv.
      apply bcd_roundtrip_long; [now apply digits_FormatTime|rewrite FormatTime_length; lia|
        now rewrite FormatTime_length].
Qed.

Lemma skipn_skipn' {A} n m (l : list A) : skipn n (skipn m l) = skipn (n + m) l.
Proof.
  revert l; induction m as [|m IH]; intros l; [now rewrite Nat.add_0_r|].
  rewrite Nat.add_succ_r. destruct l as [|a l]; [now rewrite !skipn_nil|]. cbn [skipn]. apply IH.
Qed.
(** C29 *)
Lemma value_fits_same o k v w v' : value_fits o k v w v' -> same_value v v'.
Proof.
  intros H; inversion H; subst; cbn [same_value]; try reflexivity;
    exists (Z.to_N z); (split; [lia|auto]).
Qed.
Lemma params_values o ps w qs : params_list_sent o ps w qs ->
  Forall2 (fun p q => p_id q = p_id p /\ same_value (p_val p) (p_val q)) ps qs.
Proof.
  induction 1 as [|p w q ps ws qs (k & v & _ & _ & Hv & Hid & _) H IH]; constructor; [|exact IH].
  split; [exact Hid|]. eapply value_fits_same; eauto.
Qed.
Lemma params_coded o d w e : params_sent o d w e ->
  paramsEncode o d = Ok w
  /\ (exists v, w = dp_cnt d :: v /\ forall post sp,
        paramsDecode o (dp_phone e) (dp_cnt d) (mkSlice (v ++ post) sp) = Ok e)
  /\ dp_cnt e = dp_cnt d
  /\ Forall2 (fun p q => p_id q = p_id p /\ same_value (p_val p) (p_val q)) (dp_list d) (dp_list e).
Proof.
  intros H. destruct (params_roundtrip o d w e H) as (v & Hw & He & Hd).
  split; [exact He|]. split; [exists v; auto|]. destruct H as (_ & _ & Hc & v' & Hl & _).
  split; [exact Hc|]. eapply params_values; eauto.
Qed.

(** single messages *)
Lemma query_length q w : query_layout q w -> length w = 24%nat.
Proof. intros H. now destruct (query_roundtrip (mkCivil 0 0 0 0 0 0) q w H) as (_ & L & _). Qed.
Ltac send_body := eapply body_delivered; [assumption|econstructor; eassumption|].
Lemma padded_length n s : text_fits n s -> length (padded n s) = n.
Proof. intros H. apply (fillTo_fits _ _ H). Qed.

Lemma reply_delivered o h sn id r : hdr_wf h -> sn < 65536 -> id < 65536 ->
  delivered o h (B0001 sn id r) (B0001 sn id r) /\ delivered o h (B8001 sn id r) (B8001 sn id r).
Proof. intros. split; send_body; cbn [length app U16]; lia. Qed.

Lemma reg2019_delivered o h prov city manu mode did color plate loc g :
  hdr_wf h -> a_ver (h_attr h) = V2019 -> prov < 65536 -> city < 65536 ->
  text_fits 11 manu -> text_fits 30 mode -> text_fits 30 did -> gbk_fits o plate g ->
  (length g < 948)%nat ->
  exists loc', area o prov city loc'
    /\ delivered o h (B0100 (mkReg prov city manu mode did color plate loc))
                     (B0100 (mkReg prov city manu mode did color plate loc')).
Proof.
  intros. exists (regionName o (pad0 2 (itoa prov) ++ pad0 4 (itoa city))).
  assert (area o prov city (regionName o (pad0 2 (itoa prov) ++ pad0 4 (itoa city)))) by (apply area_iff; auto).
  split; [assumption|]. eapply body_delivered; [assumption|eapply bs_0100_2019; eassumption|].
  rewrite !app_length, !padded_length by assumption. cbn [length U16]. lia.
Qed.

Lemma reg2013_delivered o h prov city manu mode did color plate loc g :
  hdr_wf h -> a_ver (h_attr h) = V2013 -> prov < 65536 -> city < 65536 ->
  text_fits 5 manu -> text_fits 20 mode -> text_fits 7 did -> gbk_fits o plate g -> g <> [] ->
  (length g < 987)%nat ->
  exists loc', area o prov city loc'
    /\ delivered o h (B0100 (mkReg prov city manu mode did color plate loc))
                     (B0100 (mkReg prov city manu mode did color plate loc')).
Proof.
  intros. exists (regionName o (pad0 2 (itoa prov) ++ pad0 4 (itoa city))).
  assert (area o prov city (regionName o (pad0 2 (itoa prov) ++ pad0 4 (itoa city)))) by (apply area_iff; auto).
  split; [assumption|]. eapply body_delivered; [assumption|eapply bs_0100_2013; eassumption|].
  rewrite !app_length, !padded_length by assumption. cbn [length U16]. lia.
Qed.

Lemma reg2013_no_plate o now h prov city manu mode did color loc :
  hdr_wf h -> a_ver (h_attr h) = V2013 -> prov < 65536 -> city < 65536 ->
  text_fits 5 manu -> text_fits 20 mode -> text_fits 7 did -> gbk_fits o [] [] ->
  exists frm p color' plate' loc',
    encodePacket o (mkMsg h (B0100 (mkReg prov city manu mode did color [] loc))) = Ok frm
    /\ decodePacket o frm = Ok p
    /\ msgDecode o now K0100 p = Ok (mkMsg (pk_hdr p)
         (B0100 (mkReg prov city manu (trimNul (firstn 8 (padded 20 mode)))
                       (trimNul (firstn 7 (skipn 8 (padded 20 mode)))) color' plate' loc'))).
Proof.
  intros Hh Hv Hp Hc T1 T2 T3 [Ge Gd].
  destruct (fillTo_fits _ _ T1) as (E1 & L1 & R1). destruct (fillTo_fits _ _ T2) as (E2 & L2 & R2).
  destruct (fillTo_fits _ _ T3) as (E3 & L3 & R3).
  set (pm := padded 20 mode) in *.
  set (w := U16 prov ++ U16 city ++ padded 5 manu ++ pm ++ padded 7 did ++ [color]).
  assert (Lw : length w = 37%nat).
  { unfold w. rewrite !app_length, L1, L2, L3. reflexivity. }
  assert (EB : encBody o h (B0100 (mkReg prov city manu mode did color [] loc)) = Ok w).
  { cbn [encBody]. unfold enc0100. rewrite Hv. unfold WriteGBK.
    cbn [r_plate r_manu r_mode r_devid r_color r_prov r_city]. rewrite Ge.
    rewrite E1, E2, E3. unfold w. rewrite <- !put16_U16 by assumption.
    unfold WriteByte, WriteWord. cbn [app]. now rewrite <- !app_assoc, app_nil_r. }
  destruct (packet_delivered o h _ w Hh EB ltac:(lia)) as (frm & p & P1 & P2 & P3 & P4).
  assert (Ep : exists x, skipn 15 pm = x :: skipn 16 pm).
  { do 16 (destruct pm as [|? pm]; [discriminate L2|]). cbn [skipn]. eauto. }
  destruct Ep as [x Ep].
  assert (Spm : pm = firstn 8 pm ++ firstn 7 (skipn 8 pm) ++ [x] ++ skipn 16 pm).
  { rewrite <- (firstn_skipn 8 pm) at 1. f_equal. rewrite <- (firstn_skipn 7 (skipn 8 pm)) at 1. f_equal.
    rewrite skipn_skipn'. cbn [Nat.add]. exact Ep. }
  exists frm, p. do 3 eexists. split; [exact P1|]. split; [exact P2|].
  unfold msgDecode. rewrite P3. destruct (pk_body p) as [d sp]. cbn [sl_data] in P4. subst d.
  cbn [decBody].
  assert (R : forall pl, reads 0 (dec0100 o (hdr_set_len h (N.of_nat (length w)))) w
     (B0100 (mkReg prov city manu (trimNul (firstn 8 pm)) (trimNul (firstn 7 (skipn 8 pm))) x
        (match o_gbk_dec o (skipn 16 pm ++ padded 7 did ++ [color]) with Some s => s | None => [] end)
        pl)) \/ pl <> regionName o (pad0 2 (itoa prov) ++ pad0 4 (itoa city))).
  { intros pl. destruct (list_eq_dec N.eq_dec pl (regionName o (pad0 2 (itoa prov) ++ pad0 4 (itoa city))))
      as [->|]; [left|right; assumption].
    assert (Ew : w = U16 prov ++ U16 city ++ padded 5 manu ++ firstn 8 pm ++ firstn 7 (skipn 8 pm)
                  ++ [x] ++ skipn 16 pm ++ padded 7 did ++ [color]).
    { unfold w. rewrite Spm at 1. now rewrite <- !app_assoc. }
    assert (Lg : length (skipn 16 pm ++ padded 7 did ++ [color]) = 12%nat).
    { rewrite !app_length, skipn_length, L2, L3. reflexivity. }
    rewrite Lw, Ew. remember (skipn 16 pm ++ padded 7 did ++ [color]) as g eqn:Hg. clear Hg. unfold dec0100.
    eapply reads_bind; [now apply reads_U16|]. eapply reads_bind; [now apply reads_U16|].
    eapply (reads_bind _ _ _ []); [apply reads_idx|]. cbv zeta.
    eapply (reads_bind _ _ _ [] _ (5, 8, 7)%Z).
    { cbn [hdr_set_len h_attr attr_set_len a_ver a_len]. rewrite Hv. cbn -[rd_ret]. apply reads_ret. }
    eapply reads_bind; [apply reads_string; now rewrite L1|].
    eapply reads_bind; [apply reads_string; rewrite firstn_length, L2; reflexivity|].
    eapply reads_bind; [apply reads_string; rewrite firstn_length, skipn_length, L2; reflexivity|].
    eapply reads_bind; [apply reads_byte|].
    eapply (reads_bind _ _ _ []); [apply reads_idx|].
    rewrite <- (app_nil_r g). eapply (reads_bind _ _ _ g []).
    - apply reads_gbk. cbn [hdr_set_len h_attr attr_set_len a_len].
      rewrite !firstn_length, !skipn_length, L1, L2, Lg. cbn [length U16]. lia.
    - rewrite ?app_nil_r, R1. apply reads_ret. }
  destruct (R (regionName o (pad0 2 (itoa prov) ++ pad0 4 (itoa city)))) as [R0|R0]; [|congruence].
  specialize (R0 [] [] sp eq_refl). cbn [app] in R0. rewrite app_nil_r in R0. rewrite R0. reflexivity.
Qed.

Lemma auth2019_delivered o h al code imei sw : hdr_wf h -> a_ver (h_attr h) = V2019 ->
  (length code < 256)%nat -> length imei = 15%nat -> text_fits 20 sw ->
  delivered o h (B0102 al code imei sw) (B0102 (N.of_nat (length code)) code imei sw).
Proof.
  intros. eapply body_delivered; [assumption|eapply bs_0102_2019; eassumption|].
  rewrite !app_length, !padded_length by assumption. cbn [length]. lia.
Qed.
Lemma auth2013_delivered o h al code imei sw : hdr_wf h -> a_ver (h_attr h) = V2013 ->
  (length code < 1024)%nat -> delivered o h (B0102 al code imei sw) (B0102 0 code [] []).
Proof. intros. eapply body_delivered; [assumption|eapply bs_0102_2013; eassumption|assumption]. Qed.
Lemma regreply_delivered o h sn r code : hdr_wf h -> sn < 65536 -> (length code < 1021)%nat ->
  delivered o h (B8100 sn r code) (B8100 sn r code).
Proof. intros. send_body. rewrite !app_length. cbn [length U16]. lia. Qed.

Lemma loc_sent o h l : loc_fits l -> exists w, body_sent o h (B0200 l) w (B0200 l) /\ length w = 28%nat.
Proof.
  destruct l as [alarm status lat lon alt sp dir t]. intros (H1 & H2 & H3 & H4 & H5 & H6 & H7 & H8 & H9).
  cbn in *. eexists. split; [apply bs_0200; eassumption|].
  rewrite !app_length. cbn [length U16 U32].
  pose proof (BCD_length t H8 ltac:(now rewrite H9)). lia.
Qed.
Lemma loc_delivered o h l : hdr_wf h -> loc_fits l -> delivered o h (B0200 l) (B0200 l).
Proof.
  intros Hh Hl. destruct (loc_sent o h l Hl) as (w & Hw & L). eapply body_delivered; eauto. lia.
Qed.
Lemma loc_extra_delivered o now h l extra : hdr_wf h -> loc_fits l -> (length extra < 996)%nat ->
  exists w p, encBody o h (B0200 l) = Ok w
    /\ decodePacket o (escape (genVerifier (writeHeader h (w ++ extra)))) = Ok p
    /\ msgDecode o now K0200 p = Ok (mkMsg (pk_hdr p) (B0200 l)).
Proof.
  intros Hh Hl He. destruct (loc_sent o h l Hl) as (w & Hw & L).
  destruct (body_roundtrip o now h _ w _ Hh Hw) as (EB & _).
  destruct l as [alarm status lat lon alt sp dir t].
  destruct (loc_extra o now h alarm status lat lon alt sp dir t w extra Hh Hw) as (p & P1 & P2).
  { rewrite app_length. lia. }
  exists w, p. auto.
Qed.
Lemma media_delivered o h q qw sn cnt size : hdr_wf h -> query_layout q qw ->
  sn < 65536 -> cnt < 4294967296 -> size < 4294967296 ->
  delivered o h (B9205 q) (B9205 q) /\ delivered o h (B1205 sn cnt q size) (B1205 sn cnt q size).
Proof.
  intros Hh Hq Hs Hc Hz. pose proof (query_length q qw Hq) as L. split.
  - eapply body_delivered; [assumption|eapply bs_9205; eassumption|lia].
  - eapply body_delivered; [assumption|eapply bs_1205; eassumption|].
    rewrite !app_length, L. cbn [length U16 U32]. lia.
Qed.
Lemma time_delivered o h t : hdr_wf h -> civil_valid t -> year_window t ->
  delivered o h (B8004 (Some t)) (B8004 (Some t)).
Proof.
  intros Hh Hv Hy. eapply body_delivered; [assumption|eapply bs_8004; eassumption|].
  rewrite <- time_BCD by assumption. rewrite time_bcd_length by assumption. lia.
Qed.
Lemma params_delivered o h sn cnt d w e : hdr_wf h -> sn < 65536 -> params_sent o d w e ->
  dp_phone e = h_phone h -> (length w < 1022)%nat ->
  delivered o h (B8103 cnt (Some d)) (B8103 (dp_cnt d) (Some e))
  /\ delivered o h (B0104 sn cnt (Some d)) (B0104 sn (dp_cnt d) (Some e)).
Proof.
  intros Hh Hs Hp Hph Hl. split.
  - eapply body_delivered; [assumption|eapply bs_8103; eassumption|lia].
  - eapply body_delivered; [assumption|eapply bs_0104; eassumption|].
    rewrite app_length. cbn [length U16]. lia.
Qed.
Lemma geo_roundtrip_equal w i : N.testbit w 2 = N.testbit w 3 -> assigned i = true ->
  N.testbit (geoEncode (geoDecode w)) i = N.testbit w i.
Proof.
  intros H Ha. rewrite geo_testbit, Ha. cbn [andb]. unfold swap23.
  destruct (N.eqb_spec i 2) as [->|]; [now symmetry|]. now destruct (N.eqb_spec i 3) as [->|].
Qed.
