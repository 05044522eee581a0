(** What a version 2019 device reads of a message of the platform (C14) *)
From Verif Require Import Base HexM TimeM HeaderM MsgM PacketM SpecCodec SpecGen HexP HeaderP FrameP MsgP CodecP CodecP3 CanonP.
From Coq Require Import ZifyN ZifyNat ZifyBool Zify.
Local Open Scope N_scope.
Ltac Zify.zify_post_hook ::= Z.to_euclidean_division_equations.

Lemma shifted_number rest y c1 c2 : digits rest = true -> length rest = 18%nat -> y < 256 ->
  bcd2NumberStr (BCD rest ++ [y]) = shifted (c1 :: c2 :: rest) y.
Proof.
  intros Hd Hl Hy. unfold bcd2NumberStr, shifted. cbn [skipn].
  assert (E : bcdHex (BCD rest ++ [y]) = rest ++ [hex_digit (y / 16); hex_digit (y mod 16)]).
  { rewrite bcdHex_app, bcdHex_BCD; [|assumption|now rewrite Hl]. reflexivity. }
  rewrite E. assert (F : forall d, d < 16 -> (hex_digit d = 70 <-> d = 15)) by (intros d H; unfold hex_digit; destruct (N.ltb_spec d 10); lia).
  pose proof (digits_noF rest Hd) as NF. destruct (N.eqb_spec (y mod 16) 15) as [E1|E1].
  - rewrite E1. change (hex_digit 15) with 70.
    assert (A : afterLastF (rest ++ [hex_digit (y / 16); 70]) = 20%nat).
    { clear - Hl. do 18 (destruct rest as [|? rest]; [discriminate|]). destruct rest; [|discriminate]. reflexivity. }
    rewrite A. cbn [Nat.eqb]. apply skipn_all2. rewrite app_length, Hl. reflexivity.
  - destruct (N.eqb_spec (y / 16) 15) as [E2|E2].
    + rewrite E2. change (hex_digit 15) with 70.
      assert (A : afterLastF (rest ++ [70; hex_digit (y mod 16)]) = 19%nat).
      { assert (G : (hex_digit (y mod 16) =? 70) = false) by (apply N.eqb_neq; rewrite F by lia; exact E1).
        clear - Hl G. do 18 (destruct rest as [|? rest]; [discriminate|]). destruct rest; [|discriminate]. cbn [app afterLastF]. rewrite G. reflexivity. }
      rewrite A. cbn [Nat.eqb]. change (rest ++ [70; hex_digit (y mod 16)]) with (rest ++ [70] ++ [hex_digit (y mod 16)]).
      rewrite app_assoc, skipn_app, skipn_all2 by (rewrite app_length; cbn; lia). rewrite app_length, Hl. reflexivity.
    + rewrite afterLastF_none; [reflexivity|]. intros H. apply in_app_or in H as [H|[H|[H|[]]]]; [auto|rewrite F in H by lia; auto|rewrite F in H by lia; auto].
Qed.

Lemma packet_read o H w h : (forall sp, length (@nil N) = O -> decodeHeader (mkSlice ([] ++ H ++ w) sp) O = Ok (h, (0 + length H)%nat)) ->
  exists p, decodePacket o (framed (flat_map escByte ((H ++ w) ++ [xor_sum (H ++ w)]))) = Ok p /\ pk_hdr p = h /\ sl_data (pk_body p) = w.
Proof.
  intros R. rewrite decodePacket_verify, unescape_framed_escape, verify_app, xorAll_sum, N.eqb_refl. cbn [rbind].
  match goal with |- context [mkSlice _ ?x] => generalize x; intros sp end.
  specialize (R sp eq_refl). cbn [app Nat.add] in R. rewrite R. cbn [rbind snd fst]. unfold sl_from, sl_len. cbn [sl_data sl_spare]. rewrite app_length.
  destruct (Nat.leb_spec (length H) (length H + length w)); [|lia]. cbn [rbind]. rewrite skipn_app, skipn_all, Nat.sub_diag. cbn [skipn app]. eauto.
Qed.

Theorem gen2019_read o proto c1 c2 rest id sn b w0 w : digits (c1 :: c2 :: rest) = true -> length rest = 18%nat -> id < 65536 -> sn < 65536 ->
  encBody o (genMsgHeader V2019 proto (c1 :: c2 :: rest) id sn) b = Ok (w0 :: w) -> w0 < 256 -> (length (w0 :: w) < 1024)%nat ->
  exists frm p, encodePacket o (mkMsg (genMsgHeader V2019 proto (c1 :: c2 :: rest) id sn) b) = Ok frm /\ decodePacket o frm = Ok p
    /\ pk_hdr p = mkHeader id (mkAttr (N.of_nat (length (w0 :: w))) 0 0 1 0 EncNone false V2019) ((c1 - 48) * 16 + (c2 - 48))
                           (shifted (c1 :: c2 :: rest) (sn / 256)) (sn mod 256 * 256 + w0) None
    /\ sl_data (pk_body p) = w.
Proof.
  intros Hd Hl Hi Hs Hb H0 Hw. set (phone := c1 :: c2 :: rest) in *. 
  assert (Lp : length phone = 20%nat) by (cbn; lia).
  pose proof (writeHeader_gen2019 proto phone id sn (w0 :: w) Hd Lp ltac:(lia)) as E.
  unfold phone in *. apply digits_cons in Hd as [_ Hd]. apply digits_cons in Hd as [_ Hd]. cbn [BCD app] in E |- *.
  set (a := mkAttr (N.of_nat (length (w0 :: w))) 0 0 1 0 EncNone false V2019).
  assert (Ea : attrDecode (16384 + N.of_nat (length (w0 :: w))) = a).
  { assert (Hwf : attr_wf a) by (unfold attr_wf, a; cbn [a_len a_enc a_frag a_sign a_extra a_encd a_fragd a_ver]; repeat split; lia).
    rewrite <- (attrDecode_attrEncode a Hwf). f_equal. unfold attrEncode, a. cbn [a_len a_enc a_frag a_sign a_extra]. lia. }
  assert (R : reads 0 decodeHeader (put16 id ++ put16 (16384 + N.of_nat (length (w0 :: w))) ++ [(c1 - 48) * 16 + (c2 - 48)] ++ (BCD rest ++ [sn / 256]) ++ [sn mod 256; w0] ++ [] ++ [])
                (mkHeader id a ((c1 - 48) * 16 + (c2 - 48)) (shifted (c1 :: c2 :: rest) (sn / 256)) (sn mod 256 * 256 + w0) None)).
  { unfold decodeHeader. eapply reads_bind; [now apply reads_word|]. eapply reads_bind; [apply reads_word; lia|]. cbv zeta. rewrite Ea.
    unfold a at 1 2 3 4. cbn [a_ver version_eqb a_fragd].
    eapply reads_bind; [apply reads_byte|]. eapply reads_bind.
    { apply reads_bcd. rewrite app_length. pose proof (BCD_length rest Hd) as L. rewrite Hl in L. specialize (L eq_refl). cbn [length]. lia. }
    eapply reads_bind; [now apply rd_word|]. eapply reads_bind; [apply reads_ret|].
    rewrite (shifted_number rest _ c1 c2) by (assumption || lia). unfold be16. apply reads_ret. }
  set (H := put16 id ++ _) in R.
  assert (ED : writeHeader (genMsgHeader V2019 proto (c1 :: c2 :: rest) id sn) (w0 :: w) = H ++ w).
  { rewrite E. unfold H. rewrite <- !app_assoc. do 2 f_equal. cbn [app]. f_equal. f_equal. unfold put16. cbn [app]. replace (sn / 256 mod 256) with (sn / 256) by lia. reflexivity. }
  rewrite (encode_unescaped o _ b _ Hb), ED. eexists. specialize (R [] w).
  destruct (packet_read o H w _ R) as (p & D & H1 & H2). exists p. auto.
Qed.

Lemma skipn_mid (a b : bytes) : skipn (length a) (a ++ b) = b.
Proof. now rewrite skipn_app, skipn_all, Nat.sub_diag. Qed.
Lemma bcd_number f : bytes_ok f = true -> number_of f (bcd2NumberStr f).
Proof.
  intros Hf. pose proof (nibbles_small f Hf) as Hs. pose proof (bcdHex_nibbles f) as En. unfold number_of. fold (SpecCanon.nibbles f).
  unfold bcd2NumberStr. destruct (afterLastF_spec (bcdHex f)) as [[E H]|(q & t & E & H & E')].
  - exists [], (SpecCanon.nibbles f). split; [reflexivity|]. split; [rewrite <- (F_in_map _ Hs), <- En; exact H|]. split; [auto|].
    rewrite E. cbn [Nat.eqb length skipn]. rewrite En. reflexivity.
  - rewrite En in E. pose proof (f_equal (@length _) E) as L. rewrite map_length, app_length in L. cbn [length] in L.
    pose proof (firstn_skipn (length q) (SpecCanon.nibbles f)) as Sp. set (a := firstn (length q) (SpecCanon.nibbles f)) in *.
    assert (La : length a = length q) by (apply firstn_length_le; lia).
    destruct (skipn (length q) (SpecCanon.nibbles f)) as [|d ds]; [rewrite app_nil_r in Sp; rewrite <- Sp in L; lia|].
    rewrite <- Sp, map_app in E. apply app_len_iff in E as [Ea Ed]; [|now rewrite map_length]. cbn [map] in Ed. injection Ed as E1 E2.
    rewrite <- Sp in Hs. apply Forall_app in Hs as [_ Hs]. apply Forall_cons_iff in Hs as [Hd Hds]. apply hexU_F in E1; [|assumption]. subst d.
    exists (a ++ [15]), ds. split; [rewrite <- Sp, <- app_assoc; reflexivity|]. split; [rewrite <- (F_in_map _ Hds), E2; exact H|]. split; [eauto|].
    rewrite E', app_length, La. cbn [length]. replace (length q + 1)%nat with (S (length q)) by lia. destruct (Nat.eqb (S (length q)) 9); [reflexivity|].
    rewrite En, <- Sp, map_app. cbn [map]. change (hexU 15) with 70. replace (S (length q)) with (length (map hexU a ++ [70])) by (rewrite app_length, map_length; cbn; lia).
    replace (map hexU a ++ 70 :: map hexU ds) with ((map hexU a ++ [70]) ++ map hexU ds) by (rewrite <- app_assoc; reflexivity). apply skipn_mid.
Qed.
Lemma number_unique f s1 s2 : number_of f s1 -> number_of f s2 -> s1 = s2.
Proof.
  intros (p1 & t1 & E1 & N1 & F1 & ->) (p2 & t2 & E2 & N2 & F2 & ->). rewrite E1 in E2.
  assert (A : forall (p1 t1 p2 t2 : list N), p1 ++ t1 = p2 ++ t2 -> ~ In 15 t1 -> (p2 = [] \/ exists q, p2 = q ++ [15]) -> (length p2 <= length p1)%nat).
  { clear. intros p1 t1 p2 t2 E N1 [->|(q & ->)]; [cbn; lia|]. destruct (Nat.le_gt_cases (length (q ++ [15])) (length p1)) as [L|L]; [exact L|].
    exfalso. apply N1. assert (S : skipn (length p1) (p1 ++ t1) = t1) by apply skipn_mid. rewrite <- S, E, <- app_assoc.
    rewrite app_length in L. cbn [length] in L. rewrite skipn_app. apply in_or_app. right.
    replace (length p1 - length q)%nat with O by lia. now left. }
  pose proof (A _ _ _ _ E2 N1 F2). symmetry in E2. pose proof (A _ _ _ _ E2 N2 F1). apply app_len_iff in E2 as [-> ->]; [reflexivity|lia].
Qed.
Theorem phone_number o c p b s : bytes_ok c = true -> decodePacket o (framed c) = Ok p -> unescape (framed c) = b ++ [xor_sum b] ->
  (h_phone (pk_hdr p) = s <-> number_of (phone_field b) s).
Proof.
  intros Hc Hd Hu. rewrite (decodePacket_phone o c p b) by assumption.
  assert (Hb : bytes_ok (phone_field b) = true).
  { pose proof (unescape_framed_ok c Hc) as U. rewrite Hu in U. apply bytes_ok_app in U as [U _]. clear - U.
    assert (A : forall n m, bytes_ok (firstn n (skipn m b)) = true).
    { intros n m. rewrite <- (firstn_skipn m b) in U. apply bytes_ok_app in U as [_ U]. rewrite <- (firstn_skipn n (skipn m b)) in U.
      apply bytes_ok_app in U as [U _]. exact U. }
    unfold phone_field. destruct b as [|x1 [|x2 [|x3 b]]]; try reflexivity. destruct (N.testbit x3 6); apply A. }
  split; [intros <-; now apply bcd_number|]. intros H. exact (number_unique _ _ _ (bcd_number _ Hb) H).
Qed.
