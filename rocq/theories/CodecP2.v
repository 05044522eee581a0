(** Proofs about truncation, unknown parameters, unencodable text and status words *)
From Coq Require Import ZifyBool ZifyNat ZifyN.
From Verif Require Import Base HexM TimeM HashM HeaderM ParamsM GeoM MsgM PacketM FrameM SpecCodec
  HexP TimeP HeaderP FrameP MsgP CodecP.
Local Open Scope N_scope.
Ltac Zify.zify_post_hook ::= Z.div_mod_to_equations.

(** * Reads that stay within the data *)
Definition loc {A} (m : rd A) : Prop :=
  forall d sp1 i a j, m (mkSlice d sp1) i = Ok (a, j) ->
    (i <= j)%nat /\ ((j <= length d)%nat -> forall sp2, m (mkSlice d sp2) i = Ok (a, j)).

Lemma loc_ret {A} (a : A) : loc (rd_ret a).
Proof. intros d sp1 i b j H. unfold rd_ret in *. inv H. split; [lia|reflexivity]. Qed.
Lemma loc_idx : loc rd_idx.
Proof. intros d sp1 i b j H. unfold rd_idx in *. inv H. split; [lia|reflexivity]. Qed.
Lemma loc_fail {A} e : loc (@rd_fail A e).
Proof. intros d sp1 i b j H. discriminate. Qed.
Lemma loc_bind {A B} (m : rd A) (f : A -> rd B) : loc m -> (forall a, loc (f a)) -> loc (rd_bind m f).
Proof.
  intros Hm Hf d sp1 i b j H. unfold rd_bind in *.
  destruct (m (mkSlice d sp1) i) as [[a j1]| |] eqn:E; try discriminate.
  destruct (Hm _ _ _ _ _ E) as [L1 K1]. destruct (Hf a _ _ _ _ _ H) as [L2 K2].
  split; [lia|]. intros L sp2. rewrite (K1 ltac:(lia) sp2). now apply K2.
Qed.
Lemma loc_sub n : loc (readSub n).
Proof.
  intros d sp1 i a j H. unfold readSub, sl_sub, sl_cap in *. cbn [sl_data sl_spare] in *.
  match type of H with context [if ?b then _ else _] => destruct b eqn:E; [|discriminate] end.
  inv H. split; [lia|]. intros L sp2.
  match goal with |- context [if ?b then _ else _] => assert (E2 : b = true) by lia; rewrite E2 end.
  do 2 f_equal. set (k := Z.to_nat (Z.of_nat i + n)) in *.
  assert (F : forall sp, firstn (k - i) (skipn i (d ++ sp)) = firstn (k - i) (skipn i d)).
  { intros sp. rewrite skipn_app, firstn_app, skipn_length.
    replace (k - i - (length d - i))%nat with O by lia. cbn. apply app_nil_r. }
  now rewrite !F.
Qed.
Lemma loc_byte : loc ReadByte.
Proof.
  intros d sp1 i a j H. unfold ReadByte, sl_at in *. cbn [sl_data] in *.
  destruct (nth_error d i); [|discriminate]. inv H. split; [lia|reflexivity].
Qed.
(** reading a byte also shows that the data reached that far *)
Lemma byte_in d sp i a j : ReadByte (mkSlice d sp) i = Ok (a, j) -> (j <= length d)%nat.
Proof.
  rewrite ReadByte_eq. unfold sl_len. cbn [sl_data].
  destruct (Nat.ltb_spec i (length d)); [|discriminate]. intros H1. inv H1. lia.
Qed.
Lemma loc_word : loc ReadWord.
Proof. apply loc_bind; [apply loc_sub|intros; apply loc_ret]. Qed.
Lemma loc_dword : loc ReadDoubleWord.
Proof. apply loc_bind; [apply loc_sub|intros; apply loc_ret]. Qed.
Lemma loc_bcd n : loc (ReadBCD n).
Proof. apply loc_bind; [apply loc_sub|intros; apply loc_ret]. Qed.
Lemma loc_gbk o n : loc (ReadGBK o n).
Proof. apply loc_bind; [apply loc_sub|intros; apply loc_ret]. Qed.
Lemma loc_time now : loc (ReadTime now).
Proof. apply loc_bind; [apply loc_bcd|intros; apply loc_ret]. Qed.

Ltac locs := repeat (first [apply loc_ret | apply loc_idx | apply loc_fail | apply loc_byte
  | apply loc_word | apply loc_dword | apply loc_bcd | apply loc_gbk | apply loc_time
  | apply loc_sub | (apply loc_bind; [|intros ?])]).

(** the message kinds read by a single pass over the body *)
Lemma loc_decBody o now k h : In k [K0001; K0002; K0003; K0004; K0100; K0102; K0200; K0800; K0801;
    K8001; K8004; K8100; K8104; K8800; K9205] -> loc (decBody o now k h).
Proof.
  intros Hk. cbn [In] in Hk.
  repeat (destruct Hk as [<-|Hk]; [cbn [decBody]|]); try destruct Hk; locs.
  - destruct (a_ver (h_attr h)); locs. destruct (Z.ltb _ _); locs.
  - destruct a2 as [[? ?] ?]. locs.
  - unfold dec0102. destruct (a_ver (h_attr h)); locs.
Qed.

(** the message kinds whose last mandatory field is a single byte *)
Lemma decBody_within o now k h d sp b j :
  In k [K0001; K8001; K9205] -> decBody o now k h (mkSlice d sp) O = Ok (b, j) -> (j <= length d)%nat.
Proof.
  intros Hk H. cbn [In] in Hk.
  assert (G : forall A B (m : rd A) (f : A -> rd B) i r, rd_bind m f (mkSlice d sp) i = Ok r ->
             exists a i', m (mkSlice d sp) i = Ok (a, i') /\ f a (mkSlice d sp) i' = Ok r).
  { intros A B m f i r E. unfold rd_bind in E. destruct (m (mkSlice d sp) i) as [[a i']| |]; try discriminate. eauto. }
  assert (T : forall C (f : N -> C) i r, rd_bind ReadByte (fun x => rd_ret (f x)) (mkSlice d sp) i = Ok r -> (snd r <= length d)%nat).
  { intros C f i [c j'] E. apply G in E as (x & i' & E1 & E2). apply byte_in in E1. unfold rd_ret in E2. inv E2. exact E1. }
  repeat (destruct Hk as [<-|Hk]); try destruct Hk; cbn [decBody] in H.
  - apply G in H as (? & ? & _ & H). apply G in H as (? & ? & _ & H). apply T in H. exact H.
  - apply G in H as (? & ? & _ & H). apply G in H as (? & ? & _ & H). apply T in H. exact H.
  - apply G in H as (? & ? & H & H2). unfold rd_ret in H2. inv H2.
    unfold mqueryDecode in H. do 7 apply G in H as (? & ? & _ & H). apply T in H. exact H.
Qed.

Lemma ReadDoubleWord_eq s i :
  ReadDoubleWord s i = if (i + 4 <=? sl_cap s)%nat
                 then Ok (be32 (firstn 4 (skipn i (sl_data s ++ sl_spare s))), (i + 4)%nat) else Panic.
Proof.
  unfold ReadDoubleWord, rd_bind. rewrite readSub_eq by lia.
  change (Z.to_nat 4) with 4%nat.
  destruct (Z.leb_spec (Z.of_nat i + 4) (Z.of_nat (sl_cap s))), (Nat.leb_spec (i + 4) (sl_cap s));
    reflexivity || lia.
Qed.

(** decoding a location report looks at the first 28 bytes of the capacity *)
Lemma dec0200_cap s : 
  if (28 <=? sl_cap s)%nat
  then exists l, dec0200 s O = Ok (B0200 l, 28%nat)
         /\ l_time l = bcd2NumberStr (firstn 6 (skipn 22 (sl_data s ++ sl_spare s)))
  else dec0200 s O = Panic.
Proof.
  unfold dec0200.
  Ltac stepw := unfold rd_bind at 1;
    match goal with
    | |- context [ReadDoubleWord ?s ?i] => rewrite (ReadDoubleWord_eq s i)
    | |- context [ReadWord ?s ?i] => rewrite (ReadWord_eq s i)
    end; cbn [Nat.add].
  destruct (Nat.leb_spec 28 (sl_cap s)) as [L|L].
  - do 7 (stepw; match goal with |- context [Nat.leb ?a ?b] => destruct (Nat.leb_spec a b); [|lia] end).
    unfold rd_bind. change 6%Z with (Z.of_nat 6). rewrite ReadBCD_eq. cbn [Nat.add].
    destruct (Nat.leb_spec 28 (sl_cap s)); [|lia]. eexists. split; reflexivity.
  - do 7 (stepw; match goal with |- context [Nat.leb ?a ?b] => destruct (Nat.leb_spec a b); [|reflexivity] end).
    unfold rd_bind. change 6%Z with (Z.of_nat 6). rewrite ReadBCD_eq. cbn [Nat.add].
    destruct (Nat.leb_spec 28 (sl_cap s)); [lia|reflexivity].
Qed.

(** the last byte of a location report cut by one byte comes from the checksum *)
Lemma cut_0200 o now h w : hdr_wf h -> bytes_ok w = true -> length w = 27%nat ->
  exists p l, decodePacket o (escape (genVerifier (writeHeader h w))) = Ok p
    /\ sl_data (pk_body p) = w
    /\ msgDecode o now K0200 p = Ok (mkMsg (pk_hdr p) (B0200 l))
    /\ l_time l = bcd2NumberStr (skipn 22 w ++ [xor_sum (writeHeader h w)]).
Proof.
  intros Hwf Hok Hl.
  pose proof (packet_roundtrip o h w Hwf ltac:(lia)) as P. rewrite xorAll_sum in P.
  destruct P as [sp P].
  pose proof (dec0200_cap (mkSlice w (xor_sum (writeHeader h w) :: sp))) as D.
  unfold sl_cap in D. cbn [sl_data sl_spare length] in D. rewrite Hl in D.
  destruct (Nat.leb_spec 28 (27 + S (length sp))); [|lia]. destruct D as (l & D & Ht).
  eexists _, l. split; [exact P|]. split; [reflexivity|]. split.
  - unfold msgDecode. cbn [pk_hdr pk_body decBody]. change 0%nat with O. rewrite D. reflexivity.
  - rewrite Ht. f_equal. rewrite skipn_app, firstn_app, skipn_length, Hl.
    rewrite firstn_all2 by (rewrite skipn_length; lia). f_equal.
Qed.

(** * Unknown parameter ids *)
Lemma params_unknown o phone cnt ps w qs id n rest sp :
  params_list_sent o ps w qs -> (length ps < N.to_nat cnt)%nat ->
  id < 4294967296 -> argKind id = None ->
  paramsDecode o phone cnt (mkSlice (w ++ U32 id ++ [n] ++ rest) sp) = Panic.
Proof.
  intros HF Hc Hid Hk. unfold paramsDecode.
  assert (G : forall ps w qs, params_list_sent o ps w qs -> forall m pre, (length ps < m)%nat ->
    paramsDecodeLoop o m (mkSlice (pre ++ w ++ U32 id ++ [n] ++ rest) sp) (length pre) = Panic).
  { clear - Hid Hk. induction 1 as [|p wp q ps w qs Hp Hps IH]; intros m pre Hm;
      (destruct m as [|m]; [cbn in Hm; lia|]); cbn [paramsDecodeLoop]; unfold rd_bind at 1.
    - unfold paramDecode. unfold rd_bind at 1. rewrite <- put32_U32 by assumption. cbn [app].
      rewrite (reads_dword (length pre) id Hid pre (n :: rest) sp eq_refl). unfold rd_bind at 1.
      pose proof (reads_byte (length (pre ++ put32 id)) n (pre ++ put32 id) rest sp eq_refl) as R.
      rewrite <- app_assoc, app_length in R. cbn [app] in R. rewrite R. rewrite Hk. reflexivity.
    - destruct (param_roundtrip o p wp q Hp) as (_ & Hpd).
      pose proof (Hpd (length pre) pre (w ++ U32 id ++ [n] ++ rest) sp eq_refl) as R.
      rewrite <- app_assoc. rewrite R. unfold rd_bind at 1.
      specialize (IH m (pre ++ wp)). rewrite app_length, <- app_assoc in IH.
      rewrite IH by (cbn in Hm; lia). reflexivity. }
  specialize (G ps w qs HF (N.to_nat cnt) [] Hc). cbn [app length] in G.
  cbn [app]. rewrite G. reflexivity.
Qed.

(** the encoder does skip them, but keeps the announced count *)
Lemma paramsEncode_skip o ps : forall pkt,
  paramsEncodeLoop o ps pkt =
  paramsEncodeLoop o (filter (fun p => match argKind (p_id p) with Some _ => true | None => false end) ps) pkt.
Proof.
  induction ps as [|p ps IH]; intros pkt; [reflexivity|]. cbn [paramsEncodeLoop filter].
  unfold paramEncode at 1. destruct (argKind (p_id p)) as [k|] eqn:E.
  - cbn [paramsEncodeLoop]. unfold paramEncode at 1. rewrite E.
    destruct (rbind _ _); [apply IH|apply IH|reflexivity].
  - apply IH.
Qed.

(** * Unencodable text *)
Lemma enc0100_lost o h r : o_gbk_enc o (r_plate r) = None -> encBody o h (B0100 r) = Ok [].
Proof.
  intros H. cbn [encBody]. unfold enc0100, WriteGBK. rewrite H.
  destruct (a_ver (h_attr h)); reflexivity.
Qed.

Lemma param_text_lost o id l s : argKind id = Some PGBK -> id < 4294967296 -> o_gbk_enc o s = None ->
  paramEncode o (mkParam id l (VStr s)) = Ok (U32 id ++ [0]).
Proof.
  intros Hk Hid H. unfold paramEncode. cbn [p_id p_val]. rewrite Hk. cbn [pencode any2string rmap rbind].
  unfold WriteGBK. rewrite H. cbn [length]. unfold WriteBytes, WriteByte, WriteDoubleWord.
  rewrite put32_U32 by assumption. rewrite app_nil_r. reflexivity.
Qed.

(** * Status words *)
Fixpoint unbits (l : list bool) : N :=
  match l with [] => 0 | b :: t => N.b2n b + 2 * unbits t end.
Lemma testbit_unbits l : forall i, N.testbit (unbits l) (N.of_nat i) = nth i l false.
Proof.
  induction l as [|b t IH]; intros i; cbn [unbits].
  - rewrite N.bits_0. destruct i; reflexivity.
  - destruct i as [|i].
    + cbn [nth]. change (N.of_nat 0) with 0. apply N.add_b2n_double_bit0.
    + rewrite Nat2N.inj_succ, <- N.div2_bits. rewrite N.add_b2n_double_div2. apply IH.
Qed.

Lemma bit_b2n w s : (w / 2 ^ s) mod 2 = N.b2n (N.testbit w s).
Proof. symmetry. apply N.testbit_spec'. Qed.

Lemma geo_fields w :
  let g := geoDecode w in
  g_acc g = N.b2n (N.testbit w 0) /\ g_loc g = N.b2n (N.testbit w 1)
  /\ g_latt g = N.b2n (N.testbit w 2) /\ g_lont g = N.b2n (N.testbit w 3)
  /\ g_oper g = N.b2n (N.testbit w 4) /\ g_crypt g = N.b2n (N.testbit w 5)
  /\ g_load g = N.b2n (N.testbit w 8) + 2 * N.b2n (N.testbit w 9)
  /\ g_fuel g = N.b2n (N.testbit w 10) /\ g_alt g = N.b2n (N.testbit w 11)
  /\ g_lock g = N.b2n (N.testbit w 12) /\ g_front g = N.b2n (N.testbit w 13)
  /\ g_mid g = N.b2n (N.testbit w 14) /\ g_back g = N.b2n (N.testbit w 15)
  /\ g_driver g = N.b2n (N.testbit w 16) /\ g_custom g = N.b2n (N.testbit w 17)
  /\ g_gps g = N.b2n (N.testbit w 18) /\ g_beidou g = N.b2n (N.testbit w 19)
  /\ g_glonass g = N.b2n (N.testbit w 20) /\ g_galileo g = N.b2n (N.testbit w 21)
  /\ g_driving g = N.b2n (N.testbit w 22).
Proof.
  assert (F : forall s m, m = N.shiftl (N.ones 1) s ->
             N.shiftr (N.land w m) s mod 256 = N.b2n (N.testbit w s)).
  { intros s m Hm. rewrite (field_bits w s 1 m Hm). change (2 ^ 1) with 2. rewrite bit_b2n.
    destruct (N.testbit w s); reflexivity. }
  unfold geoDecode. cbv zeta.
  cbn [g_acc g_loc g_latt g_lont g_oper g_crypt g_load g_fuel g_alt g_lock g_front g_mid g_back
       g_driver g_custom g_gps g_beidou g_glonass g_galileo g_driving].
  repeat (split; [apply F; reflexivity|]). split; [|repeat (split; [apply F; reflexivity|]); apply F; reflexivity].
  rewrite (field_bits w 8 2 0x300 eq_refl). change (2 ^ 2) with 4.
  rewrite <- !bit_b2n. change (2 ^ 8) with 256. change (2 ^ 9) with 512. lia.
Qed.

Definition geo_bits (w : N) : list bool :=
  let t := N.testbit w in
  [t 0; t 1; t 3; t 2; t 4; t 5; false; false; t 8; t 9; t 10; t 11; t 12; t 13; t 14; t 15; t 16;
   t 17; t 18; t 19; t 20; t 21; t 22].

Lemma geo_roundtrip_bits w : geoEncode (geoDecode w) = unbits (geo_bits w).
Proof.
  destruct (geo_fields w) as (E1 & E2 & E3 & E4 & E5 & E6 & E7 & E8 & E9 & E10 & E11 & E12 & E13
    & E14 & E15 & E16 & E17 & E18 & E19 & E20). cbv zeta in *.
  unfold geoEncode. rewrite E1, E2, E3, E4, E5, E6, E7, E8, E9, E10, E11, E12, E13, E14, E15, E16,
    E17, E18, E19, E20. clear. rewrite !N.shiftl_mul_pow2.
  assert (B : forall b, N.b2n b <= 1) by (intros []; cbn; lia).
  unfold geo_bits. cbv zeta. cbn [unbits].
  change (N.b2n false) with 0.
  repeat match goal with |- context [N.b2n (N.testbit w ?i)] =>
    let H := fresh "B" in pose proof (B (N.testbit w i)) as H;
    let x := fresh "x" in set (x := N.b2n (N.testbit w i)) in *; clearbody x end.
  rewrite N.mod_small; lia.
Qed.

Lemma geo_testbit w i : N.testbit (geoEncode (geoDecode w)) i = assigned i && N.testbit w (swap23 i).
Proof.
  rewrite geo_roundtrip_bits. rewrite <- (N2Nat.id i). rewrite testbit_unbits.
  set (n := N.to_nat i). clearbody n. clear i.
  do 23 (destruct n as [|n]; [reflexivity|]).
  rewrite nth_overflow by (cbn; lia). unfold assigned.
  replace (N.of_nat (S (S (S (S (S (S (S (S (S (S (S (S (S (S (S (S (S (S (S (S (S (S (S n))))))))))))))))))))))))
    with (23 + N.of_nat n) by lia.
  destruct (N.ltb_spec (23 + N.of_nat n) 6); [lia|]. destruct (N.ltb_spec (23 + N.of_nat n) 23); [lia|].
  rewrite andb_false_r. reflexivity.
Qed.

(** the lists inside the messages 0104, 8103 and 1205, read by a second pass *)
Lemma loc_param o : loc (paramDecode o).
Proof.
  unfold paramDecode. apply loc_bind; [apply loc_dword|intros id]. apply loc_bind; [apply loc_byte|intros ln].
  destruct (argKind id) as [k|]; [|intros d sp1 i a' j H; discriminate].
  apply loc_bind; [|intros; apply loc_ret]. destruct k; cbn [pdecode]; locs.
Qed.
Lemma loc_params o n : loc (paramsDecodeLoop o n).
Proof.
  induction n as [|n IH]; cbn [paramsDecodeLoop]; [apply loc_ret|].
  apply loc_bind; [apply loc_param|intros p]. apply loc_bind; [exact IH|intros; apply loc_ret].
Qed.
Lemma loc_media now : loc (mediaDecode now).
Proof. unfold mediaDecode, mqueryDecode. locs. Qed.
Lemma sub_at0 (n : nat) a w sp : length a = n -> readSub (Z.of_nat n) (mkSlice (a ++ w) sp) O = Ok (a, n).
Proof.
  intros <-. unfold readSub, sl_sub, sl_cap. cbn [sl_data sl_spare].
  match goal with |- context [if ?b then _ else _] => assert (E : b = true) by (rewrite ?app_length; lia); rewrite E end.
  rewrite Z.add_0_l, Nat2Z.id, Nat.sub_0_r. cbn [skipn]. rewrite <- app_assoc, firstn_app, Nat.sub_diag, firstn_all, app_nil_r. reflexivity.
Qed.
Lemma sub_at2 a b w sp : length a = 2%nat -> length b = 4%nat -> readSub 4 (mkSlice (a ++ b ++ w) sp) 2%nat = Ok (b, 6%nat).
Proof.
  intros La Lb. unfold readSub, sl_sub, sl_cap. cbn [sl_data sl_spare].
  match goal with |- context [if ?b then _ else _] => assert (E : b = true) by (rewrite ?app_length; lia); rewrite E end.
  change (Z.to_nat (Z.of_nat 2 + 4)) with 6%nat. change (6 - 2)%nat with 4%nat.
  rewrite <- !app_assoc, skipn_app, La, Nat.sub_diag, skipn_all2 by lia. cbn [skipn app].
  rewrite firstn_app, Lb, Nat.sub_diag, <- Lb, firstn_all, app_nil_r. reflexivity.
Qed.
Lemma list_8103 o now h c w sp1 sp2 ps j :
  paramsDecodeLoop o (N.to_nat c) (mkSlice w sp1) O = Ok (ps, j) -> (j <= length w)%nat ->
  decBody o now K8103 h (mkSlice (c :: w) sp2) O = Ok (B8103 c (Some (mkParams (h_phone h) c ps)), 1%nat).
Proof.
  intros H L. apply loc_params in H as (_ & H). specialize (H L sp2).
  cbn [decBody]. unfold rd_bind, ReadByte, rd_rest, rd_lift, rd_ret, sl_at, sl_from, paramsDecode.
  cbn -[paramsDecodeLoop]. rewrite H. reflexivity.
Qed.
Lemma list_0104 o now h s1 s2 c w sp1 sp2 ps j :
  paramsDecodeLoop o (N.to_nat c) (mkSlice w sp1) O = Ok (ps, j) -> (j <= length w)%nat ->
  decBody o now K0104 h (mkSlice (s1 :: s2 :: c :: w) sp2) O = Ok (B0104 (s1 * 256 + s2) c (Some (mkParams (h_phone h) c ps)), 3%nat).
Proof.
  intros H L. apply loc_params in H as (_ & H). specialize (H L sp2).
  cbn [decBody]. unfold rd_bind at 1, ReadWord. unfold rd_bind at 1.
  assert (E2 : readSub 2 (mkSlice (s1 :: s2 :: c :: w) sp2) O = Ok ([s1; s2], 2%nat)) by exact (sub_at0 2 [s1; s2] (c :: w) sp2 eq_refl).
  rewrite E2.
  unfold rd_bind, ReadByte, rd_rest, rd_lift, rd_ret, sl_at, sl_from, paramsDecode.
  cbn -[paramsDecodeLoop N.mul N.add]. rewrite H. reflexivity.
Qed.
Lemma list_1205 o now h s1 s2 c1 c2 c3 c4 w sp1 sp2 q n j :
  mediaDecode now (mkSlice w sp1) O = Ok ((q, n), j) -> (j <= length w)%nat ->
  decBody o now K1205 h (mkSlice (s1 :: s2 :: c1 :: c2 :: c3 :: c4 :: w) sp2) O
  = Ok (B1205 (s1 * 256 + s2) (((c1 * 256 + c2) * 256 + c3) * 256 + c4) q n, 6%nat).
Proof.
  intros H L. apply loc_media in H as (_ & H). specialize (H L sp2).
  cbn [decBody]. unfold rd_bind at 1, ReadWord. unfold rd_bind at 1.
  assert (E2 : readSub 2 (mkSlice (s1 :: s2 :: c1 :: c2 :: c3 :: c4 :: w) sp2) O = Ok ([s1; s2], 2%nat)) by exact (sub_at0 2 [s1; s2] (c1 :: c2 :: c3 :: c4 :: w) sp2 eq_refl).
  rewrite E2. unfold rd_ret at 1.
  unfold rd_bind at 1, ReadDoubleWord. unfold rd_bind at 1.
  assert (E4 : readSub 4 (mkSlice (s1 :: s2 :: c1 :: c2 :: c3 :: c4 :: w) sp2) 2%nat = Ok ([c1; c2; c3; c4], 6%nat)) by exact (sub_at2 [s1; s2] [c1; c2; c3; c4] w sp2 eq_refl eq_refl).
  rewrite E4.
  unfold rd_bind, rd_rest, rd_lift, rd_ret, sl_from.
  cbn -[mediaDecode N.mul N.add]. rewrite H. reflexivity.
Qed.
