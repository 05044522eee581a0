(** strconv.Atoi as datagen.go uses it; packing the status word (C137) *)
From Coq Require Import ZArith.
From stdpp Require Import gmap.
From Verif Require Import Base HexM TimeM HeaderM ParamsM GeoM MsgM FloatM StateM ClientM DatagenM SpecCodec SpecNumeral.
Local Open Scope N_scope.

(** * Numerals *)
Lemma digit_iff c : ((48 <=? c) && (c <=? 57)) = true <-> 48 <= c <= 57.
Proof. rewrite andb_true_iff, !N.leb_le. tauto. Qed.
Lemma digits_cons c t : digits (c :: t) = ((48 <=? c) && (c <=? 57)) && digits t.
Proof. reflexivity. Qed.
Lemma sum_app (a b : list Z) : fold_right Z.add 0%Z (a ++ b) = (fold_right Z.add 0 a + fold_right Z.add 0 b)%Z.
Proof. induction a as [|x a IH]; cbn; [reflexivity|]. rewrite IH. ring. Qed.
Lemma value_cons c t : digits_value (c :: t) = ((Z.of_N c - 48) * 10 ^ Z.of_nat (length t) + digits_value t)%Z.
Proof.
  unfold digits_value. cbn [length]. rewrite seq_S, map_app, sum_app. cbn [map fold_right].
  replace (S (length t) - 1 - (0 + length t))%nat with 0%nat by lia. cbn [nth]. rewrite Z.add_0_r, Nat.add_0_l, Z.add_comm. f_equal.
  f_equal. apply map_ext_in. intros i Hi. apply in_seq in Hi. f_equal. f_equal.
  replace (S (length t) - 1 - i)%nat with (S (length t - 1 - i)) by lia. reflexivity.
Qed.
Lemma decimalZ_spec s : forall acc, decimalZ acc s =
  if digits s then Some (acc * 10 ^ Z.of_nat (length s) + digits_value s)%Z else None.
Proof.
  induction s as [|c t IH]; intros acc.
  - cbn [decimalZ digits forallb length]. f_equal. change (digits_value []) with 0%Z. change (Z.of_nat 0) with 0%Z. rewrite Z.pow_0_r. ring.
  - cbn [decimalZ]. rewrite digits_cons. destruct ((48 <=? c) && (c <=? 57)) eqn:E; cbn [andb]; [|reflexivity].
    apply digit_iff in E. rewrite IH. destruct (digits t); [|reflexivity]. f_equal. rewrite value_cons. cbn [length].
    rewrite Nat2Z.inj_succ, Z.pow_succ_r by lia. rewrite N2Z.inj_sub by lia. ring.
Qed.
Definition num (d : str) : option Z := match d with [] => None | _ => decimalZ 0 d end.
Lemma num_Some d z : num d = Some z <-> d <> [] /\ digits d = true /\ z = digits_value d.
Proof.
  unfold num. destruct d as [|c t]; [split; [discriminate|intros (H & _); contradiction]|].
  rewrite decimalZ_spec. destruct (digits (c :: t)).
  - rewrite Z.mul_0_l, Z.add_0_l. split; [intros [= <-]; repeat split; discriminate|intros (_ & _ & ->); reflexivity].
  - split; [discriminate|intros (_ & H & _); discriminate].
Qed.
(** what Atoi reads, before the check of the range *)
Definition parsed (s : str) : option Z :=
  match s with 45 :: d => option_map Z.opp (num d) | 43 :: d => num d | d => num d end.
Lemma parsed_other c t : c <> 45 -> c <> 43 -> parsed (c :: t) = num (c :: t).
Proof.
  intros H1 H2. unfold parsed. repeat match goal with |- match ?x with _ => _ end = _ => destruct x; try reflexivity; try congruence end.
Qed.
Lemma numeral_parsed s z : numeral s z <-> parsed s = Some z.
Proof.
  destruct s as [|c t].
  { split; [|discriminate]. intros (ds & Hn & _ & [(H & _)|[(H & _)|(H & _)]]); congruence. }
  destruct (N.eq_dec c 45) as [->|H1]; [|destruct (N.eq_dec c 43) as [->|H2]].
  - change (parsed (45 :: t)) with (option_map Z.opp (num t)). split.
    + intros (ds & Hn & Hd & [(H & _)|[(H & _)|(H & ->)]]); [subst ds; cbn in Hd; discriminate|discriminate|]. injection H as ->.
      assert (E : num ds = Some (digits_value ds)) by (apply num_Some; auto). rewrite E. reflexivity.
    + destruct (num t) as [y|] eqn:E; [|discriminate]. intros [= <-]. apply num_Some in E. destruct E as (Hn & Hd & ->).
      exists t. auto 6.
  - change (parsed (43 :: t)) with (num t). rewrite num_Some. split.
    + intros (ds & Hn & Hd & [(H & _)|[(H & ->)|(H & _)]]); [subst ds; cbn in Hd; discriminate| |discriminate]. injection H as ->. auto.
    + intros (Hn & Hd & ->). exists t. auto 6.
  - rewrite (parsed_other c t H1 H2), num_Some. split.
    + intros (ds & Hn & Hd & [(H & ->)|[(H & _)|(H & _)]]); [subst ds; auto|congruence|congruence].
    + intros (Hn & Hd & ->). exists (c :: t). auto 6.
Qed.
Lemma atoi_parsed s : atoi s = match parsed s with Some z => if ((- 2 ^ 63 <=? z) && (z <? 2 ^ 63))%Z then z else 0%Z | None => 0%Z end.
Proof. reflexivity. Qed.
Lemma int64_iff z : ((- 2 ^ 63 <=? z) && (z <? 2 ^ 63))%Z = true <-> int64 z.
Proof. unfold int64. rewrite andb_true_iff, Z.leb_le, Z.ltb_lt. tauto. Qed.
Lemma atoi_number s z : numeral s z -> int64 z -> atoi s = z.
Proof.
  intros Hn Hi. rewrite atoi_parsed. apply numeral_parsed in Hn. rewrite Hn. apply int64_iff in Hi. rewrite Hi. reflexivity.
Qed.
Lemma atoi_none s : no_number s -> atoi s = 0%Z.
Proof.
  intros H. rewrite atoi_parsed. destruct (parsed s) as [z|] eqn:E; [|reflexivity].
  destruct ((- 2 ^ 63 <=? z) && (z <? 2 ^ 63))%Z eqn:E'; [|reflexivity].
  exfalso. apply (H z); [apply numeral_parsed; exact E|apply int64_iff; exact E'].
Qed.

(** * Registration and reports *)
Lemma word_carried s : carried 16 s (toWord (atoi s)).
Proof.
  split; [intros z H1 H2; rewrite (atoi_number s z H1 H2)|intros H; rewrite (atoi_none s H); reflexivity].
  unfold toWord. rewrite Z2N.id; [reflexivity|]. apply Z.mod_pos_bound. reflexivity.
Qed.
Lemma byte_carried s : carried 8 s (toByte (atoi s)).
Proof.
  split; [intros z H1 H2; rewrite (atoi_number s z H1 H2)|intros H; rewrite (atoi_none s H); reflexivity].
  unfold toByte. rewrite Z2N.id; [reflexivity|]. apply Z.mod_pos_bound. reflexivity.
Qed.
Lemma registration_carries c d : exists r, genMsg0100 c d = mkMsg (simHeader 0x0100 d) (B0100 r)
  /\ carried 16 (sm_prov c) (r_prov r) /\ carried 16 (sm_city c) (r_city r) /\ carried 8 (sm_color c) (r_color r)
  /\ r_devid r = d_id d /\ r_plate r = d_plate d.
Proof.
  eexists. split; [reflexivity|]. cbn [r_prov r_city r_color r_devid r_plate].
  repeat (split; [first [apply word_carried|apply byte_carried|reflexivity]|]). reflexivity.
Qed.

(** * The status word *)
Fixpoint pack (fs : list (N * N)) : N := match fs with [] => 0 | (f, w) :: t => f + 2 ^ w * pack t end.
Fixpoint width_of (fs : list (N * N)) : N := match fs with [] => 0 | (_, w) :: t => w + width_of t end.
Lemma pack_lt fs : Forall (fun p => fst p < 2 ^ snd p) fs -> pack fs < 2 ^ width_of fs.
Proof.
  induction fs as [|(f & w) t IH]; intros H; cbn [pack width_of]; [cbn; lia|].
  apply Forall_cons_iff in H. destruct H as (Hf & H). cbn in Hf. specialize (IH H). rewrite N.pow_add_r. nia.
Qed.
Lemma pack_field fs : forall i f w, Forall (fun p => fst p < 2 ^ snd p) fs -> nth_error fs i = Some (f, w) ->
  pack fs / 2 ^ width_of (firstn i fs) mod 2 ^ w = f.
Proof.
  induction fs as [|(f' & w') t IH]; intros [|i] f w H E; try discriminate.
  - injection E as -> ->. cbn [firstn width_of]. apply Forall_cons_iff in H. destruct H as (Hf & H). cbn [fst snd] in Hf.
    cbn [pack]. rewrite N.pow_0_r, N.div_1_r. rewrite N.mul_comm, N.mod_add by (apply N.pow_nonzero; lia). apply N.mod_small. exact Hf.
  - cbn [firstn width_of pack]. apply Forall_cons_iff in H. destruct H as (Hf & H). cbn [fst snd] in Hf.
    rewrite N.pow_add_r, <- N.div_div by (apply N.pow_nonzero; lia). rewrite N.mul_comm, N.div_add by (apply N.pow_nonzero; lia).
    rewrite (N.div_small f' _ Hf), N.add_0_l. apply IH; assumption.
Qed.
(** the layout that Encode writes: kind of longitude before kind of latitude, two bits free before the load *)
Definition layout (g : geometa) : list (N * N) :=
  [(g_acc g, 1); (g_loc g, 1); (g_lont g, 1); (g_latt g, 1); (g_oper g, 1); (g_crypt g, 1); (0, 2); (g_load g, 2); (g_fuel g, 1);
   (g_alt g, 1); (g_lock g, 1); (g_front g, 1); (g_mid g, 1); (g_back g, 1); (g_driver g, 1); (g_custom g, 1); (g_gps g, 1);
   (g_beidou g, 1); (g_glonass g, 1); (g_galileo g, 1); (g_driving g, 1)].
Definition fits (g : geometa) : Prop := Forall2 (fun f p => f < 2 ^ snd p) (status_fields g) status_table.
Lemma fits_layout g : fits g -> Forall (fun p => fst p < 2 ^ snd p) (layout g).
Proof.
  unfold fits, status_fields, status_table, layout. intros H.
  repeat match goal with H : Forall2 _ (_ :: _) _ |- _ => inversion H; clear H; subst end.
  repeat (constructor; [assumption || reflexivity|]). constructor.
Qed.
Lemma encode_pack g : fits g -> geoEncode g = pack (layout g).
Proof.
  intros H. pose proof (pack_lt _ (fits_layout g H)) as Hlt.
  assert (E : geoEncode g = pack (layout g) mod 4294967296).
  { unfold geoEncode, layout, pack. rewrite !N.shiftl_mul_pow2. f_equal.
    change (2 ^ 1) with 2. change (2 ^ 2) with 4. change (2 ^ 3) with 8. change (2 ^ 4) with 16. change (2 ^ 5) with 32.
    change (2 ^ 8) with 256. change (2 ^ 10) with 1024. change (2 ^ 11) with 2048. change (2 ^ 12) with 4096.
    change (2 ^ 13) with 8192. change (2 ^ 14) with 16384. change (2 ^ 15) with 32768. change (2 ^ 16) with 65536.
    change (2 ^ 17) with 131072. change (2 ^ 18) with 262144. change (2 ^ 19) with 524288. change (2 ^ 20) with 1048576.
    change (2 ^ 21) with 2097152. change (2 ^ 22) with 4194304. lia. }
  rewrite E. apply N.mod_small. eapply N.lt_trans; [exact Hlt|]. reflexivity.
Qed.
Lemma status_sent g : fits g -> forall i f p, nth_error (status_fields g) i = Some f ->
  nth_error status_table (match i with 2 => 3 | 3 => 2 | _ => i end)%nat = Some p -> status_field (geoEncode g) p = f.
Proof.
  intros H i f p Hf Hp. rewrite (encode_pack g H). unfold status_field.
  pose proof (fits_layout g H) as L. pose proof (pack_field _ 0 _ _ L eq_refl) as E0.
  pose proof (fun i f w E => pack_field (layout g) i f w L E) as G.
  do 20 (destruct i as [|i]; [injection Hf as <-; injection Hp as <-; first
    [ exact (G 0%nat _ _ eq_refl) | exact (G 1%nat _ _ eq_refl) | exact (G 2%nat _ _ eq_refl) | exact (G 3%nat _ _ eq_refl)
    | exact (G 4%nat _ _ eq_refl) | exact (G 5%nat _ _ eq_refl) | exact (G 7%nat _ _ eq_refl) | exact (G 8%nat _ _ eq_refl)
    | exact (G 9%nat _ _ eq_refl) | exact (G 10%nat _ _ eq_refl) | exact (G 11%nat _ _ eq_refl) | exact (G 12%nat _ _ eq_refl)
    | exact (G 13%nat _ _ eq_refl) | exact (G 14%nat _ _ eq_refl) | exact (G 15%nat _ _ eq_refl) | exact (G 16%nat _ _ eq_refl)
    | exact (G 17%nat _ _ eq_refl) | exact (G 18%nat _ _ eq_refl) | exact (G 19%nat _ _ eq_refl) | exact (G 20%nat _ _ eq_refl) ]|]).
  destruct i; discriminate.
Qed.
Lemma fld_field w m sh k : m = N.shiftl (N.ones k) sh -> k <= 8 -> N.shiftr (N.land w m) sh mod 256 = w / 2 ^ sh mod 2 ^ k.
Proof.
  intros -> Hk. rewrite N.shiftr_land, N.shiftr_shiftl_l, N.sub_diag, N.shiftl_0_r by lia.
  rewrite N.land_ones, N.shiftr_div_pow2. apply N.mod_small. eapply N.lt_le_trans; [apply N.mod_lt; apply N.pow_nonzero; lia|].
  change 256 with (2 ^ 8). apply N.pow_le_mono_r; lia.
Qed.
Lemma status_read w : status_fields (geoDecode w) = List.map (status_field w) status_table.
Proof.
  unfold status_fields, geoDecode, status_table, status_field. cbn [List.map fst snd g_acc g_loc g_latt g_lont g_oper g_crypt
    g_load g_fuel g_alt g_lock g_front g_mid g_back g_driver g_custom g_gps g_beidou g_glonass g_galileo g_driving].
  repeat (f_equal; [apply fld_field; [reflexivity|lia]|]). f_equal. apply fld_field; [reflexivity|lia].
Qed.
Lemma meta_field v i f : nth_error (status_fields (genGeoMeta v)) i = Some f -> f = toByte (atoi (v i)).
Proof. do 20 (destruct i as [|i]; [intros [= <-]; reflexivity|]). destruct i; discriminate. Qed.
Lemma table_small i p : nth_error status_table i = Some p -> snd p <= 2.
Proof. do 20 (destruct i as [|i]; [intros [= <-]; cbn; lia|]). destruct i; discriminate. Qed.
Lemma small_byte s z : numeral s z -> (0 <= z < 4)%Z -> toByte (atoi s) = Z.to_N z.
Proof.
  intros Hn Hz. rewrite (atoi_number s z Hn) by (unfold int64; lia). unfold toByte. rewrite Z.mod_small by lia. reflexivity.
Qed.
Lemma bits_small (p : N * N) : snd p <= 2 -> (2 ^ Z.of_N (snd p) <= 4)%Z.
Proof. intros H. change 4%Z with (2 ^ 2)%Z. apply Z.pow_le_mono_r; lia. Qed.
Lemma meta_fits v : status_fit v -> fits (genGeoMeta v).
Proof.
  intros H. unfold fits.
  assert (G : forall i f p, nth_error (status_fields (genGeoMeta v)) i = Some f -> nth_error status_table i = Some p -> f < 2 ^ snd p).
  { intros i f p Hf Hp. rewrite (meta_field v i f Hf). destruct (H i p Hp) as (z & Hn & Hz).
    pose proof (bits_small p (table_small i p Hp)) as B. rewrite (small_byte _ z Hn) by lia.
    apply N2Z.inj_lt. rewrite Z2N.id by lia. rewrite N2Z.inj_pow. exact (proj2 Hz). }
  cbv [status_fields status_table] in G |- *.
  assert (A : forall (fs : list N) (ps : list (N * N)), length fs = length ps ->
    (forall i f p, nth_error fs i = Some f -> nth_error ps i = Some p -> f < 2 ^ snd p) -> Forall2 (fun f p => f < 2 ^ snd p) fs ps).
  { clear. induction fs as [|f t IH]; intros [|p ps] L G; try discriminate; constructor.
    - apply (G 0%nat); reflexivity.
    - apply IH; [injection L as L; exact L|]. intros i. exact (G (S i)). }
  apply A; [reflexivity|exact G].
Qed.
Lemma report_status other d g r now : status_fit (dr_meta r) -> exists l,
  genMsg0200 other d g r now = mkMsg (simHeader 0x0200 d) (B0200 l)
  /\ forall i z p, nth_error status_table i = Some p -> numeral (dr_meta r i) z ->
     exists q, nth_error status_table (exchanged i) = Some q /\ status_field (l_status l) q = Z.to_N z
               /\ nth_error (status_fields (geoDecode (l_status l))) (exchanged i) = Some (Z.to_N z).
Proof.
  intros H. eexists. split; [reflexivity|]. cbn [l_status]. intros i z p Hp Hn.
  assert (exists q, nth_error status_table (exchanged i) = Some q) as (q & Hq).
  { do 20 (destruct i as [|i]; [eexists; reflexivity|]). destruct i; discriminate. }
  assert (exists f, nth_error (status_fields (genGeoMeta (dr_meta r))) i = Some f) as (f & Hf).
  { do 20 (destruct i as [|i]; [eexists; reflexivity|]). destruct i; discriminate. }
  assert (E : status_field (geoEncode (genGeoMeta (dr_meta r))) q = Z.to_N z).
  { rewrite (status_sent _ (meta_fits _ H) i f q Hf Hq), (meta_field _ i f Hf).
    destruct (H i p Hp) as (z' & Hn' & Hz'). pose proof (bits_small p (table_small i p Hp)) as B.
    rewrite (small_byte _ z' Hn') by lia. apply numeral_parsed in Hn, Hn'. congruence. }
  exists q. split; [exact Hq|]. split; [exact E|]. rewrite status_read, nth_error_map, Hq. cbn. rewrite E. reflexivity.
Qed.
