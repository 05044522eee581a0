(** Proofs about the positions the simulated terminal reports *)
From Coq Require Import ZArith Reals Lia Lra.
From Flocq Require Import Core IEEE754.BinarySingleNaN IEEE754.Binary IEEE754.Bits.
From Verif Require Import FloatM FloatP DatagenM SpecSim.
Local Open Scope R_scope.

Lemma f64_trunc_spec x : is_finite 53 1024 x = true -> f64_trunc x = Some (Ztrunc (B2R 53 1024 x)).
Proof.
  destruct x as [s|s|s pl e|s m ex B]; cbn [is_finite]; try discriminate; intros _.
  - cbn. rewrite Ztrunc_IZR. reflexivity.
  - cbn [f64_trunc B2R]. f_equal.
    assert (E : forall z : positive, Ztrunc (F2R (Float radix2 (Zpos z) ex)) =
      match ex with Z0 => Zpos z | Zpos p => (Zpos z * 2 ^ Zpos p)%Z | Zneg p => (Zpos z / 2 ^ Zpos p)%Z end).
    { intros z. unfold F2R. cbn [Fnum Fexp]. destruct ex as [|p|p].
      - cbn [bpow]. rewrite Rmult_1_r. apply Ztrunc_IZR.
      - change (bpow radix2 (Zpos p)) with (IZR (2 ^ Zpos p)).
        rewrite <- mult_IZR. apply Ztrunc_IZR.
      - change (bpow radix2 (Zneg p)) with (/ IZR (2 ^ Zpos p)).
        rewrite Ztrunc_floor.
        + apply Zfloor_div. apply Z.pow_nonzero; lia.
        + apply div_nonneg; [apply IZR_le; lia|]. apply IZR_lt. apply Z.pow_pos_nonneg; lia. }
    destruct s; cbn [cond_Zopp]; [|symmetry; apply E].
    change (Zneg m) with (- Zpos m)%Z. rewrite F2R_Zopp, Ztrunc_opp, E. reflexivity.
Qed.

(** a finite float64 between two integers of at most 53 bits stays there when rounded *)
Lemma rne_between x lo hi : (Z.abs lo <= 2 ^ 53)%Z -> (Z.abs hi <= 2 ^ 53)%Z -> IZR lo <= x <= IZR hi ->
  IZR lo <= rne x <= IZR hi.
Proof.
  intros Hl Hh (H1 & H2). split.
  - rewrite <- (round_generic radix2 fe ZnearestE (IZR lo) (int_format lo Hl)). now apply round_le; [exact fe_valid|apply valid_rnd_N|].
  - rewrite <- (round_generic radix2 fe ZnearestE (IZR hi) (int_format hi Hh)). now apply round_le; [exact fe_valid|apply valid_rnd_N|].
Qed.
Lemma int_small lo hi x : (Z.abs lo <= 2 ^ 53)%Z -> (Z.abs hi <= 2 ^ 53)%Z -> IZR lo <= x <= IZR hi -> Rabs x <= bpow radix2 1000.
Proof.
  intros Hl Hh (H1 & H2). apply Rle_trans with (bpow radix2 53); [|apply bpow_le; lia].
  change (bpow radix2 53) with (IZR (2 ^ 53)). apply Rabs_le. split.
  - apply Rle_trans with (IZR lo); [|exact H1]. rewrite <- opp_IZR. apply IZR_le. lia.
  - apply Rle_trans with (IZR hi); [exact H2|]. apply IZR_le. lia.
Qed.
Lemma plus_between x y lo hi : (Z.abs lo <= 2 ^ 53)%Z -> (Z.abs hi <= 2 ^ 53)%Z ->
  is_finite 53 1024 x = true -> is_finite 53 1024 y = true -> IZR lo <= B2R 53 1024 x + B2R 53 1024 y <= IZR hi ->
  is_finite 53 1024 (b64_plus mode_NE x y) = true /\ IZR lo <= B2R 53 1024 (b64_plus mode_NE x y) <= IZR hi.
Proof.
  intros Hl Hh Fx Fy H. pose proof (Bplus_correct 53 1024 eq_refl eq_refl binop_nan_pl64 mode_NE x y Fx Fy) as P.
  cbn [round_mode] in P. rewrite small_lt in P by (exact (int_small _ _ _ Hl Hh H)).
  unfold b64_plus. destruct P as (E & F & _). rewrite E. split; [exact F|]. now apply rne_between.
Qed.
Lemma mult_between x a lo hi : (0 < a <= 2 ^ 20)%Z -> (Z.abs lo <= 2 ^ 30)%Z -> (Z.abs hi <= 2 ^ 30)%Z ->
  is_finite 53 1024 x = true -> IZR lo <= B2R 53 1024 x <= IZR hi ->
  is_finite 53 1024 (b64_mult mode_NE x (f64_of_Z a)) = true
  /\ IZR (lo * a) <= B2R 53 1024 (b64_mult mode_NE x (f64_of_Z a)) <= IZR (hi * a).
Proof.
  intros Ha Hl Hh Fx H. destruct (f64_of_Z_spec a ltac:(lia)) as (Ea & Fa).
  assert (Hl' : (Z.abs (lo * a) <= 2 ^ 53)%Z) by (rewrite Z.abs_mul; nia).
  assert (Hh' : (Z.abs (hi * a) <= 2 ^ 53)%Z) by (rewrite Z.abs_mul; nia).
  assert (Hp : IZR (lo * a) <= B2R 53 1024 x * IZR a <= IZR (hi * a)).
  { rewrite !mult_IZR. assert (0 <= IZR a) by (apply IZR_le; lia). split; apply Rmult_le_compat_r; tauto || lra. }
  pose proof (Bmult_correct 53 1024 eq_refl eq_refl binop_nan_pl64 mode_NE x (f64_of_Z a)) as P.
  rewrite Ea in P. cbn [round_mode] in P. rewrite small_lt in P by (exact (int_small _ _ _ Hl' Hh' Hp)).
  unfold b64_mult. destruct P as (E & F & _). rewrite E, F, Fx, Fa. split; [reflexivity|]. now apply rne_between.
Qed.

(** an offset of at most [w] from the integer base [b] *)
Lemma scaled_trunc b w off a : (0 <= w <= 1000)%Z -> (0 <= b <= 1000)%Z -> (0 < a <= 2 ^ 20)%Z -> offset_in w off ->
  exists z, f64_trunc (scaled (f64_of_Z b) off a) = Some z /\ ((b - w) * a <= z <= (b + w) * a)%Z.
Proof.
  intros Hw Hb Ha (Fo & Ho). destruct (f64_of_Z_spec b ltac:(lia)) as (Eb & Fb).
  destruct (plus_between (f64_of_Z b) off (b - w) (b + w)) as (Fs & Hs); [lia|lia|exact Fb|exact Fo| |].
  { rewrite Eb, minus_IZR, plus_IZR. lra. }
  destruct (mult_between _ a (b - w) (b + w) Ha ltac:(lia) ltac:(lia) Fs Hs) as (Fm & Hm).
  eexists. unfold scaled. rewrite (f64_trunc_spec _ Fm). split; [reflexivity|].
  split; [rewrite <- (Ztrunc_IZR ((b - w) * a))|rewrite <- (Ztrunc_IZR ((b + w) * a))]; apply Ztrunc_le; apply Hm.
Qed.
Local Open Scope Z_scope.
Lemma scaled_uint other bits b w off a : (0 <= w <= 1000) -> (w <= b <= 1000) -> (0 < a <= 2 ^ 20) -> offset_in w off ->
  (b + w) * a < 2 ^ bits ->
  Z.of_N (toUint other bits (scaled (f64_of_Z b) off a)) = match f64_trunc (scaled (f64_of_Z b) off a) with Some z => z | None => 0 end
  /\ (b - w) * a <= Z.of_N (toUint other bits (scaled (f64_of_Z b) off a)) <= (b + w) * a.
Proof.
  intros Hw Hb Ha Ho Hr. destruct (scaled_trunc b w off a Hw ltac:(lia) Ha Ho) as (z & E & Hz).
  unfold toUint. rewrite E. assert (0 <= (b - w) * a) by nia.
  assert (B : ((0 <=? z) && (z <? 2 ^ bits))%bool = true) by (apply Bool.andb_true_iff; rewrite Z.leb_le, Z.ltb_lt; lia).
  rewrite B.
  rewrite Z2N.id by lia. split; [reflexivity|exact Hz].
Qed.
(** below zero *)
Lemma zero_trunc off a : (0 < a <= 2 ^ 20) -> is_finite 53 1024 off = true -> (-1 <= B2R 53 1024 off <= - / IZR a)%R ->
  exists z, f64_trunc (scaled (f64_of_Z 0) off a) = Some z /\ - a <= z <= -1.
Proof.
  intros Ha Fo (H1 & H2). destruct (f64_of_Z_spec a ltac:(lia)) as (Ea & Fa). destruct (f64_of_Z_spec 0 ltac:(lia)) as (E0 & F0).
  assert (Ha0 : (0 < IZR a)%R) by (apply IZR_lt; lia).
  pose proof (Bplus_correct 53 1024 eq_refl eq_refl binop_nan_pl64 mode_NE (f64_of_Z 0) off F0 Fo) as P.
  assert (Hinv : (0 < / IZR a)%R) by (apply Rinv_0_lt_compat; exact Ha0).
  rewrite E0, Rplus_0_l in P. cbn [round_mode] in P.
  rewrite small_lt in P by (apply (int_small (-1) 0); [lia|lia|]; cbn; lra). destruct P as (Es & Fs & _).
  rewrite round_generic in Es; [|apply valid_rnd_N|apply generic_format_B2R].
  fold (b64_plus mode_NE (f64_of_Z 0) off) in Es, Fs.
  pose proof (Bmult_correct 53 1024 eq_refl eq_refl binop_nan_pl64 mode_NE (b64_plus mode_NE (f64_of_Z 0) off) (f64_of_Z a)) as P.
  rewrite Ea, Es in P. cbn [round_mode] in P.
  assert (Hp : (IZR (- a) <= B2R 53 1024 off * IZR a <= IZR (-1))%R).
  { rewrite opp_IZR. split.
    - apply Rle_trans with (-1 * IZR a)%R; [lra|]. apply Rmult_le_compat_r; lra.
    - apply Rle_trans with (- / IZR a * IZR a)%R; [apply Rmult_le_compat_r; lra|]. right. field. lra. }
  rewrite small_lt in P by (apply (int_small (- a) (-1)); [lia|lia|exact Hp]). destruct P as (E & F & _).
  rewrite Fs, Fa in F. change (is_finite 53 1024 (scaled (f64_of_Z 0) off a) = true) in F.
  eexists. rewrite (f64_trunc_spec _ F). split; [reflexivity|].
  destruct (rne_between _ (- a) (-1) ltac:(lia) ltac:(lia) Hp) as (L & R).
  change (B2R 53 1024 (scaled (f64_of_Z 0) off a) = rne (B2R 53 1024 off * IZR a)) in E. rewrite E.
  split; [rewrite <- (Ztrunc_IZR (- a))|rewrite <- (Ztrunc_IZR (-1))]; apply Ztrunc_le; assumption.
Qed.
Lemma low_trunc b off a : (0 <= b <= 1000) -> (0 < a <= 2 ^ 20) -> is_finite 53 1024 off = true ->
  (IZR (- b - 10) <= B2R 53 1024 off <= IZR (- b - 1))%R ->
  exists z, f64_trunc (scaled (f64_of_Z b) off a) = Some z /\ (- 10 * a <= z <= - a).
Proof.
  intros Hb Ha Fo Ho. destruct (f64_of_Z_spec b ltac:(lia)) as (Eb & Fb).
  destruct (plus_between (f64_of_Z b) off (-10) (-1)) as (Fs & Hs); [lia|lia|exact Fb|exact Fo| |].
  { rewrite Eb. rewrite !minus_IZR, !opp_IZR in Ho. lra. }
  destruct (mult_between _ a (-10) (-1) Ha ltac:(lia) ltac:(lia) Fs Hs) as (Fm & Hm).
  eexists. unfold scaled. rewrite (f64_trunc_spec _ Fm). split; [reflexivity|].
  split; [rewrite <- (Ztrunc_IZR (-10 * a))|replace (- a) with (-1 * a) by lia; rewrite <- (Ztrunc_IZR (-1 * a))]; apply Ztrunc_le; apply Hm.
Qed.
