(** Proofs about the float64 coordinates *)
From Coq Require Import ZArith Reals Lia Lra.
From Flocq Require Import Core IEEE754.BinarySingleNaN IEEE754.Binary IEEE754.Bits.
From Verif Require Import FloatM.
Local Open Scope R_scope.

Notation fe := (SpecFloat.fexp 53 1024).
Notation rne := (round radix2 fe ZnearestE).

Lemma fe_flt : fe = FLT_exp (-1074) 53.
Proof. reflexivity. Qed.
Global Instance fe_valid : Valid_exp fe.
Proof. rewrite fe_flt. apply FLT_exp_valid. reflexivity. Qed.
Global Instance fe_mono : Monotone_exp fe.
Proof. rewrite fe_flt. apply FLT_exp_monotone. Qed.

Lemma rne_err x e : (e >= -1021)%Z -> Rabs x <= bpow radix2 e -> Rabs (rne x - x) <= bpow radix2 (e - 53).
Proof.
  intros He Hx.
  eapply Rle_trans; [apply error_le_half_ulp; exact fe_valid|].
  assert (Hu : ulp radix2 fe x <= bpow radix2 (e - 52)).
  { rewrite <- ulp_abs.
    eapply Rle_trans; [apply ulp_le_pos; [exact fe_valid|exact fe_mono|apply Rabs_pos|exact Hx]|].
    rewrite ulp_bpow. apply bpow_le. rewrite fe_flt. unfold FLT_exp. lia. }
  replace (e - 52)%Z with (1 + (e - 53))%Z in Hu by lia. rewrite bpow_plus in Hu.
  change (bpow radix2 1) with 2 in Hu. lra.
Qed.

Lemma small_lt x : Rabs x <= bpow radix2 1000 -> Rlt_bool (Rabs (rne x)) (bpow radix2 1024) = true.
Proof.
  intros Hx. apply Rlt_bool_true. eapply Rle_lt_trans; [|apply (bpow_lt radix2 1000 1024); lia].
  apply abs_round_le_generic; [exact fe_valid|apply valid_rnd_N| |exact Hx].
  apply generic_format_bpow. rewrite fe_flt. unfold FLT_exp. lia.
Qed.

Lemma int_format z : (Z.abs z <= 2 ^ 53)%Z -> generic_format radix2 fe (IZR z).
Proof.
  intros Hz. rewrite fe_flt.
  destruct (Z.eq_dec (Z.abs z) (2 ^ 53)) as [E|E].
  - assert (Hb : generic_format radix2 (FLT_exp (-1074) 53) (bpow radix2 53))
      by (apply generic_format_bpow; unfold FLT_exp; lia).
    assert (z = 2 ^ 53 \/ z = - 2 ^ 53)%Z as [->| ->] by lia.
    + replace (IZR (2 ^ 53)) with (bpow radix2 53) by reflexivity. exact Hb.
    + replace (IZR (- 2 ^ 53)) with (- bpow radix2 53) by (cbn; lra). apply generic_format_opp. exact Hb.
  - apply generic_format_FLT. exists (Float radix2 z 0).
    + unfold F2R. cbn. lra.
    + cbn [Fnum]. change (2 ^ 53)%Z with 9007199254740992%Z in *.
      change (radix2 ^ 53)%Z with 9007199254740992%Z. lia.
    + cbn. lia.
Qed.

Lemma f64_of_Z_spec z : (Z.abs z <= 2 ^ 53)%Z -> B2R 53 1024 (f64_of_Z z) = IZR z
  /\ is_finite 53 1024 (f64_of_Z z) = true.
Proof.
  intros Hz. unfold f64_of_Z.
  pose proof (binary_normalize_correct 53 1024 eq_refl eq_refl mode_NE z 0 false) as H.
  cbn [round_mode] in H.
  assert (E : F2R (Float radix2 z 0) = IZR z) by (unfold F2R; cbn; lra).
  rewrite E in H. rewrite (round_generic radix2 fe ZnearestE (IZR z) (int_format z Hz)) in H.
  rewrite Rlt_bool_true in H; [split; apply H|].
  rewrite <- abs_IZR. eapply Rle_lt_trans; [apply IZR_le; exact Hz|].
  change (IZR (2 ^ 53)) with (bpow radix2 53). apply bpow_lt. lia.
Qed.

Lemma div_nonneg x y : 0 <= x -> 0 < y -> 0 <= x / y.
Proof.
  intros Hx Hy. unfold Rdiv. apply Rmult_le_pos; [exact Hx|]. apply Rlt_le, Rinv_0_lt_compat, Hy.
Qed.

Lemma div_spec n a : (0 <= n < 2 ^ 32)%Z -> (0 < a <= 2 ^ 32)%Z ->
  B2R 53 1024 (b64_div mode_NE (f64_of_Z n) (f64_of_Z a)) = rne (IZR n / IZR a)
  /\ is_finite 53 1024 (b64_div mode_NE (f64_of_Z n) (f64_of_Z a)) = true.
Proof.
  intros Hn Ha. destruct (f64_of_Z_spec n) as (En & Fn); [lia|].
  destruct (f64_of_Z_spec a) as (Ea & Fa); [lia|].
  assert (Ha0 : IZR a <> 0) by (apply IZR_neq; lia).
  pose proof (Bdiv_correct 53 1024 eq_refl eq_refl binop_nan_pl64 mode_NE (f64_of_Z n) (f64_of_Z a)) as H.
  rewrite En, Ea in H. specialize (H Ha0). cbn [round_mode] in H.
  rewrite small_lt in H.
  - unfold b64_div. split; [apply H|]. rewrite <- Fn. apply H.
  - assert (1 <= IZR a) by (apply IZR_le; lia). assert (0 <= IZR n) by (apply IZR_le; lia).
    rewrite Rabs_pos_eq by (apply div_nonneg; lra).
    apply Rle_trans with (IZR n).
    + unfold Rdiv. rewrite <- (Rmult_1_r (IZR n)) at 2. apply Rmult_le_compat_l; [lra|].
      rewrite <- Rinv_1. apply Rinv_le; lra.
    + apply Rle_trans with (IZR (2 ^ 32)); [apply IZR_le; lia|].
      change (IZR (2 ^ 32)) with (bpow radix2 32). apply bpow_le. lia.
Qed.

(** the quotient is close to n/a *)
Lemma div_close n a : (0 <= n < 2 ^ 32)%Z -> (1 <= a <= 2 ^ 20)%Z -> (n <= 2 ^ 13 * a)%Z ->
  Rabs (B2R 53 1024 (b64_div mode_NE (f64_of_Z n) (f64_of_Z a)) * IZR a - IZR n) <= bpow radix2 (-20).
Proof.
  intros Hn Ha Hna. destruct (div_spec n a Hn ltac:(lia)) as (E & _). rewrite E.
  assert (H1 : 1 <= IZR a <= IZR (2 ^ 20)) by (split; apply IZR_le; lia).
  assert (Hq : Rabs (IZR n / IZR a) <= bpow radix2 13).
  { assert (0 <= IZR n) by (apply IZR_le; lia).
    rewrite Rabs_pos_eq by (apply div_nonneg; lra).
    apply Rmult_le_reg_r with (IZR a); [lra|].
    unfold Rdiv. rewrite Rmult_assoc, Rinv_l, Rmult_1_r by lra.
    change (bpow radix2 13) with (IZR (2 ^ 13)). rewrite <- mult_IZR. apply IZR_le. exact Hna. }
  pose proof (rne_err _ 13 ltac:(lia) Hq) as He.
  replace (rne (IZR n / IZR a) * IZR a - IZR n) with ((rne (IZR n / IZR a) - IZR n / IZR a) * IZR a)
    by (field; lra).
  rewrite Rabs_mult, (Rabs_pos_eq (IZR a)) by lra.
  apply Rle_trans with (bpow radix2 (13 - 53) * IZR (2 ^ 20)).
  - apply Rmult_le_compat; [apply Rabs_pos|lra|exact He|apply H1].
  - change (IZR (2 ^ 20)) with (bpow radix2 20). rewrite <- bpow_plus. apply Rle_refl.
Qed.

Lemma floor_half x n : Rabs (x - IZR n) < / 2 -> Zfloor (x + / 2) = n.
Proof. intros H. apply Rabs_lt_inv in H. apply Zfloor_imp. rewrite plus_IZR. lra. Qed.

(** multiplying back in float64, as a client reading the JSON number would *)
Lemma mul_back n a : (0 <= n < 2 ^ 32)%Z -> (1 <= a <= 2 ^ 20)%Z -> (n <= 2 ^ 13 * a)%Z ->
  let v := b64_div mode_NE (f64_of_Z n) (f64_of_Z a) in
  is_finite 53 1024 v = true
  /\ Zfloor (B2R 53 1024 v * IZR a + / 2) = n
  /\ Zfloor (B2R 53 1024 (b64_mult mode_NE v (f64_of_Z a)) + / 2) = n.
Proof.
  intros Hn Ha Hna v. destruct (div_spec n a Hn ltac:(lia)) as (_ & Fv). split; [exact Fv|].
  pose proof (div_close n a Hn Ha Hna) as Hc. fold v in Hc.
  assert (Hs : bpow radix2 (-20) < / 4).
  { change (/ 4) with (/ IZR (2 ^ 2)). change (IZR (2 ^ 2)) with (bpow radix2 2).
    rewrite <- bpow_opp. apply bpow_lt. lia. }
  split; [apply floor_half; lra|].
  destruct (f64_of_Z_spec a) as (Ea & Fa); [lia|].
  pose proof (Bmult_correct 53 1024 eq_refl eq_refl binop_nan_pl64 mode_NE v (f64_of_Z a)) as H.
  rewrite Ea in H. cbn [round_mode] in H.
  assert (Hp : Rabs (B2R 53 1024 v * IZR a) <= bpow radix2 33).
  { assert (0 <= IZR n <= IZR (2 ^ 32)) by (split; apply IZR_le; lia).
    change (IZR (2 ^ 32)) with (bpow radix2 32) in *.
    replace (bpow radix2 33) with (bpow radix2 32 + bpow radix2 32)
      by (change 33%Z with (32 + 1)%Z; rewrite (bpow_plus radix2 32 1); change (bpow radix2 1) with 2; lra).
    assert (1 <= bpow radix2 32) by (change 1 with (bpow radix2 0); apply bpow_le; lia).
    replace (B2R 53 1024 v * IZR a) with ((B2R 53 1024 v * IZR a - IZR n) + IZR n) by lra.
    eapply Rle_trans; [apply Rabs_triang|]. rewrite (Rabs_pos_eq (IZR n)) by lra. lra. }
  rewrite small_lt in H.
  2:{ eapply Rle_trans; [exact Hp|]. apply bpow_le. lia. }
  unfold b64_mult. destruct H as (-> & _).
  pose proof (rne_err _ 33 ltac:(lia) Hp) as He. change (33 - 53)%Z with (-20)%Z in He.
  apply floor_half.
  replace (rne (B2R 53 1024 v * IZR a) - IZR n)
    with ((rne (B2R 53 1024 v * IZR a) - B2R 53 1024 v * IZR a) + (B2R 53 1024 v * IZR a - IZR n)) by lra.
  eapply Rle_lt_trans; [apply Rabs_triang|]. lra.
Qed.

(** C34 *)
Lemma location_precise n : (n < 2 ^ 32)%N ->
  is_finite 53 1024 (locDegree n) = true
  /\ Zfloor (B2R 53 1024 (locDegree n) * 1000000 + / 2) = Z.of_N n
  /\ Zfloor (B2R 53 1024 (b64_mult mode_NE (locDegree n) (f64_of_Z 1000000)) + / 2) = Z.of_N n.
Proof. intros Hn. apply (mul_back (Z.of_N n) 1000000); lia. Qed.
Lemma speed_precise n : (n < 2 ^ 16)%N ->
  is_finite 53 1024 (driveSpeed n) = true
  /\ Zfloor (B2R 53 1024 (driveSpeed n) * 10 + / 2) = Z.of_N n
  /\ Zfloor (B2R 53 1024 (b64_mult mode_NE (driveSpeed n) (f64_of_Z 10)) + / 2) = Z.of_N n.
Proof. intros Hn. apply (mul_back (Z.of_N n) 10); lia. Qed.
Lemma location_injective n m : (n < 2 ^ 32)%N -> (m < 2 ^ 32)%N -> locDegree n = locDegree m -> n = m.
Proof.
  intros Hn Hm E. destruct (location_precise n Hn) as (_ & H1 & _). destruct (location_precise m Hm) as (_ & H2 & _).
  rewrite E in H1. lia.
Qed.
Lemma speed_injective n m : (n < 2 ^ 16)%N -> (m < 2 ^ 16)%N -> driveSpeed n = driveSpeed m -> n = m.
Proof.
  intros Hn Hm E. destruct (speed_precise n Hn) as (_ & H1 & _). destruct (speed_precise m Hm) as (_ & H2 & _).
  rewrite E in H1. lia.
Qed.
