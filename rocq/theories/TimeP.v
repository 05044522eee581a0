(** Proofs about time fields *)
From Coq Require Import ZifyBool ZifyNat ZifyN.
From Verif Require Import Base HexM TimeM SpecCodec HexP.
Local Open Scope N_scope.
Ltac Zify.zify_post_hook ::= Z.div_mod_to_equations.

Lemma daysIn_le m y : daysIn m y <= 31.
Proof.
  unfold daysIn. destruct (m =? 2); [destruct (isLeap y); lia|].
  destruct ((m =? 4) || (m =? 6) || (m =? 9) || (m =? 11)); lia.
Qed.

Lemma isLeap_leap y : isLeap y = true <-> leap y.
Proof. unfold isLeap, leap. split; lia. Qed.

(** the specification's calendar and package time's agree *)
Lemma civil_valid_iff t : civil_valid t <->
  1 <= c_month t <= 12 /\ 1 <= c_day t <= daysIn (c_month t) (c_year t)
  /\ c_hour t < 24 /\ c_min t < 60 /\ c_sec t < 60.
Proof.
  unfold civil_valid, daysIn. cbn [In].
  destruct (N.eqb_spec (c_month t) 2) as [E2|E2].
  - pose proof (isLeap_leap (c_year t)) as HL. destruct (isLeap (c_year t)).
    + split; [intros (A & B & C & D & F & G & H & I); lia|].
      intros (A & B & C & D & F).
      repeat (split; [try lia|]); try lia. intros _ K. exfalso. apply K, HL. reflexivity.
    + assert (K : ~ leap (c_year t)) by (intros K; apply HL in K; discriminate).
      split; [intros (A & B & C & D & F & G & H & I); specialize (F E2 K); lia|].
      intros (A & B & C & D & F). repeat (split; [try lia|]); try lia.
  - destruct ((c_month t =? 4) || (c_month t =? 6) || (c_month t =? 9) || (c_month t =? 11)) eqn:E.
    + split; [intros (A & B & C & D & F & G & H & I)|intros (A & B & C & D & F)].
      * assert (c_day t <= 30) by (apply C; lia). lia.
      * repeat (split; [try lia|]); try lia.
    + split; [intros (A & B & C & D & F & G & H & I)|intros (A & B & C & D & F)];
      repeat (split; [try lia|]); try lia.
Qed.

Lemma get2_dec2 n : n < 100 -> get2 (48 + n / 10) (48 + n mod 10) = Some n.
Proof.
  intros H. unfold get2, isDigit.
  assert (E : ((48 <=? 48 + n / 10) && (48 + n / 10 <=? 57)) &&
              ((48 <=? 48 + n mod 10) && (48 + n mod 10 <=? 57)) = true) by lia.
  rewrite E. f_equal. lia.
Qed.

Lemma timeParse_FormatTime t : civil_valid t -> year_window t ->
  timeParse (FormatTime t) = Some t.
Proof.
  intros Hcv Hy. apply civil_valid_iff in Hcv as (Hm & Hd & Hh & Hn & Hs). unfold year_window in Hy.
  pose proof (daysIn_le (c_month t) (c_year t)) as Hdi.
  unfold FormatTime, dec2. cbn [app]. unfold timeParse.
  rewrite !get2_dec2 by lia.
  assert (Ey : (if 69 <=? c_year t mod 100 then c_year t mod 100 + 1900
                else c_year t mod 100 + 2000) = c_year t).
  { destruct (N.leb_spec 69 (c_year t mod 100)); lia. }
  rewrite Ey.
  assert (E : (1 <=? c_month t) && (c_month t <=? 12) && (1 <=? c_day t)
       && (c_day t <=? daysIn (c_month t) (c_year t)) && (c_hour t <? 24)
       && (c_min t <? 60) && (c_sec t <? 60) = true) by lia.
  rewrite E. destruct t; reflexivity.
Qed.

Lemma digits_dec2 n : n < 100 -> digits (dec2 n) = true.
Proof. intros H. unfold dec2. rewrite !digits_cons. repeat split; lia. Qed.

Lemma digits_FormatTime t : civil_valid t -> digits (FormatTime t) = true.
Proof.
  intros Hcv. apply civil_valid_iff in Hcv as (Hm & Hd & Hh & Hn & Hs). pose proof (daysIn_le (c_month t) (c_year t)) as Hdi.
  unfold FormatTime. rewrite !digits_app. repeat split; apply digits_dec2; lia.
Qed.
Lemma FormatTime_length t : length (FormatTime t) = 12%nat.
Proof. reflexivity. Qed.

Lemma WriteTime_bytes p t : WriteTime p t = p ++ numberStr2BCD (FormatTime t).
Proof. reflexivity. Qed.

Lemma time_bcd_length t : civil_valid t -> length (numberStr2BCD (FormatTime t)) = 6%nat.
Proof.
  intros H. pose proof (numberStr2BCD_length (FormatTime t) (digits_FormatTime t H)) as E.
  rewrite FormatTime_length in E. specialize (E ltac:(lia) eq_refl). lia.
Qed.

Lemma reads_time i now t : civil_valid t -> year_window t ->
  reads i (ReadTime now) (numberStr2BCD (FormatTime t)) t.
Proof.
  intros Hv Hy. unfold ReadTime.
  assert (E : ParseTime now (bcd2NumberStr (numberStr2BCD (FormatTime t))) = t).
  { rewrite bcd_roundtrip_long; [|now apply digits_FormatTime|rewrite FormatTime_length; lia|reflexivity].
    unfold ParseTime. now rewrite timeParse_FormatTime. }
  rewrite <- E at 2.
  apply (reads_map i (ReadBCD 6) (ParseTime now)). apply reads_bcd.
  rewrite time_bcd_length by assumption. reflexivity.
Qed.

(** what a parsed string looks like *)
Lemma get2_inv a b n : get2 a b = Some n -> n < 100 /\ a = 48 + n / 10 /\ b = 48 + n mod 10.
Proof.
  unfold get2, isDigit.
  destruct (((48 <=? a) && (a <=? 57)) && ((48 <=? b) && (b <=? 57))) eqn:E; [|discriminate].
  intros H. injection H as H. lia.
Qed.

Lemma timeParse_inv s t : timeParse s = Some t ->
  civil_valid t /\ year_window t /\ s = FormatTime t.
Proof.
  unfold timeParse.
  destruct s as [|y1 [|y2 [|m1 [|m2 [|d1 [|d2 [|h1 [|h2 [|n1 [|n2 [|s1 [|s2 [|? ?]]]]]]]]]]]]];
    try discriminate.
  destruct (get2 y1 y2) as [y|] eqn:Ey; [|discriminate].
  destruct (get2 m1 m2) as [m|] eqn:Em; [|discriminate].
  destruct (get2 d1 d2) as [d|] eqn:Ed; [|discriminate].
  destruct (get2 h1 h2) as [h|] eqn:Eh; [|discriminate].
  destruct (get2 n1 n2) as [n|] eqn:En; [|discriminate].
  destruct (get2 s1 s2) as [sc|] eqn:Es; [|discriminate].
  apply get2_inv in Ey as (Ly & -> & ->). apply get2_inv in Em as (Lm & -> & ->).
  apply get2_inv in Ed as (Ld & -> & ->). apply get2_inv in Eh as (Lh & -> & ->).
  apply get2_inv in En as (Ln & -> & ->). apply get2_inv in Es as (Ls & -> & ->).
  set (year := if 69 <=? y then y + 1900 else y + 2000).
  match goal with |- (if ?b then _ else _) = _ -> _ => destruct b eqn:E; [|discriminate] end.
  intros H. injection H as <-.
  assert (Hyr : 1969 <= year <= 2068 /\ year mod 100 = y)
    by (unfold year; destruct (N.leb_spec 69 y); lia).
  split; [|split].
  - apply civil_valid_iff. cbn. repeat split; lia.
  - unfold year_window. cbn. apply Hyr.
  - unfold FormatTime. cbn. destruct Hyr as [_ ->]. reflexivity.
Qed.

(** a 6 byte time field is either the BCD image of the valid time returned, or no
    valid time at all has these digits and the clock is used *)
Lemma ReadTime_total now w : length w = 6%nat ->
  exists t, (forall i, reads i (ReadTime now) w t) /\
  ((civil_valid t /\ year_window t /\ bcd2NumberStr w = FormatTime t)
   \/ (t = now /\ forall u, civil_valid u -> year_window u -> bcd2NumberStr w <> FormatTime u)).
Proof.
  intros Hl. exists (ParseTime now (bcd2NumberStr w)). split.
  - intros i. unfold ReadTime. apply (reads_map i (ReadBCD 6) (ParseTime now)). apply reads_bcd.
    rewrite Hl. reflexivity.
  - unfold ParseTime. destruct (timeParse (bcd2NumberStr w)) as [t|] eqn:E.
    + left. now apply timeParse_inv.
    + right. split; [reflexivity|]. intros u Hv Hy Heq.
      rewrite Heq, timeParse_FormatTime in E by assumption. discriminate.
Qed.

Lemma FormatTime_digits t : civil_valid t -> FormatTime t = time_digits t.
Proof.
  intros Hcv. apply civil_valid_iff in Hcv as (Hm & Hd & Hh & Hn & Hs).
  pose proof (daysIn_le (c_month t) (c_year t)) as Hdi.
  unfold FormatTime, time_digits, dec2, d2. repeat (f_equal; try lia).
Qed.
Lemma time_BCD t : civil_valid t -> numberStr2BCD (FormatTime t) = BCD (time_digits t).
Proof.
  intros H. rewrite numberStr2BCD_BCD; [now rewrite FormatTime_digits|now apply digits_FormatTime|].
  rewrite FormatTime_length. lia.
Qed.
