(** C137: the simulator sends the numbers it is configured with *)
From Coq Require Import ZArith.
From stdpp Require Import gmap.
From Verif Require Import Base HexM TimeM HeaderM ParamsM GeoM MsgM FloatM StateM ClientM DatagenM SpecCodec SpecNumeral NumeralP.
Local Open Scope N_scope.

(** C137: a number written in decimal, with or without a sign, is taken for what it is when it fits an int, anything
    else is taken for 0 ... *)
Theorem C137_atoi_partial : forall s, (forall z, numeral s z -> int64 z -> atoi s = z) /\ (no_number s -> atoi s = 0%Z).
Proof. intros s. split; [apply atoi_number|apply atoi_none]. Qed.
Print Assumptions C137_atoi_partial.
(** ... so the registration carries the configured province, city and plate colour, reduced to 16 and 8 bits *)
Theorem C137_registration_partial : forall c d, exists r, genMsg0100 c d = mkMsg (simHeader 0x0100 d) (B0100 r)
  /\ carried 16 (sm_prov c) (r_prov r) /\ carried 16 (sm_city c) (r_city r) /\ carried 8 (sm_color c) (r_color r)
  /\ r_devid r = d_id d /\ r_plate r = d_plate d.
Proof. exact registration_carries. Qed.
Print Assumptions C137_registration_partial.
(** ... and a report each configured status in its place, but the kinds of latitude and longitude are exchanged: *)
Theorem C137_status_partial : forall other d g r now, status_fit (dr_meta r) -> exists l,
  genMsg0200 other d g r now = mkMsg (simHeader 0x0200 d) (B0200 l)
  /\ forall i z p, nth_error status_table i = Some p -> numeral (dr_meta r i) z ->
     exists q, nth_error status_table (exchanged i) = Some q /\ status_field (l_status l) q = Z.to_N z
               /\ nth_error (status_fields (geoDecode (l_status l))) (exchanged i) = Some (Z.to_N z).
Proof. exact report_status. Qed.
Print Assumptions C137_status_partial.
(** a terminal configured for south and east is seen at north and west; *)
Theorem C137_refuted : forall other d g r now l za zo, status_fit (dr_meta r) ->
  numeral (dr_meta r 2%nat) za -> numeral (dr_meta r 3%nat) zo -> za <> zo ->
  genMsg0200 other d g r now = mkMsg (simHeader 0x0200 d) (B0200 l) ->
  Z.of_N (g_latt (geoDecode (l_status l))) = zo /\ Z.of_N (g_lont (geoDecode (l_status l))) = za.
Proof.
  intros other d g r now l za zo H Ha Ho Hn E.
  destruct (report_status other d g r now H) as (l' & E' & F). rewrite E in E'. injection E' as <-.
  destruct (F 2%nat za (2, 1) eq_refl Ha) as (_ & _ & _ & Fa). destruct (F 3%nat zo (3, 1) eq_refl Ho) as (_ & _ & _ & Fo).
  assert (Pa : (0 <= za)%Z).
  { destruct (H 2%nat _ eq_refl) as (z & Hz & B). apply numeral_parsed in Hz, Ha. assert (z = za) by congruence. lia. }
  assert (Po : (0 <= zo)%Z).
  { destruct (H 3%nat _ eq_refl) as (z & Hz & B). apply numeral_parsed in Hz, Ho. assert (z = zo) by congruence. lia. }
  revert Fa Fo. generalize (geoDecode (l_status l)). intros m Fa Fo. cbn [exchanged nth_error status_fields] in Fa, Fo. injection Fa as ->. injection Fo as ->. rewrite !Z2N.id by assumption. split; reflexivity.
Qed.
Print Assumptions C137_refuted.
(** and a number too large for its field is sent as another one *)
Theorem C137_refuted_large : forall c d z, numeral (sm_prov c) z -> (65536 <= z < 2 ^ 63)%Z ->
  exists r, genMsg0100 c d = mkMsg (simHeader 0x0100 d) (B0100 r) /\ Z.of_N (r_prov r) <> z.
Proof.
  intros c d z Hn Hz. destruct (registration_carries c d) as (r & E & (P & _) & _). exists r. split; [exact E|].
  rewrite (P z Hn) by (unfold int64; lia). pose proof (Z.mod_pos_bound z (2 ^ 16) eq_refl). lia.
Qed.
Print Assumptions C137_refuted_large.

(** "31", "-7", "12a", "99999999999999999999", "70000"; statuses "0", with "1" for the kind of latitude and "3" for the load *)
Definition meta_ex (i : nat) : str := match i with 2%nat => [49] | 6%nat => [51] | _ => [48] end.
Lemma one_digit c : 48 <= c <= 57 -> numeral [c] (Z.of_N c - 48).
Proof.
  intros H. exists [c]. split; [discriminate|]. split; [cbn; rewrite (proj2 (digit_iff c) H); reflexivity|]. left. split; [reflexivity|].
  unfold digits_value. cbn [length seq map fold_right Nat.sub nth]. change (10 ^ Z.of_nat 0)%Z with 1%Z. lia.
Qed.
Example C137_ex : numeral [51; 49] 31 /\ numeral [45; 55] (-7) /\ int64 31 /\ int64 (-7)
  /\ no_number [49; 50; 97] /\ no_number (repeat 57 20) /\ numeral [55; 48; 48; 48; 48] 70000
  /\ status_fit meta_ex /\ numeral (meta_ex 2) 1 /\ numeral (meta_ex 3) 0.
Proof.
  split; [apply numeral_parsed; reflexivity|]. split; [apply numeral_parsed; reflexivity|].
  split; [unfold int64; lia|]. split; [unfold int64; lia|].
  split. { intros z Hn. apply numeral_parsed in Hn. discriminate. }
  split. { intros z Hn. apply numeral_parsed in Hn. vm_compute in Hn. injection Hn as <-. unfold int64. lia. }
  split; [apply numeral_parsed; reflexivity|].
  assert (D : forall i p, nth_error status_table i = Some p -> exists c, meta_ex i = [c] /\ 48 <= c <= 57 /\ (Z.of_N c - 48 < 2 ^ Z.of_N (snd p))%Z).
  { intros i p Hp. do 20 (destruct i as [|i]; [injection Hp as <-; eexists; split; [reflexivity|]; cbn; lia|]). destruct i; discriminate. }
  split. { intros i p Hp. destruct (D i p Hp) as (c & -> & Hc & B). exists (Z.of_N c - 48)%Z. split; [apply one_digit; exact Hc|lia]. }
  split; [exact (one_digit 49 ltac:(lia))|exact (one_digit 48 ltac:(lia))].
Qed.
