(** Numbers written in decimal, and the status word of a report field by field (C137) *)
From Coq Require Import ZArith.
From Verif Require Import Base GeoM SpecCodec.
Local Open Scope N_scope.

(** the number the decimal digits [ds] stand for *)
Definition digits_value (ds : str) : Z :=
  fold_right Z.add 0%Z (map (fun i => (Z.of_N (nth (length ds - 1 - i)%nat ds 48%N) - 48) * 10 ^ Z.of_nat i)%Z (seq 0 (length ds))).
(** an optional sign and at least one digit *)
Definition numeral (s : str) (z : Z) : Prop := exists ds, ds <> [] /\ digits ds = true
  /\ (s = ds /\ z = digits_value ds \/ s = 43 :: ds /\ z = digits_value ds \/ s = 45 :: ds /\ z = (- digits_value ds)%Z).
Definition int64 (z : Z) : Prop := (- 2 ^ 63 <= z < 2 ^ 63)%Z.
(** [s] stands for no number that fits an int *)
Definition no_number (s : str) : Prop := forall z, numeral s z -> ~ int64 z.

(** JT/T 808, table of the status word: where the fields of GeoMeta are, in the order of their declaration, and
    their number of bits.  The third is the kind of latitude, the fourth that of longitude. *)
Definition status_table : list (N * N) :=
  [(0, 1); (1, 1); (2, 1); (3, 1); (4, 1); (5, 1); (8, 2); (10, 1); (11, 1); (12, 1); (13, 1); (14, 1); (15, 1); (16, 1);
   (17, 1); (18, 1); (19, 1); (20, 1); (21, 1); (22, 1)].
Definition status_fields (g : geometa) : list N :=
  [g_acc g; g_loc g; g_latt g; g_lont g; g_oper g; g_crypt g; g_load g; g_fuel g; g_alt g; g_lock g; g_front g; g_mid g;
   g_back g; g_driver g; g_custom g; g_gps g; g_beidou g; g_glonass g; g_galileo g; g_driving g].
(** the field at [fst p] with [snd p] bits *)
Definition status_field (w : N) (p : N * N) : N := w / 2 ^ fst p mod 2 ^ snd p.

(** the field [n] of this many bits carries the number [s] stands for *)
Definition carried (bits : Z) (s : str) (n : N) : Prop :=
  (forall z, numeral s z -> int64 z -> Z.of_N n = z mod 2 ^ bits)%Z /\ (no_number s -> n = 0).
(** every status string stands for a number that its field can hold *)
Definition status_fit (v : nat -> str) : Prop :=
  forall i p, nth_error status_table i = Some p -> exists z, numeral (v i) z /\ (0 <= z < 2 ^ Z.of_N (snd p))%Z.
(** the third and the fourth field exchanged *)
Definition exchanged (i : nat) : nat := match i with 2 => 3 | 3 => 2 | _ => i end%nat.
