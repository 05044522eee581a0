(** Property theorem C34: the float64 coordinates. *)
From Coq Require Import ZArith Reals.
From Flocq Require Import Core IEEE754.BinarySingleNaN IEEE754.Binary IEEE754.Bits.
From Verif Require Import FloatM FloatP.
Local Open Scope R_scope.

(** C34: rounding the stored degrees times 10^6 to the nearest integer gives the
    transmitted value back, whether the product is computed exactly or in float64 *)
Theorem C34_location : forall n, (n < 2 ^ 32)%N ->
  is_finite 53 1024 (locDegree n) = true
  /\ Zfloor (B2R 53 1024 (locDegree n) * 1000000 + / 2) = Z.of_N n
  /\ Zfloor (B2R 53 1024 (b64_mult mode_NE (locDegree n) (f64_of_Z 1000000)) + / 2) = Z.of_N n.
Proof. exact location_precise. Qed.
Print Assumptions C34_location.
Theorem C34_speed : forall n, (n < 2 ^ 16)%N ->
  is_finite 53 1024 (driveSpeed n) = true
  /\ Zfloor (B2R 53 1024 (driveSpeed n) * 10 + / 2) = Z.of_N n
  /\ Zfloor (B2R 53 1024 (b64_mult mode_NE (driveSpeed n) (f64_of_Z 10)) + / 2) = Z.of_N n.
Proof. exact speed_precise. Qed.
Print Assumptions C34_speed.
Theorem C34_injective : forall n m,
  ((n < 2 ^ 32)%N -> (m < 2 ^ 32)%N -> locDegree n = locDegree m -> n = m)
  /\ ((n < 2 ^ 16)%N -> (m < 2 ^ 16)%N -> driveSpeed n = driveSpeed m -> n = m).
Proof. exact (fun n m => conj (location_injective n m) (speed_injective n m)). Qed.
Print Assumptions C34_injective.
(** 39908692 -> 39.908692 (0x4043F45004FB1184 is the float64 nearest to it) *)
Example C34_ex : (39908692 < 2 ^ 32)%N /\ bits_of_b64 (locDegree 39908692) = 4630813466385125764%Z.
Proof. split; vm_compute; reflexivity. Qed.
