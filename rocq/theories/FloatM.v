(** Model of the float64 coordinates in model/device.go *)
From Coq Require Import ZArith.
From Flocq Require Import Core IEEE754.BinarySingleNaN IEEE754.Binary IEEE754.Bits.
Local Open Scope Z_scope.

(** float64(x) for an integer x *)
Definition f64_of_Z (z : Z) : binary64 :=
  binary_normalize 53 1024 (eq_refl : 0 < 53) (eq_refl : 53 < 1024) mode_NE z 0 false.

(** model/device.go:92-95 LocationAccuracy, SpeedAccuracy *)
Definition locationAccuracy : Z := 1000000.
Definition speedAccuracy : Z := 10.
(** model/device.go:103-107 Location.Decode: float64(m.Latitude) / LocationAccuracy, in
    IEEE 754 binary64, rounding to nearest even; the same for the longitude *)
Definition locDegree (n : N) : binary64 :=
  b64_div mode_NE (f64_of_Z (Z.of_N n)) (f64_of_Z locationAccuracy).
(** model/device.go:114-117 Drive.Decode: float64(m.Speed) / SpeedAccuracy *)
Definition driveSpeed (n : N) : binary64 :=
  b64_div mode_NE (f64_of_Z (Z.of_N n)) (f64_of_Z speedAccuracy).
