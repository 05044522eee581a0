(** Model of internal/codec/hash/hash.go and of strconv.Itoa on a uint32 *)
From Verif Require Import Base.
Local Open Scope N_scope.

(** hash/fnv New32a: offset basis 2166136261, prime 16777619, uint32 wrap *)
Definition fnv32_step (h b : N) : N := (N.lxor h b * 16777619) mod 4294967296.
(** hash.go:6-10 FNV32 *)
Definition FNV32 (s : str) : N := fold_left fnv32_step s 2166136261.

(** strconv.Itoa on a non-negative number: decimal digits, most significant first,
    by repeated division; 10 digits of fuel suffice for uint32 (see HexP). *)
Fixpoint itoa_fuel (fuel : nat) (n : N) (acc : str) : str :=
  match fuel with
  | O => acc
  | S f => let acc' := (48 + n mod 10) :: acc in
           if n <? 10 then acc' else itoa_fuel f (n / 10) acc'
  end.
Definition itoa (n : N) : str := itoa_fuel 20 n [].
