(** Serial numbers taken at the same time, also past 65535 (C63) *)
From Coq Require Import List NArith Lia Bool Arith.
From Verif Require Import Base ProgM ProgP RingM SerialP.
Import ListNotations.
Local Open Scope N_scope.

(** C63: of any number of callers at the same time, those up to 65535 get numbers of their own; with k numbers taken past it,
    the only numbers that are given twice are those below k. *)
Theorem C63_wrap_partial : forall l n c0 sch, c0 + N.of_nat n < 4294967296 ->
  let '(ps, _) := psteps (repeat (getNextSerialNum l) n) c0 sch in
  (forall i x, nth_error ps i = Some (Ret (Ok x)) -> c0 < x <= 65535 \/ 65536 + x <= c0 + N.of_nat n)
  /\ (forall i j x, i <> j -> nth_error ps i = Some (Ret (Ok x)) -> nth_error ps j = Some (Ret (Ok x)) -> 65536 + x <= c0 + N.of_nat n).
Proof. exact serials_wrap. Qed.
Print Assumptions C63_wrap_partial.
(** and each of these can be *)
Theorem C63_refuted_each : forall l x, 1 <= x <= 65535 ->
  exists sch, let '(ps, _) := psteps (repeat (getNextSerialNum l) (S (N.to_nat x))) 65535 sch in
    nth_error ps 0 = Some (Ret (Ok x)) /\ nth_error ps (N.to_nat x) = Some (Ret (Ok x)).
Proof. exact serials_twice. Qed.
Print Assumptions C63_refuted_each.
(** four callers at 65533: two get the last numbers, and two past the end both get 1, the greatest number given twice *)
Example C63_wrap_ex : 65533 + N.of_nat 4 < 4294967296
  /\ psteps (repeat (getNextSerialNum 0) 4) 65533 [0; 1; 2; 2; 3; 2]%nat
     = ([Ret (Ok 65534); Ret (Ok 65535); Ret (Ok 1); Ret (Ok 1)], 1)
  /\ 65536 + 1 <= 65533 + N.of_nat 4.
Proof. split; [reflexivity|]. split; [reflexivity|]. discriminate. Qed.
