(** Property theorems C152: the argument list of a device *)
From Verif Require Import Base HexM ArgsM ArgsP.
Local Open Scope N_scope.

(** No argument list is encoded: what is returned has not even the count. *)
Theorem C152_refuted : forall V (a : devargs V) w, argsEncode a = Ok [] /\ argsEncode a <> Ok (as_cnt a :: w).
Proof. intros V a w. split; [apply encode_nothing|apply never_encoded]. Qed.
Print Assumptions C152_refuted.
(** Whatever the packet, as many items as announced are decoded, all of them empty; they are
    appended to those the object has already. *)
Theorem C152_decode_refuted : forall V (a : devargs V) phone cnt pkt,
  argsDecode a phone cnt pkt = Ok (mkArgs phone cnt (as_args a ++ repeat (mkArg 0 0 None) (N.to_nat cnt))).
Proof. intros V. exact decode_zeros. Qed.
Print Assumptions C152_decode_refuted.
(** What holds: a new object has the phone and as many items as announced. *)
Theorem C152_count_partial : forall V phone cnt pkt (a : devargs V), as_args a = [] ->
  exists b, argsDecode a phone cnt pkt = Ok b /\ as_phone b = phone /\ as_cnt b = cnt /\ N.of_nat (length (as_args b)) = cnt.
Proof. intros V. exact decode_count. Qed.
Print Assumptions C152_count_partial.
(** one item of four bytes *)
Example C152_ex : let a := mkArgs [49] 1 [mkArg 0x13 4 (Some 7)] in
  argsEncode a = Ok [] /\ argsDecode (mkArgs [] 0 []) [49] 1 [0; 0; 0; 0x13; 4; 0; 0; 0; 7] = Ok (mkArgs [49] 1 [mkArg 0 0 (@None N)])
  /\ argsDecode a [49] 1 [0; 0; 0; 0x13; 4; 0; 0; 0; 7] = Ok (mkArgs [49] 1 [mkArg 0x13 4 (Some 7); mkArg 0 0 None]).
Proof. split; [reflexivity|]. split; reflexivity. Qed.
