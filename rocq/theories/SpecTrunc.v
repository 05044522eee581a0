(** Specification of the bodies each message type accepts: which of its fields must lie within
    the body, and how far the others may reach beyond it *)
From Verif Require Import Base ParamsM HeaderM MsgM.
Local Open Scope N_scope.

(** bytes of a parameter value; its length byte counts for texts only *)
Definition value_size (k : pkind) (ln : N) : nat :=
  match k with PByte => 1 | PWord => 2 | PDword => 4 | _ => N.to_nat ln end.
Definition u32_at (l : bytes) (i : nat) : N :=
  ((nth i l 0 * 256 + nth (i + 1) l 0) * 256 + nth (i + 2) l 0) * 256 + nth (i + 3) l 0.
(** [n] parameters from index [i] on: the length byte of each within the first [len] bytes, so too
    a value of one byte; the others anywhere in [all] *)
Fixpoint entries (n : nat) (all : bytes) (len i : nat) : Prop :=
  match n with
  | O => True
  | S n' => (i + 4 < len)%nat /\ exists k, argKind (u32_at all i) = Some k
      /\ let j := (i + 5 + value_size k (nth (i + 4) all 0%N))%nat in
         (k = PByte -> (j <= len)%nat) /\ (j <= length all)%nat /\ entries n' all len j
  end.

(** [w]: the body, [sp]: what follows it in the buffer, [bl]: the body length in the header *)
Definition fits (k : mkind) (v : version) (bl : nat) (w sp : bytes) : Prop :=
  let len := length w in
  let cap := (length w + length sp)%nat in
  match k with
  | K0001 | K8001 => (5 <= len)%nat
  | K9205 => (24 <= len)%nat
  | K0200 => (28 <= cap)%nat
  | K8004 => (6 <= cap)%nat
  | K1205 => (30 <= len)%nat /\ (34 <= cap)%nat
  | K8100 => (3 <= len)%nat /\ (3 <= bl <= cap)%nat
  | K0100 => match v with
             | V2019 => (76 <= len)%nat /\ (76 <= bl <= cap)%nat
             | V2013 => if (37 <? bl)%nat then (37 <= len)%nat /\ (bl <= cap)%nat
                        else (25 <= len)%nat /\ (25 <= bl <= cap)%nat
             | V2011 => False
             end
  | K0102 => match v with
             | V2019 => (1 <= len)%nat /\ (36 + N.to_nat (nth 0 w 0%N) <= cap)%nat
             | V2013 => (bl <= cap)%nat
             | V2011 => True
             end
  | K8103 => (1 <= len)%nat /\ entries (N.to_nat (nth 0 w 0%N)) (skipn 1 w ++ sp) (len - 1) 0
  | K0104 => (3 <= len)%nat /\ entries (N.to_nat (nth 2 w 0%N)) (skipn 3 w ++ sp) (len - 3) 0
  | _ => True
  end.
