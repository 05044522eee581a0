(** Specification of the header a version 2019 device reads in a message of the platform (C14) *)
From Verif Require Import Base.
Local Open Scope N_scope.

(** a hexadecimal digit *)
Definition hex_digit (d : N) : N := if d <? 10 then 48 + d else 55 + d.
(** the phone number without its first two digits, then the high byte [y] of the serial number; nothing in front of
    a half byte of 15 is left, nor is that *)
Definition shifted (phone : str) (y : N) : str :=
  if y mod 16 =? 15 then []
  else if y / 16 =? 15 then [hex_digit (y mod 16)]
  else skipn 2 phone ++ [hex_digit (y / 16); hex_digit (y mod 16)].

(** The number a phone field spells: its half bytes as hexadecimal digits, from behind the last 15 on; when that is the
    ninth half byte, the number is 0. *)
Definition number_of (f : bytes) (s : str) : Prop :=
  exists pre t, flat_map (fun x => [x / 16; x mod 16]) f = pre ++ t /\ ~ In 15 t /\ (pre = [] \/ exists q, pre = q ++ [15])
    /\ s = if Nat.eqb (length pre) 9 then [48] else map hex_digit t.
