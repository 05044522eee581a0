(** Specification vocabulary for the lengths of frames and packets (C115, C116) *)
From Verif Require Import Base HexM HeaderM ParamsM MsgM SpecCodec.
Local Open Scope N_scope.

(** frame_handler.go:18 MaxFrameLen *)
Definition max_frame : nat := 2 + 21 + 1023 * 2 + 1 + 2.
(** the bytes that take two bytes in a frame *)
Definition doubled (v : N) : bool := (v =? 0x7e) || (v =? 0x7d).
Definition doubles (p : bytes) : nat := length (filter doubled p).
(** header, body and checksum as they are sent *)
Definition sent_packet (h : header) (w : bytes) : bytes :=
  let p := header_layout (with_len h (N.of_nat (length w))) ++ w in p ++ [xor_sum p].
