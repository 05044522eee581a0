(** C14, C20: what a version 2019 device reads of a message of the platform; the number a phone field spells *)
From Verif Require Import Base HexM TimeM HeaderM ParamsM GeoM MsgM PacketM FrameM SpecCodec SpecGen CodecP CodecP3 GenP ExampleData.
Local Open Scope N_scope.

(** C14: of every message with a body that the platform sends a version 2019 device: the first two digits of the phone are the protocol
    version, the high byte of the serial number ends the phone, the first byte of the body ends the serial number *)
Theorem C14_refuted_exact : forall o proto c1 c2 rest id sn b w0 w, digits (c1 :: c2 :: rest) = true -> length rest = 18%nat -> id < 65536 -> sn < 65536 ->
  encBody o (genMsgHeader V2019 proto (c1 :: c2 :: rest) id sn) b = Ok (w0 :: w) -> w0 < 256 -> (length (w0 :: w) < 1024)%nat ->
  exists frm p, encodePacket o (mkMsg (genMsgHeader V2019 proto (c1 :: c2 :: rest) id sn) b) = Ok frm /\ decodePacket o frm = Ok p
    /\ pk_hdr p = mkHeader id (mkAttr (N.of_nat (length (w0 :: w))) 0 0 1 0 EncNone false V2019) ((c1 - 48) * 16 + (c2 - 48))
                           (shifted (c1 :: c2 :: rest) (sn / 256)) (sn mod 256 * 256 + w0) None
    /\ sl_data (pk_body p) = w.
Proof. exact gen2019_read. Qed.
Print Assumptions C14_refuted_exact.
Example C14_exact_ex : encBody o0 (genMsgHeader V2019 1 phone20 0x8001 0x1203) (B8001 3 0x0200 0) = Ok [0; 3; 2; 0; 0]
  /\ digits phone20 = true /\ shifted phone20 (0x1203 / 256) = skipn 2 phone20 ++ [49; 50] /\ shifted phone20 0xF3 = [51] /\ shifted phone20 0x3F = [].
Proof. repeat split; reflexivity. Qed.

(** C20: the phone of every packet that is accepted is exactly the number its field spells *)
Theorem C20_number_partial : forall o c p b s, bytes_ok c = true -> decodePacket o (framed c) = Ok p -> unescape (framed c) = b ++ [xor_sum b] ->
  (h_phone (pk_hdr p) = s <-> number_of (phone_field b) s).
Proof. exact phone_number. Qed.
Print Assumptions C20_number_partial.
Example C20_number_ex : number_of [0x01; 0xF3; 0x12; 0x34; 0x56; 0x7A] [51; 49; 50; 51; 52; 53; 54; 55; 65] /\ number_of [0x01; 0x03; 0x12; 0x34; 0xF6; 0x7A] [48]
  /\ (let b := [0; 2; 0; 0; 0x01; 0xF3; 0x12; 0x34; 0x56; 0x7A] ++ U16 7 in
      exists p c, decodePacket o0 (framed c) = Ok p /\ unescape (framed c) = b ++ [xor_sum b] /\ bytes_ok c = true).
Proof.
  split; [|split].
  - exists [0; 1; 15], [3; 1; 2; 3; 4; 5; 6; 7; 10]. split; [reflexivity|]. split; [cbn; intuition discriminate|]. split; [right; exists [0; 1]; reflexivity|reflexivity].
  - exists [0; 1; 0; 3; 1; 2; 3; 4; 15], [6; 7; 10]. split; [reflexivity|]. split; [cbn; intuition discriminate|].
    split; [right; exists [0; 1; 0; 3; 1; 2; 3; 4]; reflexivity|reflexivity].
  - cbv zeta. eexists. exists (removelast (skipn 1 (escape (genVerifier ([0; 2; 0; 0; 0x01; 0xF3; 0x12; 0x34; 0x56; 0x7A] ++ U16 7))))).
    split; [vm_compute; reflexivity|]. split; vm_compute; reflexivity.
Qed.
