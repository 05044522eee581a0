(** The repository's own unit tests, run on the model: inputs and expected results as in the test files cited.
    They are tests of the model, not proofs of any property. *)
From Coq Require Import ZArith String Ascii NArith List.
From Flocq Require Import IEEE754.Bits.
From Verif Require Import Base HexM TimeM HashM HeaderM ParamsM GeoM MsgM PacketM FrameM FloatM ProgM RingM.
Import ListNotations.
Local Open Scope N_scope.

Definition txt (s : string) : str := map N_of_ascii (list_ascii_of_string s).
Definition hx (s : string) : bytes := Str2Byte (txt s).
Ltac ok_ := vm_compute; reflexivity.
Ltac conj_ := repeat match goal with |- _ /\ _ => split end.

(** internal/codec/hex/hex_test.go:10-177 *)
Example hex_Str2Byte : Str2Byte (txt "123456789012") = [0x12; 0x34; 0x56; 0x78; 0x90; 0x12]
  /\ Str2Byte (txt "000000000002080301CD779E0728C032003C0000008F230125145158")
     = [0x00; 0x00; 0x00; 0x00; 0x00; 0x02; 0x08; 0x03; 0x01; 0xCD; 0x77; 0x9E; 0x07; 0x28; 0xC0; 0x32; 0x00; 0x3C; 0x00; 0x00; 0x00; 0x8F;
        0x23; 0x01; 0x25; 0x14; 0x51; 0x58]
  /\ Str2Byte (txt "12345678901") = [0x12; 0x34; 0x56; 0x78; 0x90].
Proof. conj_; ok_. Qed.
Example hex_Byte2Str : Byte2Str [0x12; 0x34; 0x56; 0x78] = txt "12345678".
Proof. ok_. Qed.
Example hex_bcd2NumberStr : bcd2NumberStr [0x12; 0x34; 0x56; 0x78; 0x90; 0x12] = txt "123456789012" /\ bcd2NumberStr [0x12; 0x34] = txt "1234".
Proof. conj_; ok_. Qed.
Example hex_numberStr2BCD : numberStr2BCD (txt "123456789012") = [0x12; 0x34; 0x56; 0x78; 0x90; 0x12]
  /\ numberStr2BCD (txt "1234") = [0xff; 0xff; 0x12; 0x34].
Proof. conj_; ok_. Qed.
Example hex_ReadByte : ReadByte (mkSlice [0x9a] []) 0%nat = Ok (154, 1%nat) /\ WriteByte [] 154 = [0x9a].
Proof. conj_; ok_. Qed.
(** hex_test.go:349-404, with a GBK library that knows this one text (its UTF-8 bytes are E4 BA AC 41 31 32 33 34 35) *)
Definition jing : str := [0xE4; 0xBA; 0xAC] ++ txt "A12345".
Definition gbk1 : oracle :=
  mkOracle (fun b => if list_eq_dec N.eq_dec b (hx "BEA9413132333435") then Some jing else None)
           (fun s => if list_eq_dec N.eq_dec s jing then Some (hx "BEA9413132333435") else None)
           (fun _ => None) (fun n => n) (fun _ _ => 0).
Example hex_GBK : ReadGBK gbk1 8 (mkSlice (hx "BEA9413132333435") []) 0%nat = Ok (jing, 8%nat)
  /\ WriteGBK gbk1 [] jing = hx "BEA9413132333435".
Proof. conj_; ok_. Qed.
(** internal/codec/hash/hash_test.go:9-30 *)
Example hash_FNV32 : FNV32 (txt "abcDEF") = 1099054474.
Proof. ok_. Qed.

(** internal/protocol/frame_handler_test.go:13-149: each payload in one read and byte by byte, the frames
    until the first error *)
Definition stream_of (b : bytes) : stream := mkStream b [] ErrEOF.
Definition trickle (b : bytes) : stream := mkStream [] (map (fun x => [x]) b) ErrEOF.
Definition received (p : string) (want : list string) : Prop :=
  frames (stream_of (hx p)) = map hx want /\ frames (trickle (hx p)) = map hx want.
Example frame_recv :
  received "7e5622664455e2447e549955777e1122334455668899557e" ["7e5622664455e2447e"; "7e1122334455668899557e"]%string
  /\ received "7e5622664455e2447e549955777e112233445566889955" ["7e5622664455e2447e"]%string
  /\ received "55667e5622664455e2447e7e1122334455668899557e44" ["7e5622664455e2447e"; "7e1122334455668899557e"]%string
  /\ received "55667e5622664455e2447e7e1122334455668899557e" ["7e5622664455e2447e"; "7e1122334455668899557e"]%string
  /\ received "7e5622664455e2447e7e1122334455668899557e44" ["7e5622664455e2447e"; "7e1122334455668899557e"]%string
  /\ received "7e5622664455e2447e7e1122334455668899557e" ["7e5622664455e2447e"; "7e1122334455668899557e"]%string
  /\ received "557e1122334455668899557e44" ["7e1122334455668899557e"]%string
  /\ received "55447e1122334455668899557e" ["7e1122334455668899557e"]%string
  /\ received "7e1122334455668899557e44" ["7e1122334455668899557e"]%string
  /\ received "7e1122334455668899557e" ["7e1122334455668899557e"]%string
  /\ fst (recv (stream_of (hx "1122334455668899557e"))) = Err ErrEOF.
Proof. unfold received. conj_; ok_. Qed.

(** internal/protocol/packet_codec_test.go:13-73 (a wrong checksum; VerifyCode is 126 there, too), 75-100 *)
Example packet_Decode :
  (exists e, decodePacket gbk1 (hx "7E0200001c2234567890150000000000000002080301cd48b50728d22b003902bc008f2301251438137d027E") = Err e)
  /\ exists p, decodePacket gbk1 (hx "7E0200001C2234567890150000000000000002080301CD779E0728C032003C0000008F230125145158FB7E") = Ok p
     /\ pk_hdr p = mkHeader 0x0200 (mkAttr 28 0 0 0 0 EncNone false V2013) 0 (txt "223456789015") 0 None
     /\ sl_data (pk_body p) = hx "000000000002080301CD779E0728C032003C0000008F230125145158" /\ pk_code p = 126 /\ pk_segdone p = false.
Proof. split; [eexists; ok_|]. eexists. conj_; ok_. Qed.
Example packet_genVerifier : genVerifier (hx "000140050100000000017299841738ffff007b01c803") = hx "000140050100000000017299841738ffff007b01c803" ++ [0xb5].
Proof. ok_. Qed.

(** internal/protocol/model/msg_test.go:3-20 *)
Definition test_hdr (id : N) : header := mkHeader id (mkAttr 0 0 0 1 0 EncNone false V2019) 1 (txt "12345678901234567890") 1 None.
(** m.Encode() *)
Definition encoded (h : header) (b : body) : option bytes := match encBody gbk1 h b with Ok w => Some (writeHeader h w) | _ => None end.
(** header_test.go:12-41, 43-63 *)
Example header_Decode : decodeHeader (mkSlice (hx "0100400001123456789012345678900001") []) 0%nat = Ok (test_hdr 0x0100, 17%nat).
Proof. ok_. Qed.
Example header_Encode : encodeHeader (test_hdr 0x0100) = hx "0100400001123456789012345678900001".
Proof. ok_. Qed.
(** msg_0100_test.go:11-63 *)
Example msg0100_Encode :
  encoded (test_hdr 0x0100) (B0100 (mkReg 31 115 (txt "fakeyanss") (txt "fakeyanss.github.io") (txt "1234ABCD") 1 jing []))
  = Some (hx ("0100405401123456789012345678900001001f007366616b6579616e7373000066616b6579616e73732e6769746875622e696f0000000000000000000000313233"
              ++ "34414243440000000000000000000000000000000000000000000001bea9413132333435")).
Proof. ok_. Qed.
(** msg_8004_test.go:12-45 *)
Example msg8004_Encode : encoded (test_hdr 0x8004) (B8004 (timeParse (txt "230301123456"))) = Some (hx "8004400601123456789012345678900001230301123456").
Proof. ok_. Qed.
(** msg_8100_test.go:11-49 *)
Example msg8100_Encode : encoded (test_hdr 0x8100) (B8100 0 0 (txt "test")) = Some (hx "810040070112345678901234567890000100000074657374").
Proof. ok_. Qed.
(** device_params_test.go:9-40: an empty list *)
Example params_Decode : paramsDecode gbk1 [] 0 (mkSlice [] []) = Ok (mkParams [] 0 []).
Proof. ok_. Qed.
(** device_test.go:9-41: the numbers are the doubles next to 116.307629 and 40.058359 *)
Example location_Decode : bits_of_b64 (locDegree 116307629) = 4637884838727881543%Z /\ bits_of_b64 (locDegree 40058359) = 4630834530142795441%Z.
Proof. conj_; ok_. Qed.

(** pkg/container/ring_buffer_test.go:16-44, 46-71, 73-99, 218-230 *)
Example ring_New : newRing 5 = (mkRing 5 [None; None; None; None; None] 0 0 : ring N).
Proof. ok_. Qed.
Example ring_Write : run (ringWrite 0 (Some 1) ;;; ringWrite 0 (Some 2))%prog (newRing 10)
  = (Ok tt, mkRing 10 (Some 1 :: Some 2 :: repeat None 8) 0 2).
Proof. ok_. Qed.
Example ring_seekReader : rg_reader (snd (run (seekReader 0 1) (newRing 5 : ring N))) = 1%Z
  /\ rg_reader (snd (run (seekReader 0 1 ;;; seekReader 0 2)%prog (newRing 5 : ring N))) = 3%Z.
Proof. conj_; ok_. Qed.
Example ring_values : fst (run (ringWrite 0 (Some 2) ;;; ringWrite 0 (Some 3) ;;; ringWrite 0 (Some 4) ;;;
    a <- ringRead 0 ;; b <- ringRead 0 ;; ret (a, b))%prog (newRing 2)) = Ok (Some 4, Some 3).
Proof. ok_. Qed.
