(** Model of internal/codec/hex/hex.go (except time, see TimeM.v) *)
From Verif Require Import Base.
Local Open Scope N_scope.

(** strconv-style digits used by fmt "%02X" *)
Definition hexU (d : N) : N := if d <? 10 then 48 + d else 55 + d.
(** digits used by encoding/hex.EncodeToString *)
Definition hexL (d : N) : N := if d <? 10 then 48 + d else 87 + d.

(** encoding/hex.fromHexChar *)
Definition fromHex (c : N) : option N :=
  if (48 <=? c) && (c <=? 57) then Some (c - 48)
  else if (97 <=? c) && (c <=? 102) then Some (c - 87)
  else if (65 <=? c) && (c <=? 70) then Some (c - 55)
  else None.

(** hex.go:23-33 Str2Byte.  encoding/hex.DecodeString returns the bytes decoded
    before the first invalid character; an odd trailing digit is dropped; the
    errors are only logged. *)
Fixpoint Str2Byte (s : str) : bytes :=
  match s with
  | a :: b :: t =>
      match fromHex a, fromHex b with
      | Some x, Some y => (x * 16 + y) :: Str2Byte t
      | _, _ => []
      end
  | _ => []
  end.

(** encoding/hex.DecodeString decodes in place, [src := []byte(s)] returning
    [src[:n]], so the spare capacity of the result holds the not yet overwritten
    characters of the string (and whatever size-class rounding adds, taken as
    absent here).  Used for msg_processor.go:478. *)
Definition Str2Byte_slice (s : str) : slice :=
  let d := Str2Byte s in mkSlice d (skipn (length d) s).

(** hex.go:35-37 *)
Definition Byte2Str (b : bytes) : str :=
  flat_map (fun x => [hexL (x / 16); hexL (x mod 16)]) b.

(** hex.go:53-55: the "%02X" loop of bcd2NumberStr *)
Definition bcdHex (b : bytes) : str :=
  flat_map (fun x => [hexU (x / 16); hexU (x mod 16)]) b.

(** strings.LastIndex(s, "F"), with -1 shifted to 0: the number of characters up to
    and including the last 'F' (so number[pos+1:] is [skipn]). *)
Fixpoint afterLastF (s : str) : nat :=
  match s with
  | [] => 0
  | c :: t =>
      match afterLastF t with
      | O => if c =? 70 then 1%nat else 0%nat
      | S k => S (S k)
      end
  end.

(** hex.go:51-61 bcd2NumberStr; [pos == 8] is [afterLastF = 9]. *)
Definition bcd2NumberStr (b : bytes) : str :=
  let number := bcdHex b in
  let p := afterLastF number in
  if Nat.eqb p 9 then [48] else skipn p number.

(** hex.go:75-82 numberStr2BCD: left-pad with 'f' up to 8 characters *)
Definition numberStr2BCD (number : str) : bytes :=
  Str2Byte (repeat 102 (8 - length number) ++ number).

(** hex.go:85-89 *)
Definition ReadByte : rd N := fun s i =>
  match sl_at s i with Ok b => Ok (b, S i) | Err e => Err e | Panic => Panic end.

(** hex.go:92-94 *)
Definition WriteByte (pkt : bytes) (n : N) : bytes := pkt ++ [n].

(** encoding/binary BigEndian *)
Definition be16 (b : bytes) : N :=
  match b with [a; c] => a * 256 + c | _ => 0 end.
Definition be32 (b : bytes) : N :=
  match b with [a; c; d; e] => ((a * 256 + c) * 256 + d) * 256 + e | _ => 0 end.
Definition put16 (n : N) : bytes := [(n / 256) mod 256; n mod 256].
Definition put32 (n : N) : bytes :=
  [(n / 16777216) mod 256; (n / 65536) mod 256; (n / 256) mod 256; n mod 256].

(** pkt[*idx : *idx+n]; *idx += n *)
Definition readSub (n : Z) : rd bytes := fun s i =>
  match sl_sub s i (Z.of_nat i + n) with
  | Ok b => Ok (b, Z.to_nat (Z.of_nat i + n))
  | Err e => Err e
  | Panic => Panic
  end.

(** hex.go:97-101 *)
Definition ReadWord : rd N := (b <- readSub 2 ;; rd_ret (be16 b))%rd.
(** hex.go:104-108 *)
Definition WriteWord (pkt : bytes) (n : N) : bytes := pkt ++ put16 n.
(** hex.go:111-115 *)
Definition ReadDoubleWord : rd N := (b <- readSub 4 ;; rd_ret (be32 b))%rd.
(** hex.go:118-122 *)
Definition WriteDoubleWord (pkt : bytes) (n : N) : bytes := pkt ++ put32 n.
(** hex.go:125-129 *)
Definition ReadBytes (n : Z) : rd bytes := readSub n.
(** hex.go:132-134 *)
Definition WriteBytes (pkt arr : bytes) : bytes := pkt ++ arr.
(** hex.go:137-139 *)
Definition ReadString (n : Z) : rd str := readSub n.
(** hex.go:142-145 *)
Definition WriteString (pkt : bytes) (s : str) : bytes := pkt ++ s.
(** hex.go:148-152 *)
Definition ReadBCD (n : Z) : rd str := (b <- readSub n ;; rd_ret (bcd2NumberStr b))%rd.
(** hex.go:155-157 *)
Definition WriteBCD (pkt : bytes) (s : str) : bytes := pkt ++ numberStr2BCD s.
(** hex.go:160-167: a decoding error yields the empty string *)
Definition ReadGBK (o : oracle) (n : Z) : rd str :=
  (b <- readSub n ;;
   rd_ret (match o_gbk_dec o b with Some s => s | None => [] end))%rd.
(** hex.go:170-176: an encoding error discards everything written so far *)
Definition WriteGBK (o : oracle) (pkt : bytes) (s : str) : bytes :=
  match o_gbk_enc o s with Some g => pkt ++ g | None => [] end.
