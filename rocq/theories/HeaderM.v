(** Model of internal/protocol/model/header.go and of writeHeader (model/msg.go) *)
From Verif Require Import Base HexM.
Local Open Scope N_scope.

(** header.go:119-125 VersionType *)
Inductive version : Type := V2011 | V2013 | V2019.
Definition version_eqb (a b : version) : bool :=
  match a, b with V2011, V2011 | V2013, V2013 | V2019, V2019 => true | _, _ => false end.

(** header.go:104-110 EncryptionType *)
Inductive encryption : Type := EncUnknown | EncNone | EncRSA.

(** header.go:128-138 MsgBodyAttr *)
Record attr : Type := mkAttr {
  a_len : N;          (* BodyLength uint16 *)
  a_enc : N;          (* Encryption uint8 *)
  a_frag : N;         (* PacketFragmented uint8 *)
  a_sign : N;         (* VersionSign uint8 *)
  a_extra : N;        (* Extra uint8 *)
  a_encd : encryption;
  a_fragd : bool;
  a_ver : version
}.

(** header.go:183-186 MsgFragmentation *)
Record frag : Type := mkFrag { f_total : N; f_index : N }.

(** header.go:15-24 MsgHeader; the read position Idx is returned by
    [decodeHeader] next to the header.  Attr is never nil in the code. *)
Record header : Type := mkHeader {
  h_id : N;
  h_attr : attr;
  h_proto : N;        (* ProtocolVersion uint8 *)
  h_phone : str;
  h_sn : N;           (* SerialNumber uint16 *)
  h_frag : option frag
}.

Definition hdr_set_id (h : header) (i : N) : header :=
  mkHeader i (h_attr h) (h_proto h) (h_phone h) (h_sn h) (h_frag h).
Definition attr_set_len (a : attr) (n : N) : attr :=
  mkAttr n (a_enc a) (a_frag a) (a_sign a) (a_extra a) (a_encd a) (a_fragd a) (a_ver a).
Definition hdr_set_len (h : header) (n : N) : header :=
  mkHeader (h_id h) (attr_set_len (h_attr h) n) (h_proto h) (h_phone h) (h_sn h) (h_frag h).

(** header.go:140-170 MsgBodyAttr.Decode ([&] and [>>] have the same precedence in
    Go and associate to the left); it never returns an error. *)
Definition attrDecode (bitNum : N) : attr :=
  let enc := N.shiftr (N.land bitNum 0x1c00) 10 mod 256 in
  let fr := N.shiftr (N.land bitNum 0x2000) 13 mod 256 in
  let sg := N.shiftr (N.land bitNum 0x4000) 14 mod 256 in
  mkAttr (N.land bitNum 0x3ff) enc fr sg
         (N.shiftr (N.land bitNum 0x8000) 15 mod 256)
         (if enc =? 0 then EncNone else if enc =? 1 then EncRSA else EncUnknown)
         (fr =? 1)
         (if sg =? 1 then V2019 else V2013).

(** header.go:172-180 MsgBodyAttr.Encode: uint16 additions *)
Definition attrEncode (a : attr) : N :=
  (a_len a + a_enc a * 1024 + a_frag a * 8192 + a_sign a * 16384 + a_extra a * 32768)
  mod 65536.

(** header.go:188-192 *)
Definition fragDecode : rd frag :=
  (t <- ReadWord ;; i <- ReadWord ;; rd_ret (mkFrag t i))%rd.
(** header.go:194-199 *)
Definition fragEncode (f : frag) : bytes := WriteWord (WriteWord [] (f_total f)) (f_index f).

(** header.go:27-64 MsgHeader.Decode; the final index is h.Idx *)
Definition decodeHeader : rd header :=
  (id <- ReadWord ;;
   w <- ReadWord ;;
   let a := attrDecode w in
   pv <- (if version_eqb (a_ver a) V2019 then ReadByte else rd_ret 0) ;;
   phone <- (if version_eqb (a_ver a) V2019 then ReadBCD 10
             else if version_eqb (a_ver a) V2013 then ReadBCD 6
             else rd_fail ErrDecodeHeader) ;;
   sn <- ReadWord ;;
   fr <- (if a_fragd a then rd_bind fragDecode (fun f => rd_ret (Some f))
          else rd_ret None) ;;
   rd_ret (mkHeader id a pv phone sn fr))%rd.

(** header.go:67-80 MsgHeader.Encode; never fails *)
Definition encodeHeader (h : header) : bytes :=
  let p := WriteWord [] (h_id h) in
  let p := WriteWord p (attrEncode (h_attr h)) in
  let p := if version_eqb (a_ver (h_attr h)) V2019 then WriteByte p (h_proto h) else p in
  let p := WriteBCD p (h_phone h) in
  let p := WriteWord p (h_sn h) in
  match h_frag h with Some f => p ++ fragEncode f | None => p end.

(** header.go:90-92 IsFragmented *)
Definition isFragmented (h : header) : bool := a_frag (h_attr h) =? 1.

(** header.go:201-206 versionDecode *)
Definition versionDecode (v : version) : N := if version_eqb v V2019 then 1 else 0.

(** header.go:208-221 GenMsgHeader.  The literal leaves BodyLength and the three
    Desc fields at their zero values; zero is EncryptionNone, false and
    Version2011. *)
Definition genMsgHeader (ver : version) (proto : N) (phone : str) (msgID sn : N) : header :=
  mkHeader msgID (mkAttr 0 0 0 (versionDecode ver) 0 EncNone false V2011)
           proto phone sn None.

(** msg.go:27-34 writeHeader: the body length is stored modulo 2^16 *)
Definition writeHeader (h : header) (body : bytes) : bytes :=
  encodeHeader (hdr_set_len h (N.of_nat (length body) mod 65536)) ++ body.
