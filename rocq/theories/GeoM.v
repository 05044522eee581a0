(** Model of the status word of location reports, internal/protocol/model/device.go:119-218 *)
From Verif Require Import Base.
Local Open Scope N_scope.

(** device.go:143-169 GeoMeta *)
Record geometa : Type := mkGeo {
  g_acc : N; g_loc : N; g_latt : N; g_lont : N; g_oper : N; g_crypt : N;
  g_load : N; g_fuel : N; g_alt : N; g_lock : N;
  g_front : N; g_mid : N; g_back : N; g_driver : N; g_custom : N;
  g_gps : N; g_beidou : N; g_glonass : N; g_galileo : N; g_driving : N
}.

(** device.go:172-193 GeoMeta.Decode *)
Definition geoDecode (status : N) : geometa :=
  let fld mask sh := N.shiftr (N.land status mask) sh mod 256 in
  mkGeo (fld 0x1 0) (fld 0x2 1) (fld 0x4 2) (fld 0x8 3) (fld 0x10 4) (fld 0x20 5)
        (fld 0x300 8) (fld 0x400 10) (fld 0x800 11) (fld 0x1000 12)
        (fld 0x2000 13) (fld 0x4000 14) (fld 0x8000 15) (fld 0x10000 16) (fld 0x20000 17)
        (fld 0x40000 18) (fld 0x80000 19) (fld 0x100000 20) (fld 0x200000 21)
        (fld 0x400000 22).

(** device.go:195-218 GeoMeta.Encode: uint32 additions; bits 2 and 3 are exchanged
    with respect to Decode (lines 199-200). *)
Definition geoEncode (g : geometa) : N :=
  (g_acc g + N.shiftl (g_loc g) 1 + N.shiftl (g_lont g) 2 + N.shiftl (g_latt g) 3
   + N.shiftl (g_oper g) 4 + N.shiftl (g_crypt g) 5 + N.shiftl (g_load g) 8
   + N.shiftl (g_fuel g) 10 + N.shiftl (g_alt g) 11 + N.shiftl (g_lock g) 12
   + N.shiftl (g_front g) 13 + N.shiftl (g_mid g) 14 + N.shiftl (g_back g) 15
   + N.shiftl (g_driver g) 16 + N.shiftl (g_custom g) 17 + N.shiftl (g_gps g) 18
   + N.shiftl (g_beidou g) 19 + N.shiftl (g_glonass g) 20 + N.shiftl (g_galileo g) 21
   + N.shiftl (g_driving g) 22) mod 4294967296.
