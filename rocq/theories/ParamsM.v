(** Model of internal/protocol/model/device_params.go *)
From Verif Require Import Base HexM.
Local Open Scope N_scope.

(** device_params.go:155-168: the six decode/encode pairs *)
Inductive pkind : Type := PByte | PWord | PDword | PBytes | PString | PGBK.

(** device_params.go:170-396 argTable (transcribed by script; the encoder of every
    entry is the partner of its decoder) *)
Definition argTable : list (N * pkind) :=
  [(0x0001, PDword); (0x0002, PDword); (0x0003, PDword); (0x0004, PDword); (0x0005, PDword) ;
   (0x0006, PDword); (0x0007, PDword); (0x0010, PGBK); (0x0011, PGBK); (0x0012, PGBK) ;
   (0x0013, PGBK); (0x0014, PGBK); (0x0015, PGBK); (0x0016, PGBK); (0x0017, PGBK) ;
   (0x0018, PDword); (0x0019, PDword); (0x001A, PGBK); (0x001B, PDword); (0x001C, PDword) ;
   (0x001D, PGBK); (0x0020, PDword); (0x0021, PDword); (0x0022, PDword); (0x0023, PGBK) ;
   (0x0024, PGBK); (0x0025, PGBK); (0x0026, PGBK); (0x0027, PDword); (0x0028, PDword) ;
   (0x0029, PDword); (0x002C, PDword); (0x002D, PDword); (0x002E, PDword); (0x002F, PDword) ;
   (0x0030, PDword); (0x0031, PWord); (0x0032, PBytes); (0x0040, PGBK); (0x0041, PGBK) ;
   (0x0042, PGBK); (0x0043, PGBK); (0x0044, PGBK); (0x0045, PDword); (0x0046, PDword) ;
   (0x0047, PDword); (0x0048, PGBK); (0x0049, PGBK); (0x0050, PDword); (0x0051, PDword) ;
   (0x0052, PDword); (0x0053, PDword); (0x0054, PDword); (0x0055, PDword); (0x0056, PDword) ;
   (0x0057, PDword); (0x0058, PDword); (0x0059, PDword); (0x005A, PDword); (0x005B, PWord) ;
   (0x005C, PWord); (0x005D, PWord); (0x005E, PWord); (0x0064, PDword); (0x0065, PDword) ;
   (0x0070, PDword); (0x0071, PDword); (0x0072, PDword); (0x0073, PDword); (0x0074, PDword) ;
   (0x0080, PDword); (0x0081, PWord); (0x0082, PWord); (0x0083, PGBK); (0x0084, PByte) ;
   (0x0090, PByte); (0x0091, PByte); (0x0092, PByte); (0x0093, PDword); (0x0094, PByte) ;
   (0x0095, PDword); (0x0100, PDword); (0x0101, PWord); (0x0102, PDword); (0x0103, PWord) ;
   (0x0110, PString); (0x0075, PBytes); (0x0076, PBytes); (0x0077, PBytes); (0x0079, PBytes) ;
   (0x007A, PBytes); (0x007B, PBytes); (0x007C, PBytes)].

Fixpoint lookupN {A} (l : list (N * A)) (k : N) : option A :=
  match l with
  | [] => None
  | (i, a) :: t => if i =? k then Some a else lookupN t k
  end.
Definition argKind (id : N) : option pkind := lookupN argTable id.

(** Dynamic types that ParamValue (any) can hold.  Values decoded from the wire are
    uint8, uint16, uint32 or string.  Values decoded from JSON are float64 (kept here
    as the integer part, which is all that uintN(f) uses), string, or something else
    (bool, nil, array, object). *)
Inductive pval : Type :=
| VU8 (n : N) | VU16 (n : N) | VU32 (n : N) | VStr (s : str) | VF64 (z : Z) | VOther.

(** device_params.go:77-81 ParamData *)
Record param : Type := mkParam { p_id : N; p_len : N; p_val : pval }.
(** device_params.go:19-23 DeviceParams *)
Record devparams : Type := mkParams { dp_phone : str; dp_cnt : N; dp_list : list param }.

(** Go's conversion float64 -> uintN: the integer part when representable,
    implementation-defined otherwise *)
Definition f2u (o : oracle) (bits : N) (z : Z) : N :=
  if ((0 <=? z) && (z <? 2 ^ Z.of_N bits))%Z%bool then Z.to_N z
  else o_fconv o bits z mod 2 ^ bits.

(** device_params.go:122-127, 133-138, 144-149 *)
Definition any2uint8 (o : oracle) (a : pval) : res N :=
  match a with VF64 z => Ok (f2u o 8 z) | VU8 n => Ok n | _ => Panic end.
Definition any2uint16 (o : oracle) (a : pval) : res N :=
  match a with VF64 z => Ok (f2u o 16 z) | VU16 n => Ok n | _ => Panic end.
Definition any2uint32 (o : oracle) (a : pval) : res N :=
  match a with VF64 z => Ok (f2u o 32 z) | VU32 n => Ok n | _ => Panic end.
(** a.(string) *)
Definition any2string (a : pval) : res str :=
  match a with VStr s => Ok s | _ => Panic end.

(** device_params.go:156,158,160,162,164,166: the decoders; the fixed-size ones
    ignore the length octet *)
Definition pdecode (o : oracle) (k : pkind) (plen : N) : rd pval :=
  (match k with
   | PByte => n <- ReadByte ;; rd_ret (VU8 n)
   | PWord => n <- ReadWord ;; rd_ret (VU16 n)
   | PDword => n <- ReadDoubleWord ;; rd_ret (VU32 n)
   | PBytes => s <- ReadBCD (Z.of_N plen) ;; rd_ret (VStr s)
   | PString => s <- ReadString (Z.of_N plen) ;; rd_ret (VStr s)
   | PGBK => s <- ReadGBK o (Z.of_N plen) ;; rd_ret (VStr s)
   end)%rd.

(** device_params.go:157,159,161,163,165,167: the encoders *)
Definition pencode (o : oracle) (k : pkind) (v : pval) : res bytes :=
  match k with
  | PByte => rmap (WriteByte []) (any2uint8 o v)
  | PWord => rmap (WriteWord []) (any2uint16 o v)
  | PDword => rmap (WriteDoubleWord []) (any2uint32 o v)
  | PBytes => rmap (WriteBCD []) (any2string v)
  | PString => rmap (WriteString []) (any2string v)
  | PGBK => rmap (WriteGBK o []) (any2string v)
  end.

(** device_params.go:83-92 ParamData.Decode: an unknown id leaves fn nil and the
    call fn.decode dereferences it *)
Definition paramDecode (o : oracle) : rd param :=
  (id <- ReadDoubleWord ;;
   ln <- ReadByte ;;
   match argKind id with
   | Some k => v <- pdecode o k ln ;; rd_ret (mkParam id ln v)
   | None => fun _ _ => Panic
   end)%rd.

(** device_params.go:94-104 ParamData.Encode *)
Definition paramEncode (o : oracle) (p : param) : res bytes :=
  match argKind (p_id p) with
  | Some k =>
      rbind (pencode o k (p_val p)) (fun value =>
      Ok (WriteBytes (WriteByte (WriteDoubleWord [] (p_id p))
                                (N.of_nat (length value) mod 256)) value))
  | None => Err ErrParamIDNotSupportted
  end.

Fixpoint paramsDecodeLoop (o : oracle) (n : nat) : rd (list param) :=
  match n with
  | O => rd_ret []
  | S n' => (p <- paramDecode o ;; ps <- paramsDecodeLoop o n' ;; rd_ret (p :: ps))%rd
  end.

(** device_params.go:25-39 DeviceParams.Decode on the slice pkt (from index 0) *)
Definition paramsDecode (o : oracle) (phone : str) (cnt : N) (pkt : slice) : res devparams :=
  rmap (fun r => mkParams phone cnt (fst r)) (paramsDecodeLoop o (N.to_nat cnt) pkt O).

(** the loop of device_params.go:43-51: entries whose Encode fails are skipped *)
Fixpoint paramsEncodeLoop (o : oracle) (ps : list param) (pkt : bytes) : res bytes :=
  match ps with
  | [] => Ok pkt
  | p :: t =>
      match paramEncode o p with
      | Ok b => paramsEncodeLoop o t (WriteBytes pkt b)
      | Err _ => paramsEncodeLoop o t pkt
      | Panic => Panic
      end
  end.

(** device_params.go:41-53 DeviceParams.Encode *)
Definition paramsEncode (o : oracle) (d : devparams) : res bytes :=
  paramsEncodeLoop o (dp_list d) (WriteByte [] (dp_cnt d)).

(** A map[uint32]*ParamData listed in increasing key order *)
Fixpoint pmap_set (m : list (N * param)) (k : N) (p : param) : list (N * param) :=
  match m with
  | [] => [(k, p)]
  | (i, q) :: t => if i =? k then (k, p) :: t
                   else if k <? i then (k, p) :: (i, q) :: t
                   else (i, q) :: pmap_set t k p
  end.

(** device_params.go:55-75 Update: the map is built from p.Params, ids already
    present are overwritten from newParams, and the values are sorted by id
    ([pmap_set] keeps the listing sorted; keys are unique so sort.Slice has one
    result). *)
Definition paramsUpdate (p newp : devparams) : devparams :=
  let m := fold_left (fun m q => pmap_set m (p_id q) q) (dp_list p) [] in
  let m := fold_left (fun m q => match lookupN m (p_id q) with
                                 | Some _ => pmap_set m (p_id q) q
                                 | None => m
                                 end) (dp_list newp) m in
  mkParams (dp_phone p) (N.of_nat (length m) mod 256) (map snd m).
