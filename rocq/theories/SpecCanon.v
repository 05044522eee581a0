(** Specification of the bodies that a decoded message is encoded to again (C129) *)
From Verif Require Import Base ParamsM HeaderM MsgM SpecCodec.
Local Open Scope N_scope.

(** no half byte is 15 *)
Definition no_F (w : bytes) : Prop := Forall (fun x => x / 16 <> 15 /\ x mod 16 <> 15) w.
(** six bytes that spell a time *)
Definition time_field (w : bytes) : Prop := exists t, civil_valid t /\ year_window t /\ w = BCD (time_digits t).
(** bytes of a text that survive being read (as the empty text when they are no GBK) and written *)
Definition gbk_again (o : oracle) (g : bytes) : Prop :=
  o_gbk_enc o (match o_gbk_dec o g with Some s => s | None => [] end) = Some g.
Definition field (i n : nat) (w : bytes) : bytes := firstn n (skipn i w).

(** the bodies of a message type, parameter lists excepted *)
Definition canonical (o : oracle) (k : mkind) (v : version) (w : bytes) : Prop :=
  match k with
  | K0001 | K8001 => length w = 5%nat
  | K0002 | K0003 | K0004 | K0800 | K0801 | K8104 | K8800 => w = []
  | K0200 => length w = 28%nat /\ no_F (field 22 6 w)
  | K8004 => time_field w
  | K9205 => length w = 24%nat /\ time_field (field 1 6 w) /\ time_field (field 7 6 w)
  | K1205 => length w = 34%nat /\ time_field (field 7 6 w) /\ time_field (field 13 6 w)
  | K8100 => True
  | K0102 => match v with
             | V2019 => length w = (36 + N.to_nat (nth 0 w 0%N))%nat
             | V2013 => True
             | V2011 => w = []
             end
  | K0100 => match v with
             | V2019 => gbk_again o (skipn 76 w)
             | V2013 => (37 < length w)%nat /\ gbk_again o (skipn 37 w)
             | V2011 => False
             end
  | K8103 | K0104 => False
  end.

(** the half bytes *)
Definition nibbles (w : bytes) : list N := flat_map (fun x => [x / 16; x mod 16]) w.
(** BCD of at least four bytes without a half byte of 15; four bytes may start with such *)
Definition bcd_again (w : bytes) : Prop :=
  (4 <= length w)%nat /\ (no_F w \/ length w = 4%nat /\ exists n ds, nibbles w = repeat 15 n ++ ds /\ ~ In 15 ds).
(** the bytes written for the text that is read from [g] *)
Definition written (o : oracle) (g : bytes) : bytes :=
  match o_gbk_enc o (match o_gbk_dec o g with Some s => s | None => [] end) with Some x => x | None => [] end.
(** the value of a parameter of that kind *)
Definition value_again (o : oracle) (k : pkind) (val : bytes) : Prop :=
  match k with
  | PByte => length val = 1%nat
  | PWord => length val = 2%nat
  | PDword => length val = 4%nat
  | PBytes => bcd_again val
  | PString => True
  | PGBK => written o val = val
  end.
(** one parameter: its id, the length of its value, the value *)
Definition entry_again (o : oracle) (v : bytes) : Prop :=
  exists id k val, v = U32 id ++ N.of_nat (length val) :: val /\ id < 4294967296 /\ (length val < 256)%nat
    /\ argKind id = Some k /\ value_again o k val.
Definition list_again (o : oracle) (w : bytes) : Prop :=
  exists es, w = N.of_nat (length es) :: concat es /\ (length es < 256)%nat /\ Forall (entry_again o) es.
(** GBK texts of parameters are not made longer than a parameter can be *)
Definition gbk_short (o : oracle) : Prop := forall g, (length g < 256)%nat -> (length (written o g) < 256)%nat.
