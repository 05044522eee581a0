(** What the properties of the simulated terminal say *)
From Coq Require Import ZArith Reals.
From stdpp Require Import gmap.
From Flocq Require Import Core IEEE754.BinarySingleNaN IEEE754.Binary IEEE754.Bits.
From Verif Require Import Base HexM TimeM HeaderM ParamsM GeoM MsgM PacketM FrameM FloatM ProgM RingM StateM ProcM ServerM ClientM DatagenM
  SpecCodec SpecState.
Local Open Scope N_scope.

(** the number of digits a phone has in the configured protocol version *)
Definition width (v : str) : option nat :=
  if bool_decide (v = [50; 48; 49; 57]) then Some 20%nat
  else if bool_decide (v = [50; 48; 49; 51] \/ v = [50; 48; 49; 49]) then Some 12%nat else None.
(** the header of a message [id] of the terminal with this phone: version 2019 (protocol
    version 1) for 20 digits, 2013 otherwise *)
Definition terminal_header (n : nat) (phone : str) (id sn : N) : header :=
  if (n =? 20)%nat then mkHeader id (mkAttr 0 0 0 1 0 EncNone false V2019) 1 phone sn None
  else mkHeader id (mkAttr 0 0 0 0 0 EncNone false V2013) 0 phone sn None.
Definition zeros_before (n : nat) (phone : str) : str := repeat 48 (n - length phone) ++ phone.

(** a random number between -w and w *)
Definition offset_in (w : Z) (x : binary64) : Prop := is_finite 53 1024 x = true /\ (- IZR w <= B2R 53 1024 x <= IZR w)%R.
(** negative numbers wrap around when converted to an unsigned type, as on amd64 *)
Definition wraps (other : binary64 -> N) : Prop := forall x z, f64_trunc x = Some z -> other x = Z.to_N (z mod 2 ^ 64).

(** what both sides do from the dialled connection on; [v], [imei], [sw] as the version carries them *)
Definition comes_online (e ec : env) (sl slc : nat) (s sc : st) (x xc : session) (k kc : conn) (t : Z) (c : simconf)
    (v : version) (proto : N) (imei sw : str) : Prop :=
  let ph := d_phone (genDevice c (ss_id xc) (ss_conn xc)) in
  exists l sc1 sc2 sc3 sc4 s1 s2 f1 f2 f3 f4 code,
  run (buildDevice c slc) sc = (Ok l, sc1)
  /\ run (statusCheck ph) sc1 = (Ok false, sc1)
  /\ run (register ec c ph slc None) sc1 = (Ok tt, sc2)
  /\ st_conns sc2 !! ss_conn xc = Some (mkConn true (cn_out kc ++ [f1]))
  /\ run (serveOne e sl (Ok f1) None) s = (Ok true, s1)
  /\ st_conns s1 !! ss_conn x = Some (mkConn true (cn_out k ++ [f2]))
  /\ run (clientLoop ec slc [(Ok f2, None)]) sc2 = (Ok false, sc3)
  /\ st_conns sc3 !! ss_conn xc = Some (mkConn true (cn_out kc ++ [f1; f3]))
  /\ run (serveOne e sl (Ok f3) None) (set_clock t s1) = (Ok true, s2)
  /\ st_conns s2 !! ss_conn x = Some (mkConn true (cn_out k ++ [f2; f4]))
  /\ run (clientLoop ec slc [(Ok f4, None)]) sc3 = (Ok false, sc4)
  /\ run (statusCheck ph) sc4 = (Ok true, sc4)
  /\ is_code (sm_id c) (sm_plate c) ph code
  /\ consistent s2
  /\ devAt s2 ph = Some (mkDevice (sm_id c) (sm_plate c) ph (ss_id x) (ss_conn x) 60000 t Online v proto code imei sw).


(** "AuthCode" *)
Definition authCode : str := [65; 117; 116; 104; 67; 111; 100; 101].
(** a terminal whose registration is refused makes the server drop the device [d0] *)
Definition supplants (e ec : env) (sl slc : nat) (s sc : st) (x xc : session) (k kc : conn) (t : Z) (c : simconf) (d0 : device) : Prop :=
  let d := genDevice c (ss_id xc) (ss_conn xc) in
  exists l sc1 sc2 sc3 s1 s2 f1 f2 f3 f4 n,
  run (buildDevice c slc) sc = (Ok l, sc1)
  /\ run (register ec c (d_phone d) slc None) sc1 = (Ok tt, sc2)
  /\ st_conns sc2 !! ss_conn xc = Some (mkConn true (cn_out kc ++ [f1]))
  /\ run (serveOne e sl (Ok f1) None) s = (Ok true, s1)
  /\ st_conns s1 !! ss_conn x = Some (mkConn true (cn_out k ++ [f2]))
  /\ (exists p2, decodePacket (e_o ec) f2 = Ok p2 /\ carries ec sc2 p2 0x8100 (B8100 1 n authCode)) /\ (n = 1 \/ n = 3)
  /\ devAt s1 (d_phone d) = Some d0
  /\ run (clientLoop ec slc [(Ok f2, None)]) sc2 = (Ok false, sc3)
  /\ st_conns sc3 !! ss_conn xc = Some (mkConn true (cn_out kc ++ [f1; f3]))
  /\ run (serveOne e sl (Ok f3) None) (set_clock t s1) = (Ok true, s2)
  /\ st_conns s2 !! ss_conn x = Some (mkConn true (cn_out k ++ [f2; f4]))
  /\ devAt s2 (d_phone d) = None /\ devWithPlate s2 (d_plate d0) = None.
