(** Concrete servers used by the examples beside the property theorems *)
From stdpp Require Import gmap.
From Verif Require Import Base HexM TimeM HeaderM ParamsM GeoM MsgM PacketM FrameM ProgM RingM StateM ProcM ServerM
  SpecState SpecConc ServerP ConcP ExampleData.
Local Open Scope N_scope.

Definition e0 : env := mkEnv o0 (fun _ => t_now).
(** "10.0.0.1:5" and "10.0.0.2:6" *)
Definition addr1 : str := [49; 48; 46; 48; 46; 48; 46; 49; 58; 53].
Definition addr2 : str := [49; 48; 46; 48; 46; 48; 46; 50; 58; 54].
Definition frame (m : msg) : bytes := match encodePacket o0 m with Ok f => f | _ => [] end.
Definition hid (id : N) : header := hdr_set_id h13 id.
(** "013912345679" *)
Definition phone12b : str := [48; 49; 51; 57; 49; 50; 51; 52; 53; 54; 55; 57].
Definition hidb (id : N) : header := mkHeader id attr13 0 phone12b 9 None.
(** id "D1", plate "A1"; id "D2", plate "A2" *)
Definition reg1 : reg := mkReg 1 2 abc abc [68; 49] 1 [65; 49] [].
Definition reg2 : reg := mkReg 1 2 abc abc [68; 50] 1 [65; 50] [].
Definition code1 : str := genAuthCode (mkDevice [68; 49] [65; 49] phone12 [] 0 0 0 0 V2013 0 [] [] []).
(** ACC on and off *)
Definition loc_on : locrep := mkLoc 0 3 31230416 121473701 10 600 90 [50; 51; 48; 54; 48; 49; 49; 50; 48; 48; 48; 48].
Definition loc_off : locrep := mkLoc 0 2 31230417 121473702 10 0 90 [50; 51; 48; 54; 48; 49; 49; 50; 48; 48; 48; 48].

Definition f_reg1 : bytes := frame (mkMsg (hid 0x0100) (B0100 reg1)).
Definition f_reg2 : bytes := frame (mkMsg (hidb 0x0100) (B0100 reg2)).
Definition f_auth1 : bytes := frame (mkMsg (hid 0x0102) (B0102 0 code1 [] [])).
Definition f_heart1 : bytes := frame (mkMsg (hid 0x0002) B0002).
Definition f_loc1 : bytes := frame (mkMsg (hid 0x0200) (B0200 loc_on)).

(** two connections, a device on each, the first one authenticated with one location *)
Definition w2 : world := history e0 1000
  [EAccept 0 addr1; EAccept 1 addr2;
   EFrame 0 (Ok f_reg1) None; EFrame 1 (Ok f_reg2) None;
   EClock 2000; EFrame 0 (Ok f_auth1) None; EFrame 0 (Ok f_loc1) None].
Definition s2 : st := w_st w2.
Lemma s2_ok : consistent s2.
Proof. exact (wo_ok _ (history_ok e0 1000 _)). Qed.
Lemma s2_sane : sane s2.
Proof. exact (history_sane e0 1000 _). Qed.
(** the session and the device of the first connection *)
Definition x1 : session := mkSession addr1 0 0.
Definition x2 : session := mkSession addr2 1 0.
Definition d1 : device :=
  mkDevice [68; 49] [65; 49] phone12 addr1 0 60000 2000 Online V2013 0 code1 [] [].
Definition d2 : device :=
  mkDevice [68; 50] [65; 50] phone12b addr2 1 60000 1000 Offline V2013 0 [] [] [].
Lemma s2_x1 : st_sess s2 !! 0%nat = Some x1.
Proof. vm_compute. reflexivity. Qed.
Lemma s2_x2 : st_sess s2 !! 1%nat = Some x2.
Proof. vm_compute. reflexivity. Qed.
Lemma s2_d1 : devAt s2 phone12 = Some d1.
Proof. vm_compute. reflexivity. Qed.
Lemma s2_d2 : devAt s2 phone12b = Some d2.
Proof. vm_compute. reflexivity. Qed.
(** the packet of a frame, and packets of both devices *)
Definition unframe (f : bytes) : packet :=
  match decodePacket o0 f with Ok p => p | _ => mkPacket h13 (mkSlice [] []) 0 false end.
Definition pk (m : msg) : packet := unframe (frame m).
