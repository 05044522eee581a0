(** Concrete values used by the examples that stand beside the property theorems *)
From Verif Require Import Base HexM TimeM HeaderM ParamsM MsgM PacketM FrameM SpecCodec.
Local Open Scope N_scope.

(** an oracle: GBK is the identity on ASCII and fails elsewhere, no region is known, no
    spare capacity *)
Definition ascii (s : str) : option str := if forallb (fun c => c <? 128) s then Some s else None.
Definition o0 : oracle := mkOracle ascii ascii (fun _ => None) (fun n => n) (fun _ _ => 0).

(** "013912345678" *)
Definition phone12 : str := [48; 49; 51; 57; 49; 50; 51; 52; 53; 54; 55; 56].
(** "00000000" ++ phone12 *)
Definition phone20 : str := repeat 48 8 ++ phone12.
Definition attr13 : attr := mkAttr 0 0 0 0 0 EncNone false V2013.
Definition attr19 : attr := mkAttr 0 0 0 1 0 EncNone false V2019.
Definition attr19f : attr := mkAttr 0 0 1 1 0 EncNone true V2019.
Definition h13 : header := mkHeader 0x0200 attr13 0 phone12 7 None.
Definition h19 : header := mkHeader 0x0200 attr19 1 phone20 7 None.
Definition h19f : header := mkHeader 0x0200 attr19f 1 phone20 7 (Some (mkFrag 3 2)).
(** 2024-02-29 23:59:58 *)
Definition t_leap : civil := mkCivil 2024 2 29 23 59 58.
Definition t_now : civil := mkCivil 2023 6 1 12 0 0.
(** "ABC" *)
Definition abc : str := [65; 66; 67].
Definition q1 : mquery := mkMQ 1 (Some t_leap) (Some t_now) 5 6 0 1 2.

Lemma h13_wf : hdr_wf h13.
Proof. repeat (split; [reflexivity || lia|]); repeat split. Qed.
Lemma h19_wf : hdr_wf h19.
Proof. repeat (split; [reflexivity || lia|]); repeat split. Qed.
Lemma h19f_wf : hdr_wf h19f.
Proof. repeat (split; [try (reflexivity || lia)|]); try reflexivity. exists (mkFrag 3 2). repeat split. Qed.
Lemma t_leap_ok : civil_valid t_leap /\ year_window t_leap.
Proof.
  split; [|unfold year_window; cbn; lia]. unfold civil_valid, leap. cbn.
  repeat split; lia.
Qed.
Lemma t_now_ok : civil_valid t_now /\ year_window t_now.
Proof.
  split; [|unfold year_window; cbn; lia]. unfold civil_valid, leap. cbn.
  repeat split; lia.
Qed.
