(** Model of internal/protocol/packet_codec.go *)
From Verif Require Import Base HexM HeaderM MsgM.
Local Open Scope N_scope.

(** packet_codec.go:134-148 escape *)
Definition escByte (v : N) : bytes :=
  if v =? 0x7e then [0x7d; 0x02] else if v =? 0x7d then [0x7d; 0x01] else [v].
Definition escape (src : bytes) : bytes := 0x7e :: flat_map escByte src ++ [0x7e].

(** The loop of unescape over src[i..n-1): [i < n-2] says that one more content byte
    follows, i.e. that the list has a second element. *)
Fixpoint unescLoop (l : bytes) : bytes :=
  match l with
  | [] => []
  | a :: t =>
      match t with
      | b :: t' =>
          if (a =? 0x7d) && (b =? 0x02) then 0x7e :: unescLoop t'
          else if (a =? 0x7d) && (b =? 0x01) then 0x7d :: unescLoop t'
          else a :: unescLoop t
      | [] => [a]
      end
  end.

(** packet_codec.go:108-124 unescape: drops the first and the last byte *)
Definition unescape (src : bytes) : bytes :=
  unescLoop (skipn 1 (firstn (length src - 1) src)).

Definition xorAll (l : bytes) : N := fold_left N.lxor l 0.

(** packet_codec.go:151-166 verify.  The result pkt[:n-1] aliases its argument: its
    spare capacity starts with the checksum and continues with whatever append
    reserved (zeroed memory); [o_growcap] gives the capacity. *)
Definition verify (o : oracle) (pkt : bytes) : res slice :=
  match length pkt with
  | O => Err ErrEmptyPacket
  | S n =>
      let body := firstn n pkt in
      let code := nth n pkt 0 in
      if code =? xorAll body
      then Ok (mkSlice body (code :: repeat 0 (o_growcap o (S n) - S n)))
      else Err ErrVerifyFailed
  end.

(** packet_codec.go:169-176 genVerifier *)
Definition genVerifier (pkt : bytes) : bytes := pkt ++ [xorAll pkt].

(** packet_codec.go:48-79 Decode up to (excluding) the segment cache of lines 69-74,
    which is modelled in StateM.v.  An empty payload panics on line 51. *)
Definition decodePacket (o : oracle) (payload : bytes) : res packet :=
  match payload with
  | [] => Panic
  | _ =>
      rbind (verify o (unescape payload)) (fun pkt =>
      rbind (decodeHeader pkt O) (fun hi =>
      rbind (sl_from pkt (snd hi)) (fun bdy =>
      Ok (mkPacket (fst hi) bdy (last payload 0) false))))
  end.

(** packet_codec.go:84-100 Encode for a JT808Msg *)
Definition encodePacket (o : oracle) (m : msg) : res bytes :=
  rmap (fun pkt => escape (genVerifier pkt)) (msgEncode o m).
