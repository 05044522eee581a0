(** Property theorems C01-C16, C18-C21: framing, checksum, headers, primitive fields.
    Each is closed by a lemma of the proof files; the examples show concrete cases that
    meet the hypotheses. *)
From Verif Require Import Base HexM TimeM HashM HeaderM ParamsM GeoM MsgM PacketM FrameM SpecCodec SpecTrunc.
From Verif Require Import HexP TimeP HeaderP FrameP MsgP CodecP CodecP2 CodecP3 TruncP ExampleData.
Local Open Scope N_scope.

(** C01: removing the delimiters and un-escaping gives back the packet. *)
Theorem C01_unescape_escape : forall p : bytes, unescape (escape p) = p.
Proof. exact unescape_escape. Qed.
Print Assumptions C01_unescape_escape.
Example C01_ex : escape [0x7e; 1; 0x7d; 2] = [0x7e; 0x7d; 2; 1; 0x7d; 1; 2; 0x7e]
  /\ unescape [0x7e; 0x7d; 2; 1; 0x7d; 1; 2; 0x7e] = [0x7e; 1; 0x7d; 2].
Proof. split; reflexivity. Qed.

(** C02: a frame is an escaped packet between two delimiters, the delimiter occurs
    nowhere else, and the packet is determined by the frame. *)
Theorem C02_frame_shape : forall p, exists c,
  escape p = framed c /\ escapes p c /\ no_delim c /\ well_escaped c.
Proof. exact escape_spec. Qed.
Print Assumptions C02_frame_shape.
Theorem C02_injective : forall p q, escape p = escape q -> p = q.
Proof. exact escape_inj. Qed.
Print Assumptions C02_injective.
(** every well-escaped content is the frame of some packet *)
Theorem C02_onto : forall c, well_escaped c -> exists p, escape p = framed c.
Proof. exact escape_onto. Qed.
Print Assumptions C02_onto.
Example C02_ex : well_escaped [5; 0x7d; 1; 0x7d; 2] /\ escapes [5; 0x7d; 0x7e] [5; 0x7d; 1; 0x7d; 2].
Proof.
  split.
  - apply we_plain; [discriminate|discriminate|]. apply we_esc; [auto|]. apply we_esc; [auto|]. constructor.
  - apply es_plain; [discriminate|discriminate|]. apply es_7d, es_7e, es_nil.
Qed.

(** C03: junk, then a delimited frame: exactly the frame is returned and exactly the
    rest stays in the stream, for any chunking into non-empty reads. *)
Theorem C03_recv_frame : forall s j c r,
  ~ In [] (st_next s) -> no_delim j -> no_delim c -> st_bytes s = j ++ framed c ++ r ->
  exists s', recv s = (Ok (framed c), s') /\ st_bytes s' = r
    /\ st_end s' = st_end s /\ ~ In [] (st_next s').
Proof. exact recv_frame. Qed.
Print Assumptions C03_recv_frame.
Example C03_ex : let s := mkStream [9; 0x7e; 1] [[2]; [0x7e; 3; 4]; [5]] ErrEOF in
  ~ In [] (st_next s) /\ st_bytes s = [9] ++ framed [1; 2] ++ [3; 4; 5]
  /\ recv s = (Ok (framed [1; 2]), mkStream [3; 4] [[5]] ErrEOF).
Proof. cbn. split; [|split; reflexivity]. intuition discriminate. Qed.

(** C04: escaped packets with junk in between are delivered in order, and nothing else. *)
Theorem C04_lossless : forall ps js tail s,
  ~ In [] (st_next s) -> (forall j, In j js -> no_delim j) -> no_delim tail ->
  st_bytes s = interleaved js (map escape ps) tail ->
  frames s = map escape ps /\ map unescape (frames s) = ps.
Proof. exact frames_escaped. Qed.
Print Assumptions C04_lossless.
Example C04_ex : let s := mkStream [] [[9; 0x7e; 1; 0x7d]; [2; 0x7e; 8]; [0x7e; 3; 0x7e; 7]] ErrEOF in
  st_bytes s = interleaved [[9]; [8]] (map escape [[1; 0x7e]; [3]]) [7]
  /\ frames s = map escape [[1; 0x7e]; [3]].
Proof. split; reflexivity. Qed.

(** C05: whatever the stream and its chunking, a returned frame is content without
    delimiter between two delimiters; the stream error is reported iff no complete
    frame is in the stream. *)
Theorem C05_frame_complete : forall s f s',
  recv s = (Ok f, s') -> exists c, f = framed c /\ no_delim c.
Proof. exact recv_shape. Qed.
Print Assumptions C05_frame_complete.
Theorem C05_error_iff : forall s, ~ In [] (st_next s) ->
  (~ exists j c t, no_delim j /\ no_delim c /\ st_bytes s = j ++ framed c ++ t) <->
  fst (recv s) = Err (st_end s).
Proof. exact recv_none. Qed.
Print Assumptions C05_error_iff.
Example C05_ex : recv (mkStream [1; 0x7e; 2] [[3]] ErrEOF) = (Err ErrEOF, mkStream [] [] ErrEOF)
  /\ fst (recv (mkStream [1; 0x7e; 2] [[3]; [0x7e]] ErrEOF)) = Ok (framed [2; 3]).
Proof. split; reflexivity. Qed.

(** C06: a prefix with an odd number of delimiters (one stray delimiter is such a
    prefix) makes the receiver lose every following packet; instead of packet k > 1 it
    delivers an empty frame.  So the property is false for every sequence. *)
Theorem C06_refuted : forall ps pre s, ~ In [] (st_next s) ->
  Nat.odd (count_occ N.eq_dec pre delim) = true ->
  st_bytes s = pre ++ concat (map escape ps) ->
  exists fs c, no_delim c /\ (length fs * 2 + 1 = count_occ N.eq_dec pre delim)%nat
    /\ frames s = fs ++ match ps with
                        | [] => []
                        | _ :: ps' => framed c :: repeat (framed []) (length ps')
                        end.
Proof. exact stray_loses. Qed.
Print Assumptions C06_refuted.
(** after an even number of stray delimiters every packet is delivered *)
Theorem C06_partial : forall ps pre s, ~ In [] (st_next s) ->
  Nat.even (count_occ N.eq_dec pre delim) = true ->
  st_bytes s = pre ++ concat (map escape ps) ->
  exists fs, frames s = fs ++ map escape ps /\ (length fs * 2 = count_occ N.eq_dec pre delim)%nat.
Proof. exact stray_even. Qed.
Print Assumptions C06_partial.
Example C06_ex : let s := mkStream ([0x7e] ++ concat (map escape [[1]; [2]; [3]])) [] ErrEOF in
  frames s = [[0x7e; 0x7e]; [0x7e; 0x7e]; [0x7e; 0x7e]].
Proof. reflexivity. Qed.

(** C07: for every pattern of short writes and failures, what was written is a prefix
    of the payload, all of it on success, and an error is one the writer gave; if the
    writer makes progress, Send succeeds. *)
Theorem C07_send : forall p ws out r, send p ws = (out, r) ->
  (exists rest, p = out ++ rest)
  /\ (r = Some (Ok tt) -> out = p)
  /\ (forall e, r = Some (Err e) -> exists n, In (n, Some e) ws)
  /\ r <> Some Panic.
Proof. exact send_spec. Qed.
Print Assumptions C07_send.
Theorem C07_progress : forall p ws,
  (forall w, In w ws -> exists n, w = (S n, None)) -> (length p <= length ws)%nat ->
  send p ws = (p, Some (Ok tt)).
Proof. exact send_progress. Qed.
Print Assumptions C07_progress.
Example C07_ex : send [1; 2; 3; 4; 5] [(2, None); (0, None); (9, None)]%nat = ([1; 2; 3; 4; 5], Some (Ok tt))
  /\ send [1; 2; 3; 4; 5] [(2, None); (1, Some ErrIO)]%nat = ([1; 2; 3], Some (Err ErrIO)).
Proof. split; reflexivity. Qed.

(** C08: the checksum. *)
Theorem C08_accept_iff : forall o p, (exists s, verify o p = Ok s) <-> p <> [] /\ xor_sum p = 0.
Proof. exact verify_sum. Qed.
Print Assumptions C08_accept_iff.
Theorem C08_generated : forall p, genVerifier p = p ++ [xor_sum p].
Proof. exact genVerifier_sum. Qed.
Print Assumptions C08_generated.
Theorem C08_encoded_accepted : forall o p, exists s, verify o (genVerifier p) = Ok s /\ sl_data s = p.
Proof. exact verify_encoded. Qed.
Print Assumptions C08_encoded_accepted.
Theorem C08_corruption : forall o pre x y post, x <> y -> xor_sum (pre ++ x :: post) = 0 ->
  verify o (pre ++ y :: post) = Err ErrVerifyFailed.
Proof. exact verify_corrupt. Qed.
Print Assumptions C08_corruption.
Example C08_ex : genVerifier [1; 2; 4] = [1; 2; 4; 7] /\ xor_sum ([1] ++ 2 :: [4; 7]) = 0
  /\ verify o0 [1; 3; 4; 7] = Err ErrVerifyFailed.
Proof. repeat split; reflexivity. Qed.

(** C09: the reported VerifyCode is the closing delimiter, whatever checksum was
    transmitted; so the property holds only for packets whose checksum is 0x7e. *)
Theorem C09_refuted : forall o c p b code, bytes_ok c = true -> decodePacket o (framed c) = Ok p ->
  unescape (framed c) = b ++ [code] -> pk_code p = delim /\ code = xor_sum b.
Proof. exact decodePacket_code. Qed.
Print Assumptions C09_refuted.
Example C09_ex : exists c p b code, decodePacket o0 (framed c) = Ok p
  /\ unescape (framed c) = b ++ [code] /\ code = 0x35 /\ pk_code p = 0x7e.
Proof.
  exists [0; 2; 0; 0; 1; 0x39; 0x12; 0x34; 0x56; 0x78; 0; 0x7; 0x35].
  eexists. exists [0; 2; 0; 0; 1; 0x39; 0x12; 0x34; 0x56; 0x78; 0; 0x7]. eexists.
  split; [vm_compute; reflexivity|]. repeat split; reflexivity.
Qed.

(** C10: header and body survive encoding and decoding. *)
Theorem C10_packet : forall o h b w, hdr_wf h -> encBody o h b = Ok w -> (length w < 1024)%nat ->
  exists frm p, encodePacket o (mkMsg h b) = Ok frm /\ decodePacket o frm = Ok p
    /\ pk_hdr p = with_len h (N.of_nat (length w)) /\ sl_data (pk_body p) = w.
Proof. exact packet_delivered. Qed.
Print Assumptions C10_packet.
(** the same for the decoded message, for every message type *)
Theorem C10_message : forall o h b w b', hdr_wf h -> body_sent o h b w b' -> (length w < 1024)%nat ->
  delivered o h b b'.
Proof. exact body_delivered. Qed.
Print Assumptions C10_message.
Example C10_ex : hdr_wf h19f /\ encBody o0 h19f (B8001 7 0x7e7d 1) = Ok [0; 7; 0x7e; 0x7d; 1].
Proof. split; [exact h19f_wf|reflexivity]. Qed.

(** C11: header layout and round trip *)
Theorem C11_header : forall h, hdr_wf h ->
  encodeHeader h = header_layout h /\
  forall post sp, decodeHeader (mkSlice (header_layout h ++ post) sp) O = Ok (h, length (header_layout h)).
Proof. exact header_layout_roundtrip. Qed.
Print Assumptions C11_header.
Example C11_ex : hdr_wf h13 /\ hdr_wf h19 /\ hdr_wf h19f
  /\ header_layout h19f = [2; 0; 0x60; 0; 1; 0; 0; 0; 0; 1; 0x39; 0x12; 0x34; 0x56; 0x78; 0; 7; 0; 3; 0; 2].
Proof. repeat split; try apply h13_wf; try apply h19_wf; apply h19f_wf. Qed.

(** C12: bit fields of the attribute word *)
Theorem C12_attr : forall w, w < 65536 ->
  let a := attrDecode w in
  (a_len a = w mod 1024 /\ a_enc a = (w / 1024) mod 8 /\ a_frag a = (w / 8192) mod 2
   /\ a_sign a = (w / 16384) mod 2 /\ a_extra a = w / 32768)
  /\ (a_ver a = V2019 <-> N.testbit w 14 = true) /\ (a_ver a = V2013 <-> N.testbit w 14 = false)
  /\ a_fragd a = N.testbit w 13
  /\ attrEncode a = w.
Proof. exact attr_bits. Qed.
Print Assumptions C12_attr.
Example C12_ex : attrDecode 0x6405 = mkAttr 5 1 1 1 0 EncRSA true V2019.
Proof. reflexivity. Qed.

(** C13: a body of 1024 bytes or more is announced with a wrong length, and with clear
    flags in the header some flag arrives set. *)
Theorem C13_refuted : forall h w sp h' i, attr_wf (h_attr h) -> (1024 <= N.of_nat (length w) < 65536) ->
  decodeHeader (mkSlice (writeHeader h w) sp) O = Ok (h', i) ->
  a_len (h_attr h') = N.of_nat (length w) mod 1024
  /\ a_len (h_attr h') <> N.of_nat (length w)
  /\ (a_enc (h_attr h) = 0 -> a_frag (h_attr h) = 0 -> a_sign (h_attr h) = 0 -> a_extra (h_attr h) = 0 ->
      a_enc (h_attr h') <> 0 \/ a_frag (h_attr h') <> 0 \/ a_sign (h_attr h') <> 0
      \/ a_extra (h_attr h') <> 0).
Proof. exact oversized. Qed.
Print Assumptions C13_refuted.
(** up to 1023 bytes the decoded header is the sent one with the body's length *)
Theorem C13_partial : forall h w sp, hdr_wf h -> (length w < 1024)%nat ->
  decodeHeader (mkSlice (writeHeader h w) sp) O
  = Ok (with_len h (N.of_nat (length w)), length (header_layout (with_len h (N.of_nat (length w))))).
Proof. exact decode_writeHeader. Qed.
Print Assumptions C13_partial.
Example C13_ex : exists h' i,
  decodeHeader (mkSlice (writeHeader h13 (repeat 65 (Z.to_nat 1025))) []) O = Ok (h', i)
  /\ a_len (h_attr h') = 1 /\ a_enc (h_attr h') = 1.
Proof. do 2 eexists. split; [vm_compute; reflexivity|]. split; reflexivity. Qed.

(** C14: for a version 2019 device the generated header lacks the protocol version
    byte: a command with an empty body makes the receiver panic, any other is received
    with the phone number shifted. *)
Theorem C14_refuted_empty : forall o proto phone id sn b, digits phone = true -> length phone = 20%nat ->
  encBody o (genMsgHeader V2019 proto phone id sn) b = Ok [] ->
  exists frm, encodePacket o (mkMsg (genMsgHeader V2019 proto phone id sn) b) = Ok frm
    /\ decodePacket o frm = Panic.
Proof. exact gen2019_empty_panics. Qed.
Print Assumptions C14_refuted_empty.
Theorem C14_refuted : forall o proto phone id sn b w, digits phone = true -> length phone = 20%nat ->
  sn < 2560 -> encBody o (genMsgHeader V2019 proto phone id sn) b = Ok w ->
  bytes_ok w = true -> (1 <= length w < 1024)%nat ->
  exists frm p, encodePacket o (mkMsg (genMsgHeader V2019 proto phone id sn) b) = Ok frm
    /\ decodePacket o frm = Ok p
    /\ h_phone (pk_hdr p) = skipn 2 phone ++ [48; 48 + sn / 256]
    /\ sl_data (pk_body p) = skipn 1 w.
Proof. exact gen2019_shifted. Qed.
Print Assumptions C14_refuted.
(** for a version 2013 device it arrives intact *)
Theorem C14_partial : forall o proto phone id sn b w, digits phone = true -> length phone = 12%nat ->
  id < 65536 -> sn < 65536 -> encBody o (genMsgHeader V2013 proto phone id sn) b = Ok w ->
  (length w < 1024)%nat ->
  exists frm p, encodePacket o (mkMsg (genMsgHeader V2013 proto phone id sn) b) = Ok frm
    /\ decodePacket o frm = Ok p
    /\ h_id (pk_hdr p) = id /\ h_phone (pk_hdr p) = phone /\ h_sn (pk_hdr p) = sn
    /\ a_ver (h_attr (pk_hdr p)) = V2013 /\ a_len (h_attr (pk_hdr p)) = N.of_nat (length w)
    /\ h_frag (pk_hdr p) = None /\ sl_data (pk_body p) = w.
Proof. exact gen2013_roundtrip. Qed.
Print Assumptions C14_partial.
Example C14_ex : encBody o0 (genMsgHeader V2019 1 phone20 0x8104 3) B8104 = Ok []
  /\ encBody o0 (genMsgHeader V2019 1 phone20 0x8001 3) (B8001 3 0x0200 0) = Ok [0; 3; 2; 0; 0]
  /\ digits phone20 = true /\ length phone20 = 20%nat /\ digits phone12 = true /\ length phone12 = 12%nat.
Proof. repeat split; reflexivity. Qed.

(** C15: a location report that lacks its last byte is decoded, with the checksum of the
    packet as the seconds of its time. *)
Theorem C15_refuted : forall o now h w, hdr_wf h -> bytes_ok w = true -> length w = 27%nat ->
  exists p l, decodePacket o (escape (genVerifier (writeHeader h w))) = Ok p
    /\ sl_data (pk_body p) = w
    /\ msgDecode o now K0200 p = Ok (mkMsg (pk_hdr p) (B0200 l))
    /\ l_time l = bcd2NumberStr (skipn 22 w ++ [xor_sum (writeHeader h w)]).
Proof. exact cut_0200. Qed.
Print Assumptions C15_refuted.
(** a decoder that stays within the body it was given reads nothing but that body *)
Theorem C15_partial : forall o now k h,
  In k [K0001; K0002; K0003; K0004; K0100; K0102; K0200; K0800; K0801;
        K8001; K8004; K8100; K8104; K8800; K9205] ->
  forall d sp1 i a j, decBody o now k h (mkSlice d sp1) i = Ok (a, j) ->
    (i <= j)%nat /\ ((j <= length d)%nat -> forall sp2, decBody o now k h (mkSlice d sp2) i = Ok (a, j)).
Proof. exact loc_decBody. Qed.
Print Assumptions C15_partial.
(** general replies and media queries, which end with a byte read by index, stay within *)
Theorem C15_partial_within : forall o now k h d sp b j,
  In k [K0001; K8001; K9205] -> decBody o now k h (mkSlice d sp) O = Ok (b, j) -> (j <= length d)%nat.
Proof. exact decBody_within. Qed.
Print Assumptions C15_partial_within.
(** the messages with a list read it by a second pass over the rest of the body: when that
    pass ends within the body, nothing beyond the body has any influence *)
Theorem C15_partial_8103 : forall o now h c w sp1 sp2 ps j,
  paramsDecodeLoop o (N.to_nat c) (mkSlice w sp1) O = Ok (ps, j) -> (j <= length w)%nat ->
  decBody o now K8103 h (mkSlice (c :: w) sp2) O = Ok (B8103 c (Some (mkParams (h_phone h) c ps)), 1%nat).
Proof. exact list_8103. Qed.
Print Assumptions C15_partial_8103.
Theorem C15_partial_0104 : forall o now h s1 s2 c w sp1 sp2 ps j,
  paramsDecodeLoop o (N.to_nat c) (mkSlice w sp1) O = Ok (ps, j) -> (j <= length w)%nat ->
  decBody o now K0104 h (mkSlice (s1 :: s2 :: c :: w) sp2) O
  = Ok (B0104 (s1 * 256 + s2) c (Some (mkParams (h_phone h) c ps)), 3%nat).
Proof. exact list_0104. Qed.
Print Assumptions C15_partial_0104.
Theorem C15_partial_1205 : forall o now h s1 s2 c1 c2 c3 c4 w sp1 sp2 q n j,
  mediaDecode now (mkSlice w sp1) O = Ok ((q, n), j) -> (j <= length w)%nat ->
  decBody o now K1205 h (mkSlice (s1 :: s2 :: c1 :: c2 :: c3 :: c4 :: w) sp2) O
  = Ok (B1205 (s1 * 256 + s2) (((c1 * 256 + c2) * 256 + c3) * 256 + c4) q n, 6%nat).
Proof. exact list_1205. Qed.
Print Assumptions C15_partial_1205.
Example C15_lists_ex :
  exists ps, paramsDecodeLoop o0 1 (mkSlice [0; 0; 0; 1; 4; 0; 0; 0; 60] [9]) O = Ok (ps, 9%nat)
  /\ decBody o0 t_now K8103 h13 (mkSlice [1; 0; 0; 0; 1; 4; 0; 0; 0; 60] [7; 7]) O
     = Ok (B8103 1 (Some (mkParams (h_phone h13) 1 ps)), 1%nat)
  /\ length ps = 1%nat.
Proof. eexists. split; [vm_compute; reflexivity|]. split; vm_compute; reflexivity. Qed.
Example C15_ex : hdr_wf h13 /\ length (repeat 0x11 27) = 27%nat
  /\ decBody o0 t_now K8001 h13 (mkSlice [0; 1; 2; 3] [9; 9; 9]) O = Panic
  /\ decBody o0 t_now K8001 h13 (mkSlice [0; 1; 2; 3; 4] []) O = Ok (B8001 1 0x203 4, 5%nat).
Proof. split; [exact h13_wf|]. repeat split; reflexivity. Qed.

(** exactly the bodies each message type accepts, whatever follows them in the buffer *)
Theorem C15_accepted : forall o now k h w sp,
  (exists b j, decBody o now k h (mkSlice w sp) O = Ok (b, j))
  <-> fits k (a_ver (h_attr h)) (N.to_nat (a_len (h_attr h))) w sp.
Proof. exact accepted. Qed.
Print Assumptions C15_accepted.
(** the same of a body of any length received in a frame: the checksum and what the buffer holds
    after it are what a truncated message is completed with *)
Theorem C15_accepted_wire : forall o now h w, hdr_wf h -> (length w < 1024)%nat -> exists p sp,
  decodePacket o (escape (genVerifier (writeHeader h w))) = Ok p
  /\ forall k, (exists m, msgDecode o now k p = Ok m)
               <-> fits k (a_ver (h_attr h)) (length w) w (xor_sum (writeHeader h w) :: sp).
Proof. exact accepted_wire. Qed.
Print Assumptions C15_accepted_wire.
Example C15_accepted_ex : hdr_wf h13
  /\ fits K0200 V2013 27 (repeat 0x11 27) [9] /\ ~ fits K0200 V2013 26 (repeat 0x11 26) [9]
  /\ fits K8103 V2013 9 [1; 0; 0; 0; 1; 4; 0; 0; 0] [60] /\ ~ fits K8103 V2013 9 [1; 0; 0; 0; 1; 4; 0; 0; 0] []
  /\ ~ fits K0100 V2019 75 (repeat 1 75) [9; 9].
Proof.
  split; [exact h13_wf|]. split; [cbn; lia|]. split; [cbn; lia|]. split; [|split; [|cbn; lia]].
  - split; [cbn; lia|]. split; [cbn; lia|]. exists PDword. split; [reflexivity|]. split; [discriminate|]. split; [cbn; lia|exact I].
  - intros (_ & _ & k & [= <-] & _ & H & _). cbn in H. lia.
Qed.

(** C16: exactly the frames with a correct checksum and an incomplete header make the
    decoder panic. *)
Theorem C16_refuted : forall o c, bytes_ok c = true ->
  (decodePacket o (framed c) = Panic
   <-> exists b, unescape (framed c) = b ++ [xor_sum b] /\ header_cut b).
Proof. exact decodePacket_panic_iff. Qed.
Print Assumptions C16_refuted.
(** every other frame is rejected with an error or decoded *)
Theorem C16_partial : forall o c, bytes_ok c = true ->
  (unescape (framed c) = [] /\ decodePacket o (framed c) = Err ErrEmptyPacket)
  \/ exists b code, unescape (framed c) = b ++ [code] /\ bytes_ok b = true
     /\ ((code <> xor_sum b /\ decodePacket o (framed c) = Err ErrVerifyFailed)
         \/ (code = xor_sum b /\ header_cut b /\ decodePacket o (framed c) = Panic)
         \/ (code = xor_sum b /\ ~ header_cut b /\ exists p, decodePacket o (framed c) = Ok p)).
Proof. exact decodePacket_outcome. Qed.
Print Assumptions C16_partial.
(** a stream of five bytes suffices *)
Example C16_ex : let s := mkStream [0x7e; 1; 1; 0x7e] [] ErrEOF in
  exists f s', recv s = (Ok f, s') /\ decodePacket o0 f = Panic.
Proof. do 2 eexists. split; reflexivity. Qed.

(** C18: hexadecimal strings *)
Theorem C18_hex : forall b, bytes_ok b = true -> hex_spells (Byte2Str b) b.
Proof. exact Byte2Str_spells. Qed.
Print Assumptions C18_hex.
Theorem C18_decode : forall s l t, hex_spells s l ->
  match t with a :: b :: _ => hex_val a = None \/ hex_val b = None | _ => True end ->
  Str2Byte (s ++ t) = l.
Proof. exact Str2Byte_spells. Qed.
Print Assumptions C18_decode.
Theorem C18_roundtrip : forall b, bytes_ok b = true -> Str2Byte (Byte2Str b) = b.
Proof. exact Str2Byte_Byte2Str. Qed.
Print Assumptions C18_roundtrip.
Example C18_ex : Byte2Str [0x7e; 0xAb] = [55; 101; 97; 98] /\ hex_spells [55; 69; 97; 66] [0x7e; 0xab]
  /\ hex_val 0x67 = None /\ Str2Byte ([55; 69; 97; 66] ++ [48; 0x67; 48; 48]) = [0x7e; 0xab].
Proof.
  split; [reflexivity|]. split; [|split; reflexivity].
  apply (hs_cons 55 69 7 14); [reflexivity|reflexivity|].
  apply (hs_cons 97 66 10 11); [reflexivity|reflexivity|constructor].
Qed.

(** C19: digit strings, written and read at any position *)
Theorem C19_bcd : forall s pre post sp, digits s = true ->
  ((8 <= length s)%nat /\ Nat.even (length s) = true \/ (length s <= 8)%nat) ->
  ReadBCD (Z.of_nat (length (WriteBCD [] s))) (mkSlice (pre ++ WriteBCD [] s ++ post) sp) (length pre)
  = Ok (s, (length pre + length (WriteBCD [] s))%nat).
Proof. exact bcd_read. Qed.
Print Assumptions C19_bcd.
Theorem C19_layout : forall s, digits s = true -> (8 <= length s)%nat -> WriteBCD [] s = BCD s.
Proof. exact bcd_written. Qed.
Print Assumptions C19_layout.
Example C19_ex : digits phone12 = true /\ WriteBCD [] phone12 = [1; 0x39; 0x12; 0x34; 0x56; 0x78]
  /\ WriteBCD [] [49; 50; 51] = [0xff; 0xff; 0xf1; 0x23].
Proof. repeat split; reflexivity. Qed.

(** C20: two packets whose phone fields differ in a first byte xF are attributed to the
    same phone; so hexadecimal phone fields alias. *)
Theorem C20_refuted : forall o x f1 a0 sn p1 p2,
  forallb bcdByte f1 = true -> length f1 = 5%nat -> x < 16 -> x <> 0 ->
  let pkt y := [0; 2; 0; a0] ++ (y * 16 + 15) :: f1 ++ U16 sn in
  forall c1 c2, unescape (framed c1) = pkt x ++ [xor_sum (pkt x)] ->
  unescape (framed c2) = pkt 0 ++ [xor_sum (pkt 0)] ->
  bytes_ok c1 = true -> bytes_ok c2 = true ->
  decodePacket o (framed c1) = Ok p1 -> decodePacket o (framed c2) = Ok p2 ->
  phone_field (pkt x) <> phone_field (pkt 0) /\ h_phone (pk_hdr p1) = h_phone (pk_hdr p2).
Proof. exact phone_refuted. Qed.
Print Assumptions C20_refuted.
(** decimal phone fields do not alias, even between the two protocol versions *)
Theorem C20_partial : forall o c1 c2 b1 b2 p1 p2, bytes_ok c1 = true -> bytes_ok c2 = true ->
  decodePacket o (framed c1) = Ok p1 -> decodePacket o (framed c2) = Ok p2 ->
  unescape (framed c1) = b1 ++ [xor_sum b1] -> unescape (framed c2) = b2 ++ [xor_sum b2] ->
  forallb bcdByte (phone_field b1) = true -> forallb bcdByte (phone_field b2) = true ->
  h_phone (pk_hdr p1) = h_phone (pk_hdr p2) -> phone_field b1 = phone_field b2.
Proof. exact phones_distinct. Qed.
Print Assumptions C20_partial.
Example C20_ex :
  let pkt y := [0; 2; 0; 0] ++ (y * 16 + 15) :: [0x39; 0x12; 0x34; 0x56; 0x78] ++ U16 7 in
  let frm y := escape (genVerifier (pkt y)) in
  exists p1 p2, decodePacket o0 (frm 3) = Ok p1 /\ decodePacket o0 (frm 0) = Ok p2
    /\ h_phone (pk_hdr p1) = h_phone (pk_hdr p2).
Proof. do 2 eexists. split; [vm_compute; reflexivity|]. split; [vm_compute; reflexivity|]. reflexivity. Qed.

(** C21: times *)
Theorem C21_roundtrip : forall now t pre post sp, civil_valid t -> year_window t ->
  WriteTime [] t = BCD (time_digits t) /\
  ReadTime now (mkSlice (pre ++ WriteTime [] t ++ post) sp) (length pre)
  = Ok (t, (length pre + length (WriteTime [] t))%nat).
Proof. exact time_roundtrip. Qed.
Print Assumptions C21_roundtrip.
(** any six bytes: the time they spell, or the current time if they spell none *)
Theorem C21_read : forall now w, length w = 6%nat -> bytes_ok w = true ->
  exists t, (forall pre post sp, ReadTime now (mkSlice (pre ++ w ++ post) sp) (length pre)
                                 = Ok (t, (length pre + 6)%nat))
    /\ ((civil_valid t /\ year_window t /\ w = BCD (time_digits t))
        \/ (t = now /\ forall u, civil_valid u -> year_window u -> w <> BCD (time_digits u))).
Proof. exact time_read. Qed.
Print Assumptions C21_read.
Example C21_ex : civil_valid t_leap /\ year_window t_leap
  /\ WriteTime [] t_leap = [0x24; 2; 0x29; 0x23; 0x59; 0x58]
  /\ ReadTime t_now (mkSlice [0x23; 2; 0x29; 0x23; 0x59; 0x58] []) O = Ok (t_now, 6%nat).
Proof. split; [apply t_leap_ok|]. split; [apply t_leap_ok|]. split; reflexivity. Qed.
