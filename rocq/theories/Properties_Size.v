(** C115, C116: lengths of frames, announced and real lengths of bodies *)
From stdpp Require Import gmap.
From Verif Require Import Base HexM TimeM HeaderM ParamsM GeoM MsgM PacketM FrameM ProgM RingM StateM ProcM ServerM SpecCodec SpecState SpecReg SpecSize
  CodecP3 SizeP ExampleData ExampleState Properties_Split.
Local Open Scope N_scope.

(** C115: a frame has two delimiters, the packet, and one byte more for each 0x7e and 0x7d in it ... *)
Theorem C115_length : forall o h b w, hdr_wf h -> encBody o h b = Ok w -> (length w < 1024)%nat ->
  exists frm, encodePacket o (mkMsg h b) = Ok frm /\ length frm = (2 + length (sent_packet h w) + doubles (sent_packet h w))%nat.
Proof. exact frame_length. Qed.
Print Assumptions C115_length.
(** ... so that frames of unfragmented messages fit MaxFrameLen, those of fragments up to 8 bytes more ... *)
Theorem C115_fits_partial : forall o h b w, hdr_wf h -> encBody o h b = Ok w -> (length w < 1024)%nat -> doubles (U16 (h_id h)) = O ->
  exists frm, encodePacket o (mkMsg h b) = Ok frm /\ (length frm <= max_frame + (if fragment h then 8 else 0))%nat.
Proof. exact frame_fits. Qed.
Print Assumptions C115_fits_partial.
(** ... fragments do not always ... *)
Theorem C115_refuted : forall o h b w, hdr_wf h -> encBody o h b = Ok w -> length w = 1023%nat -> (forall v, In v w -> doubled v = true) ->
  a_ver (h_attr h) = V2019 -> fragment h = true -> (3 <= doubles (header_layout (with_len h 1023)))%nat ->
  exists frm, encodePacket o (mkMsg h b) = Ok frm /\ (max_frame < length frm)%nat.
Proof. exact frame_over. Qed.
Print Assumptions C115_refuted.
(** ... and a received frame is as long as the sender likes *)
Theorem C115_refuted_received : forall s j c r, ~ In [] (st_next s) -> no_delim j -> no_delim c -> st_bytes s = j ++ framed c ++ r ->
  exists s' frm, recv s = (Ok frm, s') /\ length frm = (2 + length c)%nat.
Proof. exact recv_long. Qed.
Print Assumptions C115_refuted_received.
Definition h_long : header := mkHeader 0x8100 (mkAttr 0 0 1 1 0 EncNone true V2019) 1 phone20 0x7e7e (Some (mkFrag 0x7e7e 0x7d7d)).
Definition code_long : str := repeat 0x7e (Z.to_nat 1020).
Example C115_ex : hdr_wf h_long /\ (exists w, encBody o0 h_long (B8100 0x7e7e 0x7d code_long) = Ok w /\ length w = Z.to_nat 1023 /\ forallb doubled w = true)
  /\ fragment h_long = true /\ doubles (header_layout (with_len h_long 1023)) = 6%nat /\ doubles (U16 (h_id h_long)) = O
  /\ (match encodePacket o0 (mkMsg h_long (B8100 0x7e7e 0x7d code_long)) with Ok frm => N.of_nat (length frm) | _ => 0 end) = 2076
  /\ let c := repeat 1 (Z.to_nat 3000) in let s := mkStream (framed c) [] ErrEOF in st_bytes s = [] ++ framed c ++ [] /\ fst (recv s) = Ok (framed c).
Proof.
  split; [repeat split; try reflexivity; exists (mkFrag 0x7e7e 0x7d7d); repeat split; reflexivity|].
  split; [eexists; split; [vmr|split; vmr]|]. repeat (split; [vmr|]). vmr.
Qed.

(** C116: whatever length the header announces, the packet is accepted and what follows the header is its body *)
Theorem C116_refuted : forall o h w c, hdr_wf h -> let p := header_layout h ++ w in escapes (p ++ [xor_sum p]) c ->
  exists q, decodePacket o (framed c) = Ok q /\ pk_hdr q = h /\ sl_data (pk_body q) = w.
Proof. exact length_unread. Qed.
Print Assumptions C116_refuted.
(** what the program itself sends announces the true length *)
Theorem C116_partial : forall o h b w, hdr_wf h -> encBody o h b = Ok w -> (length w < 1024)%nat ->
  exists frm p, encodePacket o (mkMsg h b) = Ok frm /\ decodePacket o frm = Ok p
    /\ pk_hdr p = with_len h (N.of_nat (length w)) /\ sl_data (pk_body p) = w.
Proof. exact packet_delivered. Qed.
Print Assumptions C116_partial.
(** a location report that announces 5 bytes: the frame is accepted, and the location stored *)
Definition h_short : header := with_len (hid 0x0200) 5.
Definition w_loc : bytes := match encBody o0 h_short (B0200 loc_on) with Ok w => w | _ => [] end.
Definition p_short : bytes := header_layout h_short ++ w_loc.
Example C116_ex : hdr_wf h_short /\ length w_loc = 28%nat
  /\ (exists c, escapes (p_short ++ [xor_sum p_short]) c /\ framed c = escape (p_short ++ [xor_sum p_short]))
  /\ received e0 s2 (escape (p_short ++ [xor_sum p_short])) = Some (h_short, B0200 loc_on)
  /\ a_len (h_attr h_short) = 5.
Proof.
  split; [repeat split; reflexivity|]. split; [vmr|]. split.
  { destruct (escape_spec (p_short ++ [xor_sum p_short])) as (c & E & H & _). exists c. auto. }
  split; vmr.
Qed.
