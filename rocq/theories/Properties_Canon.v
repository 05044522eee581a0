(** C129: messages that are decoded and encoded again *)
From Verif Require Import Base HexM TimeM HeaderM ParamsM GeoM MsgM PacketM FrameM SpecCodec SpecTrunc SpecCanon CodecP3 CanonP ExampleData.
Local Open Scope N_scope.

(** C129: a location report with additional items is not restored ... *)
Theorem C129_refuted : forall o now h w c, hdr_wf h -> bytes_ok w = true -> a_len (h_attr h) = N.of_nat (length w) -> (28 < length w)%nat ->
  civil_valid now -> year_window now -> gbk_again o (repeat 0 12) ->
  let p := header_layout h ++ w in escapes (p ++ [xor_sum p]) c ->
  exists q m, decodePacket o (framed c) = Ok q /\ msgDecode o now K0200 q = Ok m /\ encodePacket o m <> Ok (framed c).
Proof. exact items_lost. Qed.
Print Assumptions C129_refuted.
(** ... of the messages without a parameter list exactly the canonical ones are ... *)
Theorem C129_partial : forall o now k h w c, hdr_wf h -> k <> K8103 -> k <> K0104 -> bytes_ok w = true -> a_len (h_attr h) = N.of_nat (length w) ->
  civil_valid now -> year_window now -> gbk_again o (repeat 0 12) -> fits k (a_ver (h_attr h)) (length w) w [] ->
  let p := header_layout h ++ w in escapes (p ++ [xor_sum p]) c ->
  exists q m, decodePacket o (framed c) = Ok q /\ msgDecode o now k q = Ok m
    /\ (encodePacket o m = Ok (framed c) <-> canonical o k (a_ver (h_attr h)) w).
Proof. exact relay. Qed.
Print Assumptions C129_partial.
(** ... and of those with one, exactly those in which every length byte is that of its value, every value comes back, and nothing follows the list *)
Theorem C129_8103_partial : forall o now h w c, hdr_wf h -> bytes_ok w = true -> a_len (h_attr h) = N.of_nat (length w) -> gbk_short o ->
  fits K8103 (a_ver (h_attr h)) (length w) w [] ->
  let p := header_layout h ++ w in escapes (p ++ [xor_sum p]) c ->
  exists q m, decodePacket o (framed c) = Ok q /\ msgDecode o now K8103 q = Ok m
    /\ (encodePacket o m = Ok (framed c) <-> list_again o w).
Proof. exact relay_8103. Qed.
Print Assumptions C129_8103_partial.
Theorem C129_0104_partial : forall o now h w c, hdr_wf h -> bytes_ok w = true -> a_len (h_attr h) = N.of_nat (length w) -> gbk_short o ->
  fits K0104 (a_ver (h_attr h)) (length w) w [] ->
  let p := header_layout h ++ w in escapes (p ++ [xor_sum p]) c ->
  exists q m, decodePacket o (framed c) = Ok q /\ msgDecode o now K0104 q = Ok m
    /\ (encodePacket o m = Ok (framed c) <-> list_again o (skipn 2 w)).
Proof. exact relay_0104. Qed.
Print Assumptions C129_0104_partial.
(** a location report, the same with a mileage item, a parameter list *)
Definition w28 : bytes := [0;0;0;0; 0;0;0;3; 1;220;136;16; 7;61;138;101; 0;10; 2;88; 0;90; 0x23;0x06;0x01;0x12;0;0].
Definition w34 : bytes := w28 ++ [1; 4; 0; 0; 0; 100].
Definition wlist : bytes := [2; 0;0;0;1;4; 0;0;0;60; 0;0;0x00;0x83;3; 65;66;67].
Example C129_ex : hdr_wf (with_len h13 28) /\ fits K0200 V2013 28 w28 [] /\ canonical o0 K0200 V2013 w28 /\ bytes_ok w28 = true
  /\ civil_valid t_now /\ year_window t_now /\ gbk_again o0 (repeat 0 12)
  /\ fits K0200 V2013 34 w34 [] /\ ~ canonical o0 K0200 V2013 w34
  /\ list_again o0 wlist /\ bytes_ok wlist = true /\ fits K8103 V2013 18 wlist [] /\ gbk_short o0.
Proof.
  split; [repeat split; reflexivity|]. split; [cbn; lia|]. split.
  { split; [reflexivity|]. cbn. repeat constructor; cbn; discriminate. }
  split; [reflexivity|]. split; [vm_compute; repeat split; intros; discriminate|]. split; [vm_compute; repeat split; intros; discriminate|]. split; [reflexivity|].
  split; [cbn; lia|]. split; [intros [H _]; discriminate|]. split.
  2:{ split; [reflexivity|]. split.
    - split; [cbn; lia|]. split; [cbn; lia|]. exists PDword. split; [reflexivity|]. split; [discriminate|]. split; [cbn; lia|].
      split; [cbn; lia|]. exists PGBK. split; [reflexivity|]. split; [discriminate|]. split; [cbn; lia|exact I].
    - intros g H. unfold written. cbn [o0 o_gbk_enc o_gbk_dec]. unfold ascii. destruct (forallb _ g) eqn:E; [rewrite E; exact H|cbn; lia]. }
  exists [[0;0;0;1;4; 0;0;0;60]; [0;0;0x00;0x83;3; 65;66;67]]. split; [reflexivity|]. split; [cbn; lia|].
  constructor; [|constructor; [|constructor]].
  - exists 1, PDword, [0;0;0;60]. repeat split; cbn; lia.
  - exists 0x83, PGBK, [65;66;67]. repeat split; cbn; lia.
Qed.
