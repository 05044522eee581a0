(** Which messages a reply is generated for (C144) *)
From stdpp Require Import gmap.
From Verif Require Import Base HexM TimeM HeaderM ParamsM GeoM MsgM PacketM FrameM ProgM RingM StateM ProcM ExampleData.
Local Open Scope N_scope.

(** the kind of message a reply of the kind [k] answers, for those that answer one kind only *)
Definition answers_one (k : mkind) : option mkind :=
  match k with
  | K0102 => Some K8100 | K0104 => Some K8104 | K1205 => Some K9205 | K8100 => Some K0100 | K8004 => Some K0004
  | _ => None
  end.
(** the replies, with their message ids *)
Definition reply_id (k : mkind) : option N :=
  match k with
  | K0001 => Some 0x0001 | K8001 => Some 0x8001 | K0102 => Some 0x0102 | K0104 => Some 0x0104
  | K1205 => Some 0x1205 | K8004 => Some 0x8004 | K8100 => Some 0x8100
  | _ => None
  end.

(** C144: a reply generated for a message it does not answer is an error, except that 0x8004 panics. *)
Theorem C144_wrong_partial : forall now k i inc, answers_one k = Some i -> kind_of (m_body inc) <> i -> k <> K8004 ->
  genOutgoing now k inc = Err ErrGenOutgoingMsg.
Proof.
  intros now k i [h b] Hk Hb H4. destruct k; try discriminate Hk; try contradiction; injection Hk as <-; cbn in Hb |- *;
    destruct b; try reflexivity; cbn in Hb; contradiction.
Qed.
Print Assumptions C144_wrong_partial.
Theorem C144_refuted : forall now inc, kind_of (m_body inc) <> K0004 -> genOutgoing now K8004 inc = Panic.
Proof. intros now [h b] Hb. destruct b; try reflexivity. cbn in Hb. contradiction. Qed.
Print Assumptions C144_refuted.
(** For the message it answers it is generated: of that kind, with the message's header but for the id. *)
Theorem C144_right : forall now k inc id, reply_id k = Some id ->
  (forall i, answers_one k = Some i -> kind_of (m_body inc) = i) ->
  exists b, genOutgoing now k inc = Ok (Some (mkMsg (mkHeader id (h_attr (m_hdr inc)) (h_proto (m_hdr inc)) (h_phone (m_hdr inc))
                                                               (h_sn (m_hdr inc)) (h_frag (m_hdr inc))) b))
    /\ kind_of b = k.
Proof.
  intros now k [h b] id Hi Ha. destruct k; try discriminate Hi; injection Hi as <-; cbn in Ha |- *;
    try (eexists; split; reflexivity); specialize (Ha _ eq_refl); destruct b; try discriminate Ha; eexists; split; reflexivity.
Qed.
Print Assumptions C144_right.
(** the serial number a reply acknowledges, the message id where it names one, and its result where it has one *)
Definition acked (b : body) : option N :=
  match b with
  | B0001 sn _ _ | B8001 sn _ _ | B0104 sn _ _ | B1205 sn _ _ _ | B8100 sn _ _ => Some sn
  | _ => None
  end.
Definition acked_id (b : body) : option N := match b with B0001 _ id _ | B8001 _ id _ => Some id | _ => None end.
Definition result (b : body) : option N := match b with B0001 _ _ r | B8001 _ _ r | B8100 _ r _ => Some r | _ => None end.
(** It acknowledges that message, with success; the authentication carries the code it was given, the time reply the time. *)
Theorem C144_content : forall now k inc m, genOutgoing now k inc = Ok (Some m) ->
  (forall sn, acked (m_body m) = Some sn -> sn = h_sn (m_hdr inc))
  /\ (forall id, acked_id (m_body m) = Some id -> id = h_id (m_hdr inc))
  /\ (forall r, result (m_body m) = Some r -> r = 0)
  /\ (forall n code imei ver, m_body m = B0102 n code imei ver ->
        (exists sn r, m_body inc = B8100 sn r code) /\ n = N.of_nat (length code) mod 256 /\ imei = [] /\ ver = [])
  /\ (forall t, m_body m = B8004 t -> t = Some now)
  /\ (forall sn c ps, m_body m = B0104 sn c ps -> c = 0 /\ ps = None)
  /\ (forall sn c q n, m_body m = B1205 sn c q n -> c = 0 /\ n = 0).
Proof.
  intros now k [h b] m H. destruct k; try discriminate H; cbn in H; try (destruct b; try discriminate H);
    injection H as <-; cbn; repeat split; intros; try congruence;
    repeat match goal with E : _ = B0102 _ _ _ _ |- _ => injection E as <- <- <- <- end; try reflexivity;
    repeat match goal with E : _ = B0104 _ _ _ |- _ => injection E as <- <- <- end; try reflexivity;
    repeat match goal with E : _ = B1205 _ _ _ _ |- _ => injection E as <- <- <- <- end; try reflexivity; eauto.
Qed.
Print Assumptions C144_content.
(** Nothing is generated for any other kind. *)
Theorem C144_none : forall now k inc, reply_id k = None -> genOutgoing now k inc = Ok None.
Proof. intros now k inc Hk. destruct k; try discriminate Hk; reflexivity. Qed.
Print Assumptions C144_none.
(** The processor only asks for a reply to the message it answers, so neither the error nor the panic is reached. *)
Theorem C144_reached : forall id ki k, In (id, (ki, Some k)) optionTable ->
  reply_id k <> None /\ forall i, answers_one k = Some i -> i = ki.
Proof.
  intros id ki k H. unfold optionTable in H. cbn [In] in H.
  repeat match goal with D : _ \/ _ |- _ => destruct D as [D|D] end; try contradiction;
    first [discriminate H|injection H as <- <- <-]; (split; [cbn; discriminate|cbn; intros i Hi; congruence]).
Qed.
Print Assumptions C144_reached.
Example C144_ex : answers_one K1205 = Some K9205 /\ kind_of (m_body (mkMsg h13 B0002)) <> K9205
  /\ reply_id K8100 = Some 0x8100 /\ In (0x9205, (K9205, Some K1205)) optionTable
  /\ genOutgoing t_now K8001 (mkMsg h13 B0002) = Ok (Some (mkMsg (hdr_set_id h13 0x8001) (B8001 (h_sn h13) (h_id h13) 0))).
Proof. repeat split; try discriminate; try reflexivity. cbn. auto 20. Qed.
