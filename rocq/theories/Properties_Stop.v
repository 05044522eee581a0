(** C127, C128: terminals that stop, and the server's Stop *)
From stdpp Require Import gmap.
From Verif Require Import Base HexM TimeM HeaderM ParamsM GeoM MsgM PacketM FrameM ProgM RingM StateM ProcM ServerM ClientM StopM SpecState SpecStop
  ServerP StopP ExampleData ExampleState Properties_State.
Local Open Scope N_scope.

(** C127: whatever it has read and however the reading has ended, the connection is still open and the terminal's other
    goroutines go on sending *)
Theorem C127_refuted : forall e sl ins s x k q s1, consistent s -> st_sess s !! sl = Some x -> st_conns s !! ss_conn x = Some k -> cn_open k = true ->
  run (clientLoop e sl ins) s = (q, s1) ->
  exists out, st_conns s1 !! ss_conn x = Some (mkConn true (cn_out k ++ out))
    /\ forall m f, encodePacket (e_o e) m = Ok f ->
         exists s2, run (clientSend e sl m None) s1 = (Ok tt, s2) /\ st_conns s2 !! ss_conn x = Some (mkConn true (cn_out k ++ out ++ [f])).
Proof. exact client_stays. Qed.
Print Assumptions C127_refuted.
(** Stop closes it, the reading ends with the next look at the connection, and nothing is sent any more *)
Theorem C127_stop_partial : forall e sl s x k, st_sess s !! sl = Some x -> st_conns s !! ss_conn x = Some k ->
  exists s1, run (clientStop sl) s = (Ok tt, s1) /\ s1 = set_conns (<[ss_conn x := mkConn false (cn_out k)]>) s
    /\ (forall w t, run (clientLoop e sl ((Err ErrNetClosed, w) :: t)) s1 = (Ok true, s1))
    /\ (forall m f w, encodePacket (e_o e) m = Ok f -> run (clientSend e sl m w) s1 = (Ok tt, s1)).
Proof. exact client_stop. Qed.
Print Assumptions C127_stop_partial.
(** a client that knows no device gets an answer: Start returns *)
Definition s_cli : st := w_st (history e0 1000 [EAccept 0 addr1]).
Definition f_ans : bytes := frame (mkMsg (hid 0x8001) (B8001 7 0x0002 0)).
Example C127_ex : consistent s_cli /\ st_sess s_cli !! 0%nat = Some (mkSession addr1 0 0) /\ st_conns s_cli !! 0%nat = Some (mkConn true [])
  /\ fst (run (processConnRead e0 0 0 (Ok f_ans) None) s_cli) = Err ErrActiveClose
  /\ fst (run (clientLoop e0 0 [(Ok f_ans, None)]) s_cli) = Ok true /\ exists f, encodePacket o0 (mkMsg (hid 0x0002) B0002) = Ok f.
Proof.
  split; [apply (wo_ok _ (history_ok e0 1000 [EAccept 0 addr1]))|]. split; [vmr|]. split; [vmr|]. split; [vmr|]. split; [vmr|]. eexists. vmr.
Qed.

(** C128: after Stop no connection is accepted *)
Theorem C128_accepts_partial : forall e vs x, let y := servings e vs (serverStop x) in
  sv_open y = false /\ w_live (sv_w y) ⊆ w_live (sv_w x).
Proof. intros e vs x. destruct (stopped_server e vs x) as (H1 & _ & _ & H2). exact (conj H1 H2). Qed.
Print Assumptions C128_accepts_partial.
(** ... but the connections there are stay open and are served as if it had not been called, and the loop goes on, with
    one more error logged in every round *)
Theorem C128_refuted : forall e vs x, let y := servings e vs (serverStop x) in
  sv_w (serverStop x) = sv_w x
  /\ sv_w y = fold_left (step e) (without_accepts vs) (sv_w x) /\ sv_lines y = (sv_lines x + rounds vs)%nat.
Proof. intros e vs x. destruct (stopped_server e vs x) as (_ & H1 & H2 & _). exact (conj eq_refl (conj H1 H2)). Qed.
Print Assumptions C128_refuted.
(** a connection is accepted, the server stopped, another one is refused, the first one registers a device *)
Example C128_ex : let x := servings e0 [VAccept (Some (0%nat, addr1))] (mkServing true (world0 1000) 0) in
  let y := servings e0 [VAccept (Some (1%nat, addr2)); VOther (EFrame 0 (Ok f_reg1) None); VAccept None] (serverStop x) in
  elements (w_live (sv_w x)) = [0%nat] /\ elements (w_live (sv_w y)) = [0%nat] /\ sv_lines y = 2%nat /\ is_Some (devAt (w_st (sv_w y)) phone12)
  /\ st_conns (w_st (sv_w y)) !! 1%nat = None.
Proof. split; [vmr|]. split; [vmr|]. split; [vmr|]. split; [eexists; vmr|vmr]. Qed.
