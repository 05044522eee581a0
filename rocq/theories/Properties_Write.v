(** C113: what is written to connections while any number of goroutines run *)
From stdpp Require Import gmap.
From Verif Require Import Base HexM TimeM HeaderM ParamsM GeoM MsgM PacketM FrameM ProgM RingM StateM ProcM ServerM ConcM
  SpecCodec SpecState SpecConc SpecSplit SpecWrite FrameP ConcP WriteP ExampleData ExampleState Properties_Split.
Local Open Scope N_scope.

(** C113: under every schedule what connections received is a log of the goroutines' writes: a goroutine that serves
    a connection wrote replies to frames it received, in their order, at most one to each and only to its own connection,
    an API call at most its command, the others nothing *)
Theorem C113_log : forall e s gs sch, sane s -> Forall (placed s) gs -> new_conns s gs ->
  exists log, (forall c, sent (snd (running e gs s sch)) c = sent s c ++ to_conn c log)
    /\ (forall x, In x log -> exists g, nth_error gs (fst x) = Some g)
    /\ forall i g, nth_error gs i = Some g -> may_write e s g (by_gor i log).
Proof. exact writes_log. Qed.
Print Assumptions C113_log.
(** ... when no write fails, everything written is whole frames ... *)
Theorem C113_whole : forall e s gs sch c, sane s -> Forall (placed s) gs -> new_conns s gs -> Forall writes_succeed gs ->
  exists bs, sent (snd (running e gs s sch)) c = sent s c ++ bs /\ Forall (whole_frame e) bs.
Proof. exact writes_whole. Qed.
Print Assumptions C113_whole.
(** ... and however the bytes arrive at the other side, it reads the frames as they were written *)
Theorem C113_read : forall e s gs sch c str rest, sane s -> Forall (placed s) gs -> new_conns s gs -> Forall writes_succeed gs ->
  Forall (whole_frame e) (sent s c) -> ~ In [] (st_next str) ->
  st_bytes str ++ rest = concat (sent (snd (running e gs s sch)) c) ->
  exists later, sent (snd (running e gs s sch)) c = frames str ++ later /\ (rest = [] -> later = []).
Proof. exact writes_read. Qed.
Print Assumptions C113_read.

(** two commands and the reply to a heartbeat on one connection, while another terminal enters *)
Definition gs113 : list goroutine :=
  [GServe 0 [(Ok f_heart1, None); (Ok f_loc1, None)]; GGetParams phone12 None; GPutParams phone12 false (mkParams phone12 0 []) None; GConn 7 [51; 58; 51] [(Ok f_reg2, None)]].
Definition sch113 : list nat := (List.concat (repeat [1; 0; 3; 2] 60))%nat.
Definition hdr113 (b : bytes) : header := match decodePacket o0 b with Ok p => pk_hdr p | _ => hid 0 end.
Example C113_ex : sane s2 /\ Forall (placed s2) gs113 /\ new_conns s2 gs113 /\ Forall writes_succeed gs113
  /\ Forall (whole_frame e0) (sent s2 0%nat)
  /\ List.map (fun p => match p with Ret (Ok _) => true | _ => false end) (fst (running e0 gs113 s2 sch113)) = [true; true; true; true]
  /\ List.map (fun c => length (sent s2 c)) [0; 1; 7]%nat = [3; 1; 0]%nat
  /\ List.map (fun c => length (sent (snd (running e0 gs113 s2 sch113)) c)) [0; 1; 7]%nat = [7; 1; 1]%nat
  /\ List.map (fun b => h_id (hdr113 b)) (skipn 3 (sent (snd (running e0 gs113 s2 sch113)) 0%nat)) = [0x8104; 0x8001; 0x8103; 0x8001].
Proof.
  split; [exact s2_sane|]. split; [|split; [|split; [|split; [|split; [vmr|split; [vmr|split; vmr]]]]]].
  - repeat constructor. exists x1. exact s2_x1.
  - intros c addr ins [H|[H|[H|[H|[]]]]]; try discriminate H. injection H as <- _ _. vmr.
  - repeat constructor.
  - assert (E : sent s2 0%nat = [nth 0 (sent s2 0%nat) []; nth 1 (sent s2 0%nat) []; nth 2 (sent s2 0%nat) []]) by vmr.
    rewrite E. constructor; [|constructor; [|constructor; [|constructor]]].
    + exists (mkMsg (hdr113 (nth 0 (sent s2 0%nat) [])) (B8100 7 0 code1)). vmr.
    + exists (mkMsg (hdr113 (nth 1 (sent s2 0%nat) [])) (B8001 7 0x0102 0)). vmr.
    + exists (mkMsg (hdr113 (nth 2 (sent s2 0%nat) [])) (B8001 7 0x0200 0)). vmr.
Qed.
(** when a write fails in the middle of a frame the other side loses what follows: the goroutine goes on serving *)
Example C113_cut_ex : let gs := [GServe 0 [(Ok f_heart1, Some (5%nat, ErrIO)); (Ok f_loc1, None)]] in
  let t := snd (running e0 gs s2 (repeat 0%nat 60)) in
  List.map (@length N) (skipn 3 (sent t 0%nat)) = [5; 20]%nat
  /\ List.map (@length N) (frames (mkStream (concat (skipn 3 (sent t 0%nat))) [] ErrEOF)) = [6]%nat.
Proof. split; vmr. Qed.
