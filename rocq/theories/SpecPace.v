(** Specification vocabulary for the pauses of the server (C130, C131) *)
From stdpp Require Import gmap.
From Verif Require Import Base HexM HeaderM ParamsM MsgM PacketM ProgM StateM ProcM ServerM PaceM SpecCodec SpecState SpecReg SpecRelease SpecTimed.
Local Open Scope Z_scope.

(** the events of a run when the clock is not looked at *)
Definition untimed1 (p : pworld) (pe : pevent) : list event :=
  match pe with
  | PArrive _ _ _ | POther (EFrame _ _ _) | POther (EClock _) => []
  | PServe sl => match next_in p sl with Some (_, (r, x)) => [EFrame sl r x] | None => [] end
  | PPass d => [EClock (p_clock p + Z.of_N d)]
  | POther ev => [ev]
  end.
Fixpoint untimed (e : env) (p : pworld) (pes : list pevent) : list event :=
  match pes with
  | [] => []
  | pe :: pes' => untimed1 p pe ++ untimed e (pace e p pe) pes'
  end.
(** what a goroutine has handled: when it arrived, when it was handled, the pause after it *)
Record handling : Type := mkHandling { hg_arrived : Z; hg_at : Z; hg_pause : Z }.
Definition served1 (e : env) (sl : nat) (p : pworld) (pe : pevent) : list handling :=
  match pe with
  | PServe sl' =>
      if decide (sl' = sl) then
        match next_in p sl with
        | Some (t, (r, x)) => [mkHandling t (p_clock p) (nap e (w_st (p_w p)) sl r x)]
        | None => []
        end
      else []
  | _ => []
  end.
Fixpoint served (e : env) (sl : nat) (p : pworld) (pes : list pevent) : list handling :=
  match pes with
  | [] => []
  | pe :: pes' => served1 e sl p pe ++ served e sl (pace e p pe) pes'
  end.
(** Time only passes while no goroutine has anything to do: as prompt as a server can be. *)
Fixpoint prompt (e : env) (p : pworld) (pes : list pevent) : Prop :=
  match pes with
  | [] => True
  | pe :: pes' =>
      match pe with
      | PPass d => forall sl, sl ∈ w_live (p_w p) -> p_in p sl <> [] -> p_clock p + Z.of_N d <= Z.max (p_clock p) (p_wake p sl)
      | _ => True
      end /\ prompt e (pace e p pe) pes'
  end.
(** Each is handled when it has arrived and the pause after the one before it is over, the first one not before [z]. *)
Fixpoint successive (z : Z) (l : list handling) : Prop :=
  match l with
  | [] => True
  | x :: l' => hg_at x = Z.max (hg_arrived x) z /\ successive (hg_at x + hg_pause x) l'
  end.
(** Each is handled after it has arrived and after the pause of the one before it. *)
Fixpoint not_before (z : Z) (l : list handling) : Prop :=
  match l with
  | [] => True
  | x :: l' => z <= hg_at x /\ hg_arrived x <= hg_at x /\ not_before (hg_at x + hg_pause x) l'
  end.
(** how many of them failed from the time [a] to before [b] *)
Definition failing (a b : Z) (l : list handling) : nat :=
  length (List.filter (fun x => (0 <? hg_pause x) && (a <=? hg_at x) && (hg_at x <? b)) l).
(** an error that does not end the connection *)
Definition mistaken (e : env) (s : st) (sl : nat) (r : res bytes) (x : wres) : Prop :=
  exists y er, st_sess s !! sl = Some y /\ fst (run (processConnRead e sl (ss_conn y) r x) s) = Err er
    /\ ~ In er [ErrEOF; ErrClosedPipe; ErrNetClosed; ErrDeviceNotFound].
(** a frame with a packet in one piece and an id the server does not know *)
Definition unknown_frame (e : env) (frm : bytes) : Prop :=
  exists p, decodePacket (e_o e) frm = Ok p /\ fragment (pk_hdr p) = false
    /\ ~ In (h_id (pk_hdr p)) [0x0001; 0x0002; 0x0003; 0x0100; 0x0102; 0x0104; 0x0200; 0x1205;
                               0x8001; 0x8100; 0x8103; 0x8104; 0x9205]%N.
(** a heartbeat of the phone in one piece *)
Definition beat_frame (e : env) (ph : str) (frm : bytes) : Prop :=
  exists p, decodePacket (e_o e) frm = Ok p /\ fragment (pk_hdr p) = false /\ h_id (pk_hdr p) = 0x0002%N /\ h_phone (pk_hdr p) = ph.
(** Between any two messages of the list, arrival and pause of each, the pauses after the first one and before the
    second one take at most [K] longer than the time between their arrivals. *)
Definition lag (K : Z) (l : list (Z * Z)) : Prop :=
  forall l1 a n l2 a' n' l3, l = l1 ++ (a, n) :: l2 ++ (a', n') :: l3 ->
    a + (n + fold_right Z.add 0 (List.map snd l2)) <= a' + K.
(** all messages of a connection: the ones handled, then the ones waiting at the end of the run *)
Definition arrivals (e : env) (sl : nat) (p : pworld) (pes : list pevent) : list (Z * Z) :=
  List.map (fun x => (hg_arrived x, hg_pause x)) (served e sl p pes) ++ List.map (fun i => (fst i, 0)) (p_in (paces e p pes) sl).
(** nothing the phone sends comes by another connection than that of [sl] *)
Definition only_by (e : env) (ph : str) (sl : nat) (p : pworld) (pes : list pevent) : Prop :=
  forall pes1 sl' pes2, pes = pes1 ++ PServe sl' :: pes2 -> sl' <> sl ->
    let q := paces e p pes1 in forall ev, In ev (untimed1 q (PServe sl')) -> ~ speaks e ph (p_w q) ev.
(** the goroutine of [sl] runs during the whole run *)
Definition goes_on (e : env) (sl : nat) (p : pworld) (pes : list pevent) : Prop :=
  forall pes1 pes2, pes = pes1 ++ pes2 -> sl ∈ w_live (p_w (paces e p pes1)).
(** no event of the run ends the registration of the phone *)
Definition stays_in (e : env) (ph : str) (p : pworld) (pes : list pevent) : Prop :=
  forall pes1 pe pes2, pes = pes1 ++ pe :: pes2 ->
    let q := paces e p pes1 in forall ev, In ev (untimed1 q pe) -> ~ leaves e ph (p_w q) ev.
(** Every keepalive check of the phone comes at most a minute after [t], or a heartbeat of the phone has arrived by
    the connection of [sl] at most a minute before it and more than [K] before it. *)
Definition beats_arrive (e : env) (ph : str) (sl : nat) (K t : Z) (p : pworld) (pes : list pevent) : Prop :=
  forall pes1 pes2, pes = pes1 ++ POther (ETick ph) :: pes2 -> let c := p_clock (paces e p pes1) in
    c <= t + 60000 \/ exists l1 frm x l2, pes1 = l1 ++ PArrive sl (Ok frm) x :: l2 /\ beat_frame e ph frm
      /\ let a := p_clock (paces e p l1) in c - 60000 <= a /\ a + K < c.
