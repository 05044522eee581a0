(** C136: serial numbers and the order of the commands sent to one device *)
From Coq Require Import Permutation.
From stdpp Require Import gmap.
From Verif Require Import Base HexM TimeM HeaderM ParamsM GeoM MsgM PacketM FrameM ProgM RingM
  StateM ProcM ServerM ConcM SpecState SpecCmd CmdOrderP ExampleData ExampleState Properties_Server.
Local Open Scope N_scope.

(** C136: the requests of clients who wait for the answer before the next one are sent in this order with the next
    serial numbers.  Of any number of concurrent requests, under every schedule, each that has finished has written
    exactly one frame, with a serial number of its own from the next ones; requests that have not finished have
    written nothing, and nothing else changes. *)
Theorem C136_turn_partial : forall e s ph d x k, consistent s -> devAt s ph = Some d -> sessAt s (d_sid d) = Some x ->
  st_conns s !! ss_conn x = Some k -> cn_open k = true -> forall reqs, Forall (sendable e) reqs ->
  exists sl outs, st_byID s !! d_sid d = Some sl
    /\ in_turn e ph reqs s = ordered s sl x ((ss_sn x + N.of_nat (length reqs)) mod 65536) (cn_out k ++ outs)
    /\ Forall2 (fun o f => encodePacket (e_o e) (order_for d (fst o) (snd o)) = Ok f)
         (combine reqs (List.map (fun j => (ss_sn x + 1 + N.of_nat j) mod 65536) (seq 0 (length reqs)))) outs.
Proof. exact cmd_turn. Qed.
Print Assumptions C136_turn_partial.
Theorem C136_any_partial : forall e s ph d x k, consistent s -> devAt s ph = Some d -> sessAt s (d_sid d) = Some x ->
  st_conns s !! ss_conn x = Some k -> cn_open k = true -> forall reqs sch, Forall (sendable e) reqs ->
  ss_sn x + N.of_nat (length reqs) <= 65535 ->
  exists sl sn ord outs, st_byID s !! d_sid d = Some sl
    /\ snd (running e (List.map (handling ph) reqs) s sch) = ordered s sl x sn (cn_out k ++ outs)
    /\ ss_sn x <= sn <= ss_sn x + N.of_nat (length reqs)
    /\ frames_of e d reqs ord outs
    /\ List.NoDup (List.map fst ord) /\ List.NoDup (List.map snd ord)
    /\ (forall i n, In (i, n) ord -> ss_sn x < n <= sn)
    /\ forall i p, nth_error (fst (running e (List.map (handling ph) reqs) s sch)) i = Some p ->
         (forall q, p = Ret q -> q = Ok tt) /\ (p = Ret (Ok tt) <-> In i (List.map fst ord)).
Proof. exact cmd_any. Qed.
Print Assumptions C136_any_partial.
(** The order is any order: whichever request gets which of the next serial numbers and in whichever order the frames
    are to be written, there is a schedule that does it; *)
Theorem C136_every_partial : forall e s ph d x k, consistent s -> devAt s ph = Some d -> sessAt s (d_sid d) = Some x ->
  st_conns s !! ss_conn x = Some k -> cn_open k = true -> forall reqs ord, Forall (sendable e) reqs ->
  ss_sn x + N.of_nat (length reqs) <= 65535 ->
  Permutation (List.map fst ord) (seq 0 (length reqs)) ->
  Permutation (List.map snd ord) (List.map (fun j => ss_sn x + 1 + N.of_nat j) (seq 0 (length reqs))) ->
  exists sl outs sch, st_byID s !! d_sid d = Some sl /\ frames_of e d reqs ord outs
    /\ running e (List.map (handling ph) reqs) s sch =
       (List.map (fun _ => Ret (Ok tt)) reqs, ordered s sl x (ss_sn x + N.of_nat (length reqs)) (cn_out k ++ outs)).
Proof. exact cmd_every. Qed.
Print Assumptions C136_every_partial.
(** so of two concurrent requests the one with the later serial number may be written first. *)
Theorem C136_refuted : forall e s ph d x k, consistent s -> devAt s ph = Some d -> sessAt s (d_sid d) = Some x ->
  st_conns s !! ss_conn x = Some k -> cn_open k = true -> forall r1 r2, sendable e r1 -> sendable e r2 ->
  ss_sn x + 2 <= 65535 ->
  exists f1 f2 sch, encodePacket (e_o e) (order_for d r1 (ss_sn x + 2)) = Ok f1
    /\ encodePacket (e_o e) (order_for d r2 (ss_sn x + 1)) = Ok f2
    /\ st_conns (snd (running e [handling ph r1; handling ph r2] s sch)) !! ss_conn x
       = Some (mkConn true (cn_out k ++ [f1; f2])).
Proof.
  intros e s ph d x k C Hd Hx Hk Ho r1 r2 H1 H2 Hb.
  destruct (cmd_every e s ph d x k C Hd Hx Hk Ho [r1; r2] [(0%nat, ss_sn x + 2); (1%nat, ss_sn x + 1)]) as (sl & outs & sch & _ & F & E).
  - constructor; [exact H1|]. constructor; [exact H2|]. constructor.
  - exact Hb.
  - reflexivity.
  - cbn [length seq List.map snd]. replace (ss_sn x + 1 + N.of_nat 0) with (ss_sn x + 1) by lia.
    replace (ss_sn x + 1 + N.of_nat 1) with (ss_sn x + 2) by lia. apply perm_swap.
  - unfold frames_of in F. inversion F as [|o f1 t u (ra & Ra & Ea) F']; subst. inversion F' as [|o' f2 t' u' (rb & Rb & Eb) F'']; subst.
    inversion F''; subst. cbn in Ra, Rb. injection Ra as <-. injection Rb as <-. cbn [fst snd] in Ea, Eb.
    exists f1, f2, sch. split; [exact Ea|]. split; [exact Eb|]. cbn [List.map] in E. rewrite E. cbn [snd]. apply at_conn.
Qed.
Print Assumptions C136_refuted.
(** the first terminal of the example histories; three requests, the last one finishing first *)
Example C136_ex : consistent s2 /\ devAt s2 phone12 = Some d1 /\ sessAt s2 (d_sid d1) = Some x1
  /\ (exists k, st_conns s2 !! ss_conn x1 = Some k /\ cn_open k = true)
  /\ Forall (sendable e0) [RGet; RPut true ps_ok; RGet] /\ ss_sn x1 + 3 <= 65535
  /\ Permutation [2; 0; 1]%nat (seq 0 3)
  /\ Permutation [ss_sn x1 + 2; ss_sn x1 + 1; ss_sn x1 + 3] (List.map (fun j => ss_sn x1 + 1 + N.of_nat j) (seq 0 3)).
Proof.
  split; [exact s2_ok|]. split; [exact s2_d1|]. split; [vmr|]. split; [eexists; split; [vmr|reflexivity]|].
  split. { constructor; [exact I|]. constructor; [eexists; vmr|]. constructor; [exact I|constructor]. }
  split; [vm_compute; discriminate|]. split.
  - apply (Permutation_trans (perm_swap 0 2 [1])%nat). constructor. apply perm_swap.
  - replace (ss_sn x1 + 1 + N.of_nat 0) with (ss_sn x1 + 1) by lia. apply perm_swap.
Qed.
