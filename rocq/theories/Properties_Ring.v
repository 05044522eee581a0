(** Property theorems C37-C40, C62, C63: ring buffer and serial numbers. *)
From Verif Require Import Base ProgM RingM SpecRing ProgP RingP LatestP.
Local Open Scope Z_scope.

(** C37: Latest is the last value written, except when the number of writes is a multiple
    of the size, when it is nil *)
Theorem C37_latest_partial : forall A l n (ops : list (rop A)) rs r, (0 < n)%nat ->
  run (ringOps l ops) (newRing (Z.of_nat n)) = (Ok rs, r) ->
  run (ringLatest l) r =
  (Ok (if (length (written ops) mod n =? 0)%nat then None else last_of (written ops)), r).
Proof. exact @ring_latest. Qed.
Print Assumptions C37_latest_partial.
Theorem C37_refuted : forall A l n k (w : A) ws, (0 < n)%nat -> length (w :: ws) = (k * n)%nat ->
  exists rs r, run (ringOps l (map RWrite (w :: ws))) (newRing (Z.of_nat n)) = (Ok rs, r)
    /\ run (ringLatest l) r = (Ok None, r).
Proof. exact @ring_latest_nil. Qed.
Print Assumptions C37_refuted.
Example C37_ex : exists r, run (ringOps 0 [RWrite 1; RRead; RWrite 2; RWrite 3; RWrite 4]) (newRing 3)
                           = (Ok [Some 1], r)
  /\ run (ringLatest 0) r = (Ok (Some 4), r)
  /\ fst (run (ringLatest 0) (snd (run (ringOps 0 (map RWrite [1; 2; 3])) (newRing 3)))) = Ok None.
Proof. eexists. split; [vm_compute; reflexivity|]. split; vm_compute; reflexivity. Qed.

(** C38: the window *)
Theorem C38_window : forall A l n (ops : list (rop A)), (0 < n)%nat ->
  exists rs r, run (ringOps l ops) (newRing (Z.of_nat n)) = (Ok rs, r)
    /\ window n (written ops) (rg_slots r) /\ length rs = reads_in ops
    /\ (forall pre post, ops = pre ++ RRead :: post ->
          exists v, nth_error rs (reads_in pre) = Some v
                    /\ slot_after n (written pre) (reads_in pre mod n) v)
    /\ ((n <= length (written ops))%nat ->
          exists x, nth_error (written ops) (length (written ops) - n) = Some x
                    /\ run (ringOldest l) r = (Ok (Some x), r))
    /\ ((length (written ops) < n)%nat -> run (ringOldest l) r = (Ok None, r)).
Proof. exact @ring_window. Qed.
Print Assumptions C38_window.
Example C38_ex : exists r,
  run (ringOps 0 [RWrite 1; RRead; RRead; RWrite 2; RWrite 3; RWrite 4; RRead; RRead]) (newRing 3)
  = (Ok [Some 1; None; Some 3; Some 4], r)
  /\ rg_slots r = [Some 4; Some 2; Some 3] /\ run (ringOldest 0) r = (Ok (Some 2), r).
Proof. eexists. split; [vm_compute; reflexivity|]. split; vm_compute; reflexivity. Qed.

(** C39: goroutines calling Write, Read, Oldest and Overwrite never index out of bounds *)
Theorem C39_bounds_partial : forall A l n (css : list (list (rcall A))) sch, (0 < n)%nat ->
  (forall cs, In cs css -> ~ In CLatest cs) ->
  let '(ps, r) := psteps (map (ringThread l) css) (newRing (Z.of_nat n)) sch in
  ring_ok r /\ forall p, In p ps -> p <> Ret Panic.
Proof. exact @ring_bounds. Qed.
Print Assumptions C39_bounds_partial.
(** ... and neither does Latest as long as Writer does not come back to 0 *)
Theorem C39_latest_partial : forall A l n (css : list (list (rcall A))) sch, (0 < n)%nat ->
  let at_ k := snd (psteps (map (ringThread l) css) (newRing (Z.of_nat n)) (firstn k sch)) in
  (forall k, (k < length sch)%nat -> rg_writer (at_ k) <> 0 -> rg_writer (at_ (S k)) <> 0) ->
  let '(ps, r) := psteps (map (ringThread l) css) (newRing (Z.of_nat n)) sch in
  ring_ok r /\ forall p, In p ps -> p <> Ret Panic.
Proof. exact @latest_bounds. Qed.
Print Assumptions C39_latest_partial.
Example C39_latest_ex :
  let css := [[CWrite (Some 7); CLatest]; [CLatest; CWrite (Some 8)]; [CLatest]] in
  let sch := [0; 0; 0; 0; 2; 1; 1; 0; 1; 1; 1; 1; 1; 1; 2; 2; 2; 0; 0; 0]%nat in
  let at_ k := snd (psteps (map (ringThread 0) css) (newRing 3) (firstn k sch)) in
  (forall k, (k < length sch)%nat -> rg_writer (at_ k) <> 0 -> rg_writer (at_ (S k)) <> 0)
  /\ fst (psteps (map (ringThread 0) css) (newRing 3) sch) = [Ret (Ok tt); Ret (Ok tt); Ret (Ok tt)]
  /\ at_ 20%nat = mkRing 3 [Some 7; Some 8; None] 0 2.
Proof.
  cbn zeta. split; [|split; vm_compute; reflexivity].
  intros k Hk. do 20 (destruct k as [|k]; [vm_compute; intros; congruence|]). cbn in Hk. lia.
Qed.
(** Latest does, when a concurrent Write wraps between its two reads of Writer; a buffer
    about to wrap is reached by size-1 writes *)
Theorem C39_refuted : forall A l (r : ring A) v,
  ring_ok r -> rg_writer r = rg_size r - 1 -> 2 <= rg_size r ->
  exists r', psteps [ringThread l [CLatest]; ringThread l [CWrite v]] r [0; 1; 1; 1; 1; 0; 0; 0]%nat
             = ([Ret Panic; Ret (Ok tt)], r') /\ ring_ok r'.
Proof. exact @latest_races. Qed.
Print Assumptions C39_refuted.
Example C39_ex :
  let r := snd (run (ringOps 0 (map RWrite [7; 8])) (newRing 3)) in
  ring_ok r /\ rg_writer r = rg_size r - 1 /\ 2 <= rg_size r
  /\ snd (psteps (map (ringThread 0) [[CWrite (Some 1); CRead]; [CWrite (Some 2)]; [COverwrite (Some 3)]])
       (newRing 2) [0; 1; 1; 1; 1; 0; 0; 0; 0; 2; 2; 0; 0; 0; 0; 0]%nat)
     = mkRing 2 [Some 1; Some 3] 1 1.
Proof. vm_compute. repeat split; discriminate. Qed.

(** C40: Overwrite never changes what Latest returns (it replaces what Oldest returns) *)
Theorem C40_refuted : forall A l (r : ring A) v, ring_ok r ->
  exists r', run (ringOverwrite l v) r = (Ok tt, r')
    /\ fst (run (ringLatest l) r') = fst (run (ringLatest l) r)
    /\ fst (run (ringOldest l) r') = Ok v.
Proof. exact @overwrite_latest. Qed.
Print Assumptions C40_refuted.
Example C40_ex :
  let r := snd (run (ringOps 0 (map RWrite [7; 8])) (newRing 3)) in
  ring_ok r /\ fst (run (ringLatest 0) r) = Ok (Some 8)
  /\ fst (run (ringLatest 0) (snd (run (ringOverwrite 0 (Some 9)) r))) = Ok (Some 8).
Proof. vm_compute. repeat split; discriminate. Qed.

Local Open Scope N_scope.
(** C62: the serial numbers of a session *)
Theorem C62_serials : forall l k,
  exists xs c, run (serials l k) 0 = (Ok xs, c) /\ length xs = k
    /\ (forall i, (i < k)%nat -> nth_error xs i = Some ((N.of_nat i + 1) mod 65536))
    /\ (forall i j, (i < j < k)%nat -> N.of_nat j < N.of_nat i + 65536 -> nth_error xs i <> nth_error xs j).
Proof. exact serials_cycle. Qed.
Print Assumptions C62_serials.
Example C62_ex : run (serials 0 3) 0 = (Ok [1; 2; 3], 3)
  /\ run (serials 0 4) 65533 = (Ok [65534; 65535; 0; 1], 1).
Proof. split; reflexivity. Qed.

(** C63: concurrent callers get distinct numbers as long as the counter does not wrap *)
Theorem C63_distinct_partial : forall n c0 sch, c0 + N.of_nat n <= 65535 ->
  let '(ps, c) := psteps (repeat (getNextSerialNum 0) n) c0 sch in
  c0 <= c <= c0 + N.of_nat n
  /\ (forall i p, nth_error ps i = Some p -> p <> Ret Panic)
  /\ (forall i x, nth_error ps i = Some (Ret (Ok x)) -> c0 < x <= c0 + N.of_nat n)
  /\ (forall i j x y, i <> j -> nth_error ps i = Some (Ret (Ok x)) ->
        nth_error ps j = Some (Ret (Ok y)) -> x <> y).
Proof. exact serials_distinct. Qed.
Print Assumptions C63_distinct_partial.
(** when it does, two callers can get the same number *)
Theorem C63_refuted : forall l, exists sch,
  psteps [getNextSerialNum l; getNextSerialNum l] 65535 sch = ([Ret (Ok 0); Ret (Ok 0)], 0).
Proof. exact serials_race. Qed.
Print Assumptions C63_refuted.
Example C63_ex : 7 + N.of_nat 3 <= 65535
  /\ psteps (repeat (getNextSerialNum 0) 3) 7 [2; 0; 1]%nat = ([Ret (Ok 9); Ret (Ok 10); Ret (Ok 8)], 10).
Proof. split; [discriminate|reflexivity]. Qed.
