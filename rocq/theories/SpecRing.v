(** Specification vocabulary for the ring buffer and the serial numbers *)
From Verif Require Import Base ProgM RingM.

(** A buffer of [n] slots into which the values [ws] were written in this order holds
    exactly the last [n] of them, the j-th value in slot j mod n; slots never written are
    empty. *)
Definition window {A} (n : nat) (ws : list A) (slots : list (option A)) : Prop :=
  length slots = n
  /\ (forall j x, nth_error ws j = Some x -> length ws <= j + n ->
        nth_error slots (j mod n) = Some (Some x))
  /\ (forall i, length ws <= i < n -> nth_error slots i = Some None).
(** what slot [i] holds after writing [ws] *)
Definition slot_after {A} (n : nat) (ws : list A) (i : nat) (v : option A) : Prop :=
  (exists j x, nth_error ws j = Some x /\ j mod n = i /\ length ws <= j + n /\ v = Some x)
  \/ (length ws <= i /\ v = None).
(** the last element *)
Definition last_of {A} (l : list A) : option A :=
  match rev l with [] => None | x :: _ => Some x end.

(** a sequence of calls by one goroutine *)
Inductive rop (A : Type) : Type := RWrite (v : A) | RRead.
Arguments RWrite {A} v.
Arguments RRead {A}.
Definition written {A} (ops : list (rop A)) : list A :=
  flat_map (fun o => match o with RWrite v => [v] | RRead => [] end) ops.
Definition reads_in {A} (ops : list (rop A)) : nat :=
  length (filter (fun o => match o with RRead => true | _ => false end) ops).

(** the buffer is usable: positions and container within the size *)
Definition ring_ok {A} (r : ring A) : Prop :=
  (0 < rg_size r)%Z /\ length (rg_slots r) = Z.to_nat (rg_size r)
  /\ (0 <= rg_reader r < rg_size r)%Z /\ (0 <= rg_writer r < rg_size r)%Z.

Section Calls.
Context {A : Type}.
(** one goroutine calling Write and Read *)
Fixpoint ringOps (l : nat) (ops : list (rop A)) : prog (ring A) (list (option A)) :=
  match ops with
  | [] => ret []
  | RWrite v :: t => (ringWrite l (Some v) ;;; ringOps l t)%prog
  | RRead :: t => (x <- ringRead l ;; xs <- ringOps l t ;; ret (x :: xs))%prog
  end.

(** what a goroutine may do with the buffer *)
Inductive rcall : Type := CWrite (v : option A) | CRead | COldest | COverwrite (v : option A) | CLatest.
Definition ringCall (l : nat) (c : rcall) : prog (ring A) unit :=
  match c with
  | CWrite v => ringWrite l v
  | CRead => (ringRead l ;;; ret tt)%prog
  | COldest => (ringOldest l ;;; ret tt)%prog
  | COverwrite v => ringOverwrite l v
  | CLatest => (ringLatest l ;;; ret tt)%prog
  end.
Fixpoint ringThread (l : nat) (cs : list rcall) : prog (ring A) unit :=
  match cs with [] => ret tt | c :: t => (ringCall l c ;;; ringThread l t)%prog end.

End Calls.
Arguments rcall : clear implicits.

(** [k] calls of GetNextSerialNum *)
Fixpoint serials (l : nat) (k : nat) : prog N (list N) :=
  match k with
  | O => ret []
  | S k' => (x <- getNextSerialNum l ;; xs <- serials l k' ;; ret (x :: xs))%prog
  end.

