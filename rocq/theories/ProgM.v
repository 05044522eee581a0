(** Goroutines as trees of atomic actions, run alone or interleaved *)
From Verif Require Import Base.

(** The mutexes: one of each cache in storage, and TCPServer.mutex (tcp_server.go:23). *)
Inductive mutex : Type := MDev | MGeo | MParam | MSeg | MSess | MServ.
(** Memory that goroutines share. *)
Inductive cell : Type :=
| CDevMaps               (* storage/device_cache.go:15-16 cacheByPlate, cacheByPhone *)
| CDev (l : nat)         (* the mutable fields of the Device at l *)
| CGeoMap                (* storage/geo_cache.go:17 *)
| CRingSlots (l : nat)   (* RingBuffer.Container at l *)
| CRingReader (l : nat) | CRingWriter (l : nat)
| CParamMap              (* storage/param_cache.go:14 *)
| CParamList (l : nat) | CParamCnt (l : nat) (* DeviceParams.Params and .ParamCnt at l (ParamHeapM.v) *)
| CSegMap                (* storage/segment_cache.go:11 and its entries *)
| CSessMap               (* storage/session_cache.go:19 *)
| CSerial (l : nat)      (* Session.serialNumber at l *)
| CTimer                 (* gron's job list, internally synchronised *)
| CConn (c : nat)        (* a net.Conn, internally synchronised *)
| CClock
| CHold (m : mutex) | CFree (m : mutex). (* not memory: Lock and Unlock of m as actions of their own *)
(** How an access is synchronised: by the mutex of a cache, by sync/atomic (or by the
    internal synchronisation of net and gron), or not at all. *)
Inductive sync : Type := Locked (m : mutex) | Atomic | Plain.
Record access : Type := mkAcc { ac_cell : cell; ac_write : bool; ac_sync : sync }.

(** A goroutine: it is finished with a result, or performs one atomic action (a change of
    the shared state [f]) and continues depending on the state it saw.  A method that
    locks its mutex for its whole body is one action; every other access to shared memory
    is an action of its own.  A mutex that is held across several actions is taken and given
    back by actions of their own, [lock] and [unlock].  The list of accesses does not affect
    what an action does: it serves to define data races, and the blocking of goroutines in
    LockM.v. *)
Inductive prog (S A : Type) : Type :=
| Ret (r : res A)
| Act (a : list access) (f : S -> S) (k : S -> prog S A).
Arguments Ret {S A} r.
Arguments Act {S A} a f k.

Fixpoint pbindR {S A B} (p : prog S A) (g : res A -> prog S B) : prog S B :=
  match p with
  | Ret r => g r
  | Act a f k => Act a f (fun s => pbindR (k s) g)
  end.
(** errors and panics end the goroutine's current call *)
Definition pbind {S A B} (p : prog S A) (g : A -> prog S B) : prog S B :=
  pbindR p (fun r => match r with Ok a => g a | Err e => Ret (Err e) | Panic => Ret Panic end).
Definition ret {S A} (a : A) : prog S A := Ret (Ok a).
Definition fail {S A} (e : gerr) : prog S A := Ret (Err e).
Definition panic {S A} : prog S A := Ret Panic.
(** read something; change the state; both at once *)
Definition rd1 {S A} (a : list access) (g : S -> A) : prog S A := Act a (fun s => s) (fun s => ret (g s)).
Definition wr1 {S} (a : list access) (f : S -> S) : prog S unit := Act a f (fun _ => ret tt).

(** Lock and Unlock as actions of their own *)
Definition lock {S} (m : mutex) : prog S unit := wr1 [mkAcc (CHold m) true Atomic] (fun s => s).
Definition unlock {S} (m : mutex) : prog S unit := wr1 [mkAcc (CFree m) true Atomic] (fun s => s).

Declare Scope prog_scope.
Delimit Scope prog_scope with prog.
Notation "x <- m ;; k" := (pbind m (fun x => k))
  (at level 100, m at next level, right associativity) : prog_scope.
Notation "m ;;; k" := (pbind m (fun _ => k)) (at level 100, right associativity) : prog_scope.

(** Running alone, without interference. *)
Fixpoint run {S A} (p : prog S A) (s : S) : res A * S :=
  match p with
  | Ret r => (r, s)
  | Act _ f k => run (k s) (f s)
  end.

(** Running on a part of a larger state. *)
Fixpoint zoom {S T A} (get : S -> T) (put : T -> S -> S) (p : prog T A) : prog S A :=
  match p with
  | Ret r => Ret r
  | Act a f k => Act a (fun s => put (f (get s)) s) (fun s => zoom get put (k (get s)))
  end.

(** Any number of goroutines.  A step lets one goroutine perform its next action; a
    schedule lists the goroutine that moves at each step; naming one that is finished or
    does not exist has no effect. *)
Definition pstep {S A} (ps : list (prog S A)) (s : S) (i : nat) : list (prog S A) * S :=
  match nth_error ps i with
  | Some (Act _ f k) => (firstn i ps ++ k s :: skipn (i + 1) ps, f s)
  | _ => (ps, s)
  end.
Fixpoint psteps {S A} (ps : list (prog S A)) (s : S) (sch : list nat) : list (prog S A) * S :=
  match sch with
  | [] => (ps, s)
  | i :: t => let '(ps', s') := pstep ps s i in psteps ps' s' t
  end.

(** Two goroutines race when their next actions touch the same memory, one of them
    writing, without a common lock and not both atomically (the Go memory model). *)
Definition cell_eqb (a b : cell) : bool :=
  match a, b with
  | CDevMaps, CDevMaps | CGeoMap, CGeoMap | CParamMap, CParamMap | CSegMap, CSegMap
  | CSessMap, CSessMap | CTimer, CTimer | CClock, CClock => true
  | CDev l, CDev l' | CRingSlots l, CRingSlots l' | CRingReader l, CRingReader l'
  | CRingWriter l, CRingWriter l' | CSerial l, CSerial l' | CConn l, CConn l'
  | CParamList l, CParamList l' | CParamCnt l, CParamCnt l' => Nat.eqb l l'
  | _, _ => false
  end.
Definition synced (x y : sync) : bool :=
  match x, y with
  | Locked MDev, Locked MDev | Locked MGeo, Locked MGeo | Locked MParam, Locked MParam
  | Locked MSeg, Locked MSeg | Locked MSess, Locked MSess | Locked MServ, Locked MServ
  | Atomic, Atomic => true
  | _, _ => false
  end.
Definition conflict (x y : access) : bool :=
  cell_eqb (ac_cell x) (ac_cell y) && (ac_write x || ac_write y) && negb (synced (ac_sync x) (ac_sync y)).
Definition accesses {S A} (p : prog S A) : list access :=
  match p with Ret _ => [] | Act a _ _ => a end.
Definition races_on {S A} (P : cell -> Prop) (ps : list (prog S A)) : Prop :=
  exists i j p q x y, i <> j /\ nth_error ps i = Some p /\ nth_error ps j = Some q
    /\ In x (accesses p) /\ In y (accesses q) /\ P (ac_cell x) /\ conflict x y = true.
