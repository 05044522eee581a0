(** Model of pkg/container/ring_buffer.go and of Session.GetNextSerialNum *)
From Verif Require Import Base ProgM.
Local Open Scope Z_scope.

(** ring_buffer.go:12-17.  Container elements are [any]; None is nil.  The int32 fields
    are Z: positions stay below Size (proved), so no wrap occurs. *)
Record ring (A : Type) : Type := mkRing {
  rg_size : Z; rg_slots : list (option A); rg_reader : Z; rg_writer : Z
}.
Arguments mkRing {A} _ _ _ _.
Arguments rg_size {A} _.
Arguments rg_slots {A} _.
Arguments rg_reader {A} _.
Arguments rg_writer {A} _.

(** ring_buffer.go:21-28 NewRingBuffer *)
Definition newRing {A} (size : Z) : ring A := mkRing size (repeat None (Z.to_nat size)) 0 0.

Section Ring.
Context {A : Type}.
(** where the buffer lives (for the access labels) *)
Variable l : nat.
Notation rp := (prog (ring A)).

Definition set_slots (r : ring A) (sl : list (option A)) : ring A :=
  mkRing (rg_size r) sl (rg_reader r) (rg_writer r).
Definition set_reader (r : ring A) (x : Z) : ring A :=
  mkRing (rg_size r) (rg_slots r) x (rg_writer r).
Definition set_writer (r : ring A) (x : Z) : ring A :=
  mkRing (rg_size r) (rg_slots r) (rg_reader r) x.

Definition loadWriter : rp Z := rd1 [mkAcc (CRingWriter l) false Atomic] rg_writer.
Definition storeWriter (x : Z) : rp unit :=
  wr1 [mkAcc (CRingWriter l) true Atomic] (fun r => set_writer r x).
Definition loadReader : rp Z := rd1 [mkAcc (CRingReader l) false Atomic] rg_reader.
Definition storeReader (x : Z) : rp unit :=
  wr1 [mkAcc (CRingReader l) true Atomic] (fun r => set_reader r x).

(** i is a valid index of Container *)
Definition inRange (i : Z) (sl : list (option A)) : bool := (0 <=? i) && (i <? Z.of_nat (length sl)).
(** Container[i]; panics when out of range *)
Definition getSlot (i : Z) : rp (option A) :=
  Act [mkAcc (CRingSlots l) false Plain] (fun r => r)
      (fun r => if inRange i (rg_slots r)
                then ret (nth (Z.to_nat i) (rg_slots r) None) else panic).
(** Container[i] = v *)
Definition setSlot (i : Z) (v : option A) : rp unit :=
  Act [mkAcc (CRingSlots l) true Plain]
      (fun r => if inRange i (rg_slots r)
                then set_slots r (firstn (Z.to_nat i) (rg_slots r)
                                  ++ v :: skipn (S (Z.to_nat i)) (rg_slots r))
                else r)
      (fun r => if inRange i (rg_slots r) then ret tt else panic).

(** ring_buffer.go:31-36 Write; [%] is Go's remainder, truncated towards zero.  Size is
    never changed, so reading it is not an action (it is taken from the load). *)
Definition ringWrite (v : option A) : rp unit :=
  (cur <- loadWriter ;;
   setSlot cur v ;;;
   size <- rd1 [] rg_size ;;
   storeWriter (Z.rem (cur + 1) size))%prog.

(** ring_buffer.go:40-44 seekReader *)
Definition seekReader (delta : Z) : rp unit :=
  (cur <- loadReader ;;
   size <- rd1 [] rg_size ;;
   storeReader (Z.rem (cur + delta) size))%prog.

(** ring_buffer.go:47-50 Read: the deferred seekReader runs after the element was taken,
    also when taking it panics *)
Definition ringRead : rp (option A) :=
  pbindR (cur <- loadReader ;; getSlot cur)%prog
         (fun r => seekReader 1 ;;; Ret r)%prog.

(** ring_buffer.go:53-58 Latest: the first read of Writer is not atomic *)
Definition ringLatest : rp (option A) :=
  (w <- rd1 [mkAcc (CRingWriter l) false Plain] rg_writer ;;
   if w =? 0 then ret None
   else w' <- loadWriter ;;
        size <- rd1 [] rg_size ;;
        getSlot (Z.rem (w' - 1) size))%prog.

(** ring_buffer.go:61-63 Oldest *)
Definition ringOldest : rp (option A) := (w <- loadWriter ;; getSlot w)%prog.

(** ring_buffer.go:66-68 Overwrite *)
Definition ringOverwrite (v : option A) : rp unit := (w <- loadWriter ;; setSlot w v)%prog.

End Ring.

Local Open Scope N_scope.
(** model/session.go:45-52 GetNextSerialNum on the field serialNumber (uint32): an atomic
    add, and past 65535 an atomic store of 0 followed by a plain read *)
Definition getNextSerialNum (l : nat) : prog N N :=
  Act [mkAcc (CSerial l) true Atomic] (fun n => (n + 1) mod 4294967296)
      (fun n => let next := (n + 1) mod 4294967296 in
                if next <=? 65535 then ret (next mod 65536)
                else (wr1 [mkAcc (CSerial l) true Atomic] (fun _ => 0) ;;;
                      rd1 [mkAcc (CSerial l) false Plain] (fun n => n mod 65536))%prog).
