(** Specification vocabulary for executions that come to an end (C120) *)
From stdpp Require Import gmap relations.
From Verif Require Import Base ProgM StateM ConcM LockM.

(** an execution: some goroutine moves at every step *)
Definition execution (f : nat -> config) : Prop := forall n, lstep (f n) (f (S n)).
(** the goroutines go on at step [n]; a goroutine inside a section that only changes the data the
    mutex protects is not counted, since the model lets it do that any number of times *)
Definition goes_on (f : nat -> config) (n : nat) : Prop := fst (f (S n)) <> fst (f n).
(** no goroutine can go on *)
Definition at_rest (c : config) : Prop := forall c', lstep c c' -> fst c' = fst c.
