(** The simulator's main: dial retries and the end of the process (test/client/main.go) *)
From Coq Require Import List ZArith Bool Arith.
Import ListNotations.

(** test/client/main.go:23 *)
Definition retryMaxCnt : nat := 6.
(** what happens: a call of Dial returns (client/tcp_client.go:24-37), or Start of the terminal [i] returns
    or panics (:39-62) *)
Inductive simEv : Type := SDial (ok : bool) | SStop (i : nat).
(** [sm_up]: the terminals whose Dial has succeeded (the loop variable of main, :176); [sm_retry]: the variable
    of :109; [sm_wg]: the counter of cliWg; [sm_over]: the terminals whose Start is over; [sm_end]: the status the
    process has ended with *)
Record sim : Type := mkSim { sm_up : nat; sm_retry : nat; sm_wg : Z; sm_over : list nat; sm_end : option Z }.
(** :180 Wait, then main returns.  main is there when the loop is through. *)
Definition waits (conc : Z) (x : sim) : sim :=
  if (Z.of_nat (sm_up x) >=? conc)%Z && (sm_wg x =? 0)%Z then mkSim (sm_up x) (sm_retry x) (sm_wg x) (sm_over x) (Some 0%Z) else x.
(** :173-174 Add panics when the counter becomes negative; a panic in main ends the process with status 2 *)
Definition simStart (conc : Z) : sim :=
  if (conc <? 0)%Z then mkSim 0 1 conc [] (Some 2%Z) else waits conc (mkSim 0 1 conc [] None).
(** :109-121 one round of the loop of dialAndSend.  When Dial has succeeded, the goroutines of the terminal are
    started and main goes on with the next one.  The sleep of line 120 is left out. *)
Definition dialled (ok : bool) (x : sim) : sim :=
  if ok then mkSim (S (sm_up x)) 1 (sm_wg x) (sm_over x) None
  else if (retryMaxCnt <? sm_retry x)%nat then mkSim (sm_up x) (sm_retry x) (sm_wg x) (sm_over x) (Some 1%Z)
  else mkSim (sm_up x) (S (sm_retry x)) (sm_wg x) (sm_over x) None.
(** :122-125 the deferred Done; a negative counter panics, which GoSafe recovers (routines/safe.go) *)
Definition stopped (i : nat) (x : sim) : sim :=
  mkSim (sm_up x) (sm_retry x) (sm_wg x - 1) (i :: sm_over x) None.
(** An event that cannot happen changes nothing. *)
Definition simStep (conc : Z) (x : sim) (ev : simEv) : sim :=
  match sm_end x with
  | Some _ => x
  | None =>
      waits conc
        (match ev with
         | SDial ok => if (Z.of_nat (sm_up x) <? conc)%Z then dialled ok x else x
         | SStop i => if (i <? sm_up x)%nat && negb (existsb (Nat.eqb i) (sm_over x)) then stopped i x else x
         end)
  end.
Definition simRun (conc : Z) (evs : list simEv) : sim := fold_left (simStep conc) evs (simStart conc).
