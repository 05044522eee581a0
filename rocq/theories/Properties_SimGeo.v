(** The base locations of simulated terminals (C143) *)
From stdpp Require Import gmap.
From Verif Require Import Base ProgM RingM SpecRing StateM InterP SimGeoM SimGeoP ExampleData ExampleState.
Local Open Scope Z_scope.

(** C143: terminals with different phones, in a new process, in every schedule: when reportLocation of a terminal
    has made its rounds, it has reported in each, starting from the location generated for that terminal. *)
Theorem C143_own_partial : forall {V : Type} (ts : list (str * V * nat)) (m : geobufs V) sch,
  base.NoDup (List.map (fun t => fst (fst t)) ts) -> (forall t, In t ts -> m !! fst (fst t) = None) ->
  forall i t r, nth_error ts i = Some t -> nth_error (fst (locating ts m sch)) i = Some (Ret r) ->
    r = Ok (repeat (Some (snd (fst t))) (snd t)).
Proof. exact @own_base. Qed.
Print Assumptions C143_own_partial.
(** Terminals that share a phone, as when phoneReg matches one phone only: in some
    schedule all report the location of the terminal that started last, and none at all when their number is a
    multiple of 100. *)
Theorem C143_refuted : forall {V : Type} (ph : str) (ts : list (V * nat)) (m : geobufs V), m !! ph = None ->
  exists sch, fst (locating (List.map (fun t => (ph, fst t, snd t)) ts) m sch)
    = List.map (fun t => Ret (Ok (repeat (if (length ts mod 100 =? 0)%nat then None else last_of (List.map fst ts)) (snd t)))) ts.
Proof.
  intros V ph ts m Hm. destruct (shared_base ph ts m Hm) as (sch & E). exists sch. rewrite E.
  unfold found. rewrite map_length. reflexivity.
Qed.
Print Assumptions C143_refuted.
(** And in some schedule the goroutine of the first terminal panics, when the last one starts between its two
    looks at the buffer's position. *)
Theorem C143_refuted_panics : forall {V : Type} (ph : str) (v w : V) (n n' : nat) (ts : list (V * nat)) (m : geobufs V),
  m !! ph = None -> (S (S (length ts)) mod 100 = 0)%nat ->
  exists sch, nth_error (fst (locating ((ph, v, S n) :: List.map (fun t => (ph, fst t, snd t)) ts ++ [(ph, w, n')]) m sch)) 0
    = Some (Ret Panic).
Proof. exact @shared_panics. Qed.
Print Assumptions C143_refuted_panics.

(** two terminals with different phones, interleaved to the end, and two sharing one *)
Example C143_ex : base.NoDup (List.map (fun t : str * nat * nat => fst (fst t)) [(phone12, 5%nat, 2%nat); (phone12b, 7%nat, 1%nat)])
  /\ (exists sch, fst (locating [(phone12, 5%nat, 2%nat); (phone12b, 7%nat, 1%nat)] ∅ sch)
       = [Ret (Ok [Some 5%nat; Some 5%nat]); Ret (Ok [Some 7%nat])])
  /\ (exists sch, fst (locating [(phone12, 5%nat, 2%nat); (phone12, 7%nat, 1%nat)] ∅ sch)
       = [Ret (Ok [Some 7%nat; Some 7%nat]); Ret (Ok [Some 7%nat])])
  /\ last_of [5; 7]%nat = Some 7%nat /\ (2 mod 100 =? 0)%nat = false.
Proof.
  split.
  { apply NoDup_ListNoDup. repeat constructor; cbn; [|tauto]. intros [E|[]]. discriminate E. }
  split; [exists (List.concat (repeat [0; 1]%nat 20)); vm_compute; reflexivity|].
  split; [|split; reflexivity].
  destruct (C143_refuted phone12 [(5, 2); (7, 1)]%nat ∅ (lookup_empty _)) as (sch & E). exists sch. exact E.
Qed.
(** a hundred terminals *)
Example C143_panics_ex : (∅ : geobufs nat) !! phone12 = None /\ (S (S (length (repeat (5, 1)%nat 98))) mod 100 = 0)%nat.
Proof. split; reflexivity. Qed.
