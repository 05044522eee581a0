(** C120: goroutines with their mutexes come to their end under every scheduler *)
From stdpp Require Import gmap relations.
From Verif Require Import Base HexM TimeM HashM HeaderM ParamsM GeoM MsgM PacketM FrameM ProgM RingM
  StateM ProcM ServerM ConcM LockM SpecState SpecConc SpecEnd LockP TermP ExampleData ExampleState Properties_Lock.
Local Open Scope N_scope.

(** C120: no execution goes on for ever ... *)
Theorem C120_no_endless : forall f, execution f -> ~ forall n, exists m, (n <= m)%nat /\ goes_on f m.
Proof. exact no_endless. Qed.
Print Assumptions C120_no_endless.
(** ... and it can rest exactly when every goroutine is done and holds no mutex *)
Theorem C120_rest_iff : forall e gs s c, rtc lstep (lstart e gs, s) c -> at_rest c <-> forall t, In t (fst c) -> finished t.
Proof. exact rest_iff. Qed.
Print Assumptions C120_rest_iff.
(** a check inside the device cache and a connection with the server's mutex cannot rest; there are an
    execution (the check changes the maps for ever) and a state of rest *)
Lemma torn_spins e s : execution (fun _ => tornFrom e s).
Proof.
  intros n. exists O, (mkTh [] (Some (peek MDev s)) (tick96 e)), (mkTh [] (Some (peek MDev s)) (tick96 e)).
  split; [reflexivity|]. split; [|reflexivity]. generalize (unheld (tornFrom e s).1). intros fr.
  unfold tornFrom. cbn [snd]. set (q := PDev ∅ ∅).
  assert (E : put q (put q (s96 s)) = put q (s96 s)) by reflexivity. rewrite <- E at 2. apply l_tear. reflexivity.
Qed.
Lemma rtc_trans_c (a b c : config) : rtc lstep a b -> rtc lstep b c -> rtc lstep a c.
Proof. intros H1 H2. etrans; [exact H1|exact H2]. Qed.
Example C120_ex : rtc lstep (lstart e0 gs96, s2) torn /\ ~ at_rest torn
  /\ (exists f, execution f /\ f O = torn)
  /\ exists c, rtc lstep (lstart e0 gs96, s2) c /\ at_rest c.
Proof.
  destruct C97_ex as (H & _ & _ & Hn). split; [exact H|]. split; [|split].
  - intros Hr. pose proof (proj1 (C120_rest_iff _ _ _ _ H) Hr) as Hd. eapply Hn; [left; reflexivity|]. apply Hd. left. reflexivity.
  - exists (fun _ => torn). split; [|reflexivity]. exact (torn_spins e0 s2).
  - destruct (no_deadlock _ _ _ _ H) as (c & Hc & Hf). exists c. assert (Hr : rtc lstep (lstart e0 gs96, s2) c) by exact (rtc_trans_c _ _ _ H Hc).
    split; [exact Hr|]. exact (proj2 (C120_rest_iff _ _ _ _ Hr) Hf).
Qed.
