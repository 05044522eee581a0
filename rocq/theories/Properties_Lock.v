(** Property theorems C96, C97: the mutexes.  Here Lock blocks, a critical section takes time
    and meanwhile the maps its mutex protects may hold anything (LockM.v). *)
From stdpp Require Import gmap relations.
From Verif Require Import Base HexM TimeM HashM HeaderM ParamsM GeoM MsgM PacketM FrameM ProgM RingM
  StateM ProcM ServerM ConcM LockM SpecState SpecConc LockP ExampleData ExampleState.
Local Open Scope N_scope.

(** C96: whatever the goroutines did so far, there is a schedule of the atomic model that brings
    each of them to the same point, and the shared state to the same value, the maps of the
    sections in progress being as these found them *)
Theorem C96_atomic_sections : forall e gs s ts v, ~ In GList gs -> ~ In GCount gs -> rtc lstep (lstart e gs, s) (ts, v) ->
  exists sch, running e gs s sch = (List.map th_prog ts, settled ts v).
Proof. exact sections_atomic. Qed.
Print Assumptions C96_atomic_sections.
Theorem C96_between_sections : forall e gs s ts v, ~ In GList gs -> ~ In GCount gs -> rtc lstep (lstart e gs, s) (ts, v) ->
  (forall t, In t ts -> th_in t = None) -> exists sch, running e gs s sch = (List.map th_prog ts, v).
Proof. exact sections_ended. Qed.
Print Assumptions C96_between_sections.
(** a keepalive check inside the device cache, whose maps it left empty for the moment, and a
    connection that has just taken the mutex of the server *)
Definition gs96 : list goroutine := [GTick phone12; GConn 5 addr1 []].
Definition after1 (p : sp unit) (s : st) : sp unit := match p with Act _ _ k => k s | Ret _ => p end.
Definition tick96 (e : env) : sp unit := code e (GTick phone12).
Definition conn96 (e : env) : sp unit := code e (GConn 5 addr1 []).
Definition s96 (s : st) : st := set_conns (<[5%nat := mkConn true []]>) s.
Definition tornFrom (e : env) (s : st) : config :=
  ([mkTh [] (Some (peek MDev s)) (tick96 e); mkTh [MServ] None (after1 (after1 (conn96 e) s) (s96 s))], put (PDev ∅ ∅) (s96 s)).
Lemma lstep_at ts v i t t' v' : ts !! i = Some t -> lmove (unheld ts) t v t' v' -> lstep (ts, v) (<[i := t']> ts, v').
Proof. intros H1 H2. exists i, t, t'. auto. Qed.
Lemma torn_from e s : rtc lstep (lstart e gs96, s) (tornFrom e s).
Proof.
  set (x := tick96 e). set (y := conn96 e). set (y1 := after1 y s). set (y2 := after1 y1 (s96 s)).
  change (lstart e gs96) with [mkTh [] None x; mkTh [] None y].
  apply (rtc_l _ _ ([mkTh [] None x; mkTh [] None y1], s96 s)).
  { apply (lstep_at [mkTh [] None x; mkTh [] None y] s 1 (mkTh [] None y) (mkTh [] None y1) (s96 s) eq_refl).
    exact (l_plain _ [] [] (set_conns (<[5%nat := mkConn true []]>)) (after1 y) s eq_refl eq_refl eq_refl). }
  apply (rtc_l _ _ ([mkTh [] None x; mkTh [MServ] None y2], s96 s)).
  { apply (lstep_at [mkTh [] None x; mkTh [] None y1] (s96 s) 1 (mkTh [] None y1) (mkTh [MServ] None y2) (s96 s) eq_refl).
    refine (l_take _ [] [mkAcc (CHold MServ) true Atomic] (fun s => s) (after1 y1) (s96 s) MServ eq_refl eq_refl eq_refl _). intros t [<-|[<-|[]]] [[]|(q & H & _)]; discriminate H. }
  apply (rtc_l _ _ ([mkTh [] (Some (peek MDev s)) x; mkTh [MServ] None y2], s96 s)).
  { apply (lstep_at [mkTh [] None x; mkTh [MServ] None y2] (s96 s) 0 (mkTh [] None x) (mkTh [] (Some (peek MDev (s96 s))) x) (s96 s) eq_refl).
    refine (l_enter _ [] [mkAcc CDevMaps false (Locked MDev)] (fun s => s) (after1 x) (s96 s) MDev eq_refl eq_refl eq_refl _). intros t [<-|[<-|[]]] [H|(q & H & _)]; try discriminate H; [destruct H|].
    destruct H as [H|[]]. discriminate H. }
  apply rtc_once.
  apply (lstep_at [mkTh [] (Some (peek MDev s)) x; mkTh [MServ] None y2] (s96 s) 0 (mkTh [] (Some (peek MDev s)) x)
    (mkTh [] (Some (peek MDev s)) x) (put (PDev ∅ ∅) (s96 s)) eq_refl).
  apply l_tear. reflexivity.
Qed.
Definition torn : config := tornFrom e0 s2.
Example C96_ex : ~ In GList gs96 /\ ~ In GCount gs96 /\ rtc lstep (lstart e0 gs96, s2) torn
  /\ devAt (snd torn) phone12 = None /\ devAt (settled (fst torn) (snd torn)) phone12 = Some d1.
Proof.
  split; [intros [H|[H|[]]]; discriminate H|]. split; [intros [H|[H|[]]]; discriminate H|]. split; [exact (torn_from e0 s2)|].
  split; vm_compute; reflexivity.
Qed.

(** C97: whatever the goroutines did so far, all of them can still run to their end, and then no
    mutex is held *)
Theorem C97_no_deadlock : forall e gs s c, rtc lstep (lstart e gs, s) c ->
  exists c', rtc lstep c c' /\ forall t, In t (fst c') -> finished t.
Proof. exact no_deadlock. Qed.
Print Assumptions C97_no_deadlock.
(** the connection holds the mutex of the server, the check is inside the device cache *)
Example C97_ex : rtc lstep (lstart e0 gs96, s2) torn /\ ~ unheld (fst torn) MServ /\ ~ unheld (fst torn) MDev
  /\ forall t, In t (fst torn) -> ~ finished t.
Proof.
  split; [exact (torn_from e0 s2)|]. split.
  { intros H. apply (H (mkTh [MServ] None (after1 (after1 (conn96 e0) s2) (s96 s2)))); [right; left; reflexivity|]. left. left. reflexivity. }
  split.
  { intros H. apply (H (mkTh [] (Some (peek MDev s2)) (tick96 e0))); [left; reflexivity|]. right. eexists. split; reflexivity. }
  intros t [<-|[<-|[]]] (H1 & H2 & _); [discriminate H2|discriminate H1].
Qed.
