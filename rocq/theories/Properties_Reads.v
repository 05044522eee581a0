(** Races between HTTP requests (C71) *)
From stdpp Require Import gmap.
From Verif Require Import Base HexM TimeM HeaderM ParamsM GeoM MsgM PacketM FrameM ProgM RingM StateM ProcM ServerM ConcM RaceP ExampleData ExampleState.
Local Open Scope N_scope.

(** an HTTP request: list, location, query, setting *)
Definition request (g : goroutine) : Prop :=
  match g with GList | GGeo _ | GGetParams _ _ | GPutParams _ _ _ _ => True | _ => False end.
(** one that sends nothing, or the session counter *)
Definition lookup_only (g : goroutine) : Prop := match g with GList | GGeo _ | GCount => True | _ => False end.

(** used under its mutex or atomically, else only read *)
Definition polite (x : access) : Prop :=
  match ac_cell x with
  | CGeoMap => ac_sync x = Locked MGeo
  | CSessMap => ac_sync x = Locked MSess
  | CConn _ => ac_sync x = Atomic
  | CSerial _ | CHold _ | CFree _ => True
  | _ => ac_write x = false
  end.
Definition looks (x : access) : Prop := match ac_cell x with CGeoMap => ac_sync x = Locked MGeo | CHold _ | CFree _ => True | _ => ac_write x = false end.
Definition not_serial (c : cell) : Prop := match c with CSerial _ => False | _ => True end.
Lemma polite_conflict x y : not_serial (ac_cell x) -> polite x -> polite y -> conflict x y = false.
Proof.
  intros Hn Hx Hy. destruct (conflict x y) eqn:E; [|reflexivity]. unfold conflict in E.
  apply andb_prop in E as (E & Hs). apply andb_prop in E as (E & Hw). pose proof E as E'. apply cell_eqb_eq in E.
  unfold polite in *. rewrite <- E in Hy, E'. destruct (ac_cell x); try discriminate E'; try contradiction;
    first [rewrite Hx, Hy in Hs; discriminate|rewrite Hx, Hy in Hw; discriminate].
Qed.
Lemma looks_conflict x y : looks x -> looks y -> conflict x y = false.
Proof.
  intros Hx Hy. destruct (conflict x y) eqn:E; [|reflexivity]. unfold conflict in E.
  apply andb_prop in E as (E & Hs). apply andb_prop in E as (E & Hw). pose proof E as E'. apply cell_eqb_eq in E.
  unfold looks in *. rewrite <- E in Hy, E'. destruct (ac_cell x); try discriminate E';
    first [rewrite Hx, Hy in Hs; discriminate|rewrite Hx, Hy in Hw; discriminate].
Qed.
Local Ltac acd := acc; try exact Logic.I; try reflexivity.
Lemma polite_send e i m w : all_acc polite (serverSend e i m w).
Proof. unfold serverSend, remove, lock, unlock, processConnWrite, connSend, connClose, clearSession, readSess, getSession. acd. Qed.
Lemma polite_serial l : all_acc polite (nextSerial l).
Proof. unfold nextSerial, getNextSerialNum. acd. Qed.
Lemma polite_code e g : request g -> all_acc polite (code e g).
Proof.
  destruct g as [c addr ins|sl ins|sl p|ph| |ph|ph w|ph bad ps w|now|]; intros Hg; try contradiction; cbn [code].
  - unfold apiList, listDevice. acd.
  - unfold apiGeo, getDeviceByPhone, readDev, getGeoLatestByPhone, getGeoRingByPhone, onRing, ringLatest, loadWriter, getSlot. acd.
  - unfold apiGetParams, getDeviceByPhone, readConst, apiSession, getSession, readSess. acd; first [apply polite_serial|apply polite_send].
  - unfold apiPutParams, getDeviceByPhone, readConst, apiSession, getSession, readSess. acd; first [apply polite_serial|apply polite_send].
Qed.
Lemma looks_code e g : lookup_only g -> all_acc looks (code e g).
Proof.
  destruct g as [c addr ins|sl ins|sl p|ph| |ph|ph w|ph bad ps w|now|]; intros Hg; try contradiction; cbn [code].
  - unfold apiList, listDevice. acd.
  - unfold apiGeo, getDeviceByPhone, readDev, getGeoLatestByPhone, getGeoRingByPhone, onRing, ringLatest, loadWriter, getSlot. acd.
  - unfold countSession. acd.
Qed.
(** C71: any number of HTTP requests of all four kinds race with each other on nothing but serial numbers, in any state and
    under every schedule; nor do the requests that send nothing with the session counter. *)
Theorem C71_requests_partial : forall e gs s sch, Forall request gs -> ~ races_on not_serial (fst (running e gs s sch)).
Proof.
  intros e gs s sch Hg (i & j & p & q & x & y & _ & Hp & Hq & Hx & Hy & Hn & Hc).
  assert (Hall : forall k u, nth_error (fst (running e gs s sch)) k = Some u -> all_acc polite u).
  { apply acc_steps. intros k u Hu. apply nth_error_In, in_map_iff in Hu. destruct Hu as (g & <- & Hin).
    apply polite_code. rewrite List.Forall_forall in Hg. exact (Hg g Hin). }
  rewrite (polite_conflict x y Hn) in Hc; [discriminate| |].
  - exact (acc_accesses _ _ _ (Hall i p Hp) Hx).
  - exact (acc_accesses _ _ _ (Hall j q Hq) Hy).
Qed.
Print Assumptions C71_requests_partial.
Theorem C71_lookups_partial : forall e gs s sch, Forall lookup_only gs -> ~ races_on (fun _ => True) (fst (running e gs s sch)).
Proof.
  intros e gs s sch Hg (i & j & p & q & x & y & _ & Hp & Hq & Hx & Hy & _ & Hc).
  assert (Hall : forall k u, nth_error (fst (running e gs s sch)) k = Some u -> all_acc looks u).
  { apply acc_steps. intros k u Hu. apply nth_error_In, in_map_iff in Hu. destruct Hu as (g & <- & Hin).
    apply looks_code. rewrite List.Forall_forall in Hg. exact (Hg g Hin). }
  rewrite (looks_conflict x y) in Hc; [discriminate| |].
  - exact (acc_accesses _ _ _ (Hall i p Hp) Hx).
  - exact (acc_accesses _ _ _ (Hall j q Hq) Hy).
Qed.
Print Assumptions C71_lookups_partial.
(** the serial numbers are an exception: two queries race on the one of their phone when its counter is at its end *)
Theorem C71_refuted_requests : forall e s ph w w' l d sl x, st_byPhone s !! ph = Some l -> st_devs s !! l = Some d ->
  st_byID s !! d_sid d = Some sl -> st_sess s !! sl = Some x -> ss_sn x = 65535 ->
  exists sch, races_on (fun c => c = CSerial sl) (fst (running e [GGetParams ph w; GGetParams ph w'] s sch)).
Proof.
  intros e s ph w w' l d sl x Hp Hd Hi Hx Hn. exists [1; 1; 1; 0; 0; 0; 0; 0]%nat.
  unfold running, races_on. cbn [List.map code]. unfold apiGetParams, getDeviceByPhone, readConst, apiSession, getSession, nextSerial, getNextSerialNum, rd1, wr1.
  assert (Hs : serialAt sl s = 65535) by (unfold serialAt; rewrite Hx; exact Hn).
  do 8 (cbn [psteps pstep nth_error firstn skipn app Nat.add pbind pbindR ret zoom]; rewrite ?Hp, ?Hd, ?Hi, ?Hs;
        change ((65535 + 1) mod 4294967296 <=? 65535) with false).
  cbn [fst]. eexists 0%nat, 1%nat, _, _, (mkAcc (CSerial sl) false Plain), (mkAcc (CSerial sl) true Atomic).
  split; [discriminate|]. split; [reflexivity|]. split; [reflexivity|]. split; [left; reflexivity|]. split; [left; reflexivity|].
  split; [reflexivity|]. unfold conflict. cbn. rewrite Nat.eqb_refl. reflexivity.
Qed.
Print Assumptions C71_refuted_requests.
Example C71_requests_ex : Forall request [GList; GGeo phone12; GGeo phone12; GGetParams phone12 None; GPutParams phone12 false (mkParams phone12 0 []) None]
  /\ Forall lookup_only [GList; GCount; GGeo phone12].
Proof. repeat constructor. Qed.
Definition s65535 : st := set_sess (alter (fun x => sset_sn x 65535) 0%nat) s2.
Example C71_refuted_requests_ex : exists x, st_byPhone s65535 !! phone12 = Some 0%nat /\ st_devs s65535 !! 0%nat = Some d1
  /\ st_byID s65535 !! d_sid d1 = Some 0%nat /\ st_sess s65535 !! 0%nat = Some x /\ ss_sn x = 65535.
Proof.
  exists (sset_sn x1 65535). split; [vm_compute; reflexivity|]. split; [vm_compute; reflexivity|]. split; [vm_compute; reflexivity|].
  split; [|reflexivity]. unfold s65535. change (alter (fun x => sset_sn x 65535) 0%nat (st_sess s2) !! 0%nat = Some (sset_sn x1 65535)).
  rewrite lookup_alter, s2_x1. reflexivity.
Qed.
