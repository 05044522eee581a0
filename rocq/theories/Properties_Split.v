(** C110: goroutines of terminals that share no phone, plate, address and connection; C111: terminals
    that come at the same time *)
From stdpp Require Import gmap.
From Verif Require Import Base HexM TimeM HeaderM ParamsM GeoM MsgM PacketM FrameM ProgM RingM StateM ProcM ServerM ConcM
  SpecCodec SpecState SpecConc SpecSplit ConcP IsoP SplitP EffectP ServerP EnterP ExampleData ExampleState.
Local Open Scope N_scope.
Ltac vmr := vm_compute; reflexivity.

(** C110: under every schedule a group of goroutines stores and sends what it stores and sends
    when the goroutines of other terminals are left out, and ends with the same results *)
Theorem C110_groups : forall k e gs s sch b, sane s -> own_rings s -> parted k s -> Forall (fun x => belongs e k s (fst x) (snd x)) gs ->
  agree_on k b (snd (apart e b gs s sch)) (snd (together e gs s sch))
  /\ forall i g r, nth_error gs i = Some (b, g) ->
       (nth_error (fst (together e gs s sch)) i = Some (Ret r) <-> nth_error (fst (apart e b gs s sch)) i = Some (Ret r)).
Proof. exact apart_same. Qed.
Print Assumptions C110_groups.
(** ... and the states stay such that this holds of what happens next *)
Theorem C110_parted : forall k e gs s sch, sane s -> own_rings s -> parted k s -> Forall (fun x => belongs e k s (fst x) (snd x)) gs ->
  parted k (snd (together e gs s sch)).
Proof. exact stays_parted. Qed.
Print Assumptions C110_parted.
(** a goroutine among goroutines of other terminals ends as it does alone ... *)
Theorem C110_one : forall k e gs s sch i g r, sane s -> own_rings s -> parted k s ->
  only e k s gs i -> Forall timeless gs -> nth_error gs i = Some g ->
  nth_error (fst (running e gs s sch)) i = Some (Ret r) ->
  fst (run (code e g) s) = r /\ agree_on k true (snd (run (code e g) s)) (snd (running e gs s sch)).
Proof. exact one_among. Qed.
Print Assumptions C110_one.
(** ... so that the schedule does not matter to it ... *)
Theorem C110_schedules : forall k e gs s sch sch' i r r', sane s -> own_rings s -> parted k s -> only e k s gs i -> Forall timeless gs ->
  nth_error (fst (running e gs s sch)) i = Some (Ret r) -> nth_error (fst (running e gs s sch')) i = Some (Ret r') ->
  r = r' /\ agree_on k true (snd (running e gs s sch)) (snd (running e gs s sch')).
Proof. exact schedules. Qed.
Print Assumptions C110_schedules.
(** ... and a connection, among all others, is the history of its own events *)
Theorem C110_connection : forall k e c addr ins gs s live sch i r, sane s -> own_rings s -> parted k s -> st_conns s !! c = None ->
  only e k s gs i -> Forall timeless gs -> nth_error gs i = Some (GConn c addr ins) ->
  nth_error (fst (running e gs s sch)) i = Some (Ret r) ->
  agree_on k true (w_st (fold_left (step e) (dialogue c addr (fresh (dom (st_sess s))) ins) (mkWorld s live false)))
                  (snd (running e gs s sch)).
Proof. exact conn_among. Qed.
Print Assumptions C110_connection.
(** ... and connections served at the same time leave what they leave when they are served in turn *)
Theorem C110_in_turn : forall e (K : nat -> group) cs s live sch, sane s -> own_rings s ->
  (forall i, (i < length cs)%nat -> parted (K i) s /\ only e (K i) s (conns_of cs) i) ->
  Forall (fun x => st_conns s !! fst (fst x) = None) cs ->
  forall i r, nth_error (fst (running e (conns_of cs) s sch)) i = Some (Ret r) ->
  agree_on (K i) true (w_st (in_turn e cs (mkWorld s live false))) (snd (running e (conns_of cs) s sch)).
Proof. exact conns_serial. Qed.
Print Assumptions C110_in_turn.

(** two terminals connect at the same time; the first one registers, authenticates and reports while
    the second one registers and a parameter request for it arrives *)
Definition k110 : group :=
  mkGroup (fun p => bool_decide (p = phone12)) (fun p => bool_decide (p = [65; 49])) (fun a => bool_decide (a = addr1)) (Nat.eqb 0).
Definition in110 : list (res bytes * wres) := [(Ok f_reg1, None); (Ok f_auth1, None); (Ok f_loc1, None)].
Definition gs110 : list goroutine := [GConn 0 addr1 in110; GConn 1 addr2 [(Ok f_reg2, None)]; GGetParams phone12b None; GList].
Definition sch110 : list nat := (List.concat (repeat [1; 0; 2; 0; 3] 60))%nat.
Example C110_ex : sane (init 1000) /\ own_rings (init 1000) /\ parted k110 (init 1000)
  /\ only e0 k110 (init 1000) gs110 0 /\ Forall timeless gs110 /\ st_conns (init 1000) !! 0%nat = None
  /\ nth_error (fst (running e0 gs110 (init 1000) sch110)) 0 = Some (Ret (Ok tt))
  /\ match st_conns (snd (running e0 gs110 (init 1000) sch110)) !! 0%nat with
     | Some x => cn_open x && Nat.eqb (length (cn_out x)) 3 | None => false end = true
  /\ match devAt (snd (running e0 gs110 (init 1000) sch110)) phone12 with Some d => d_status d =? Online | None => false end = true
  /\ match devAt (snd (running e0 gs110 (init 1000) sch110)) phone12b with Some d => d_status d =? Offline | None => false end = true.
Proof.
  assert (Dec : forall f p, decodePacket o0 f = Ok p -> p = unframe f) by (intros f p E; unfold unframe; rewrite E; reflexivity).
  split; [exact (history_sane e0 1000 [])|]. split; [intros p p' l H; vm_compute in H; discriminate H|].
  split. { split; [|split]; intros x y H; vm_compute in H; discriminate H. }
  split.
  { intros [|[|[|[|j]]]] g E; cbn [nth_error gs110] in E; try (destruct j; discriminate E); injection E as <-; cbn [belongs Nat.eqb].
    - split; [vmr|]. split; [vmr|]. intros frm w p H E. apply Dec in E. subst p.
      destruct H as [H|[H|[H|[]]]]; injection H as <- <-; (split; [vmr|]); intros Hid now m r Hm Hb; try (vm_compute in Hid; discriminate Hid).
      vm_compute in Hm. injection Hm as <-. injection Hb as <-. vmr.
    - split; [vmr|]. split; [vmr|]. intros frm w p H E. apply Dec in E. subst p.
      destruct H as [H|[]]; injection H as <- <-; (split; [vmr|]); intros Hid now m r Hm Hb.
      vm_compute in Hm. injection Hm as <-. injection Hb as <-. vmr.
    - vmr.
    - exact Logic.I. }
  split; [repeat constructor|]. split; [vmr|]. split; [vmr|]. split; [vmr|]. split; vmr.
Qed.

(** C111: any number of terminals that share nothing connect, register and authenticate at the same
    time, among other goroutines: under every schedule each of them, once its frames are handled, is
    online and has its answers, and its frames are handled when its turn comes often enough *)
Theorem C111_entrants : forall e s ts more, consistent s -> sane s -> all_unlike ts -> Forall (unused s) ts -> Forall (entering e s) ts ->
  Forall timeless more -> Forall (fun g => forall t, In t ts -> belongs e (own t) s false g) more ->
  forall sch i t, nth_error ts i = Some t ->
  (forall r, nth_error (fst (running e (List.map entry ts ++ more) s sch)) i = Some (Ret r) ->
     r = Ok tt /\ inside e s t (snd (running e (List.map entry ts ++ more) s sch)))
  /\ exists n, nth_error (fst (running e (List.map entry ts ++ more) s (sch ++ repeat i n))) i = Some (Ret (Ok tt)).
Proof. exact entrants. Qed.
Print Assumptions C111_entrants.
(** the two terminals of the example server come to a new server, while the devices are listed *)
Definition code2 : str := genAuthCode (mkDevice [68; 50] [65; 50] phone12b [] 0 0 0 0 V2013 0 [] [] []).
Definition ts111 : list entrant :=
  [mkEnt 0 addr1 phone12 [65; 49] f_reg1 f_auth1; mkEnt 1 addr2 phone12b [65; 50] f_reg2 (frame (mkMsg (hidb 0x0102) (B0102 0 code2 [] [])))].
Definition sch111 : list nat := (List.concat (repeat [1; 0; 2] 60))%nat.
Lemma whole_dec e f : bytes_ok (tl (removelast f)) = true -> f = framed (tl (removelast f)) ->
  match decodePacket (e_o e) f with
  | Ok p => negb (fragment (pk_hdr p)) && digits (h_phone (pk_hdr p)) && Nat.eqb (length (h_phone (pk_hdr p))) (phone_digits (a_ver (h_attr (pk_hdr p))))
  | _ => false end = true -> whole e f (match decodePacket (e_o e) f with Ok p => p | _ => unframe f end).
Proof.
  intros H1 H2 H3. split; [eauto|]. destruct (decodePacket (e_o e) f) as [p| |]; try discriminate.
  apply andb_true_iff in H3 as (H3 & H5). apply andb_true_iff in H3 as (H3 & H4). apply negb_true_iff in H3. apply Nat.eqb_eq in H5. auto.
Qed.
Example C111_ex : consistent (init 1000) /\ sane (init 1000) /\ all_unlike ts111 /\ Forall (unused (init 1000)) ts111
  /\ Forall (entering e0 (init 1000)) ts111
  /\ Forall timeless [GList] /\ Forall (fun g => forall t, In t ts111 -> belongs e0 (own t) (init 1000) false g) [GList]
  /\ List.map (fun p => match p with Ret (Ok _) => true | _ => false end) (fst (running e0 (List.map entry ts111 ++ [GList]) (init 1000) sch111))
     = [true; true; true].
Proof.
  split; [exact (wo_ok _ (history_ok e0 1000 []))|]. split; [exact (history_sane e0 1000 [])|]. split.
  { intros [|[|i]] [|[|j]] t t' Ei Ej Hn; cbn [nth_error ts111] in Ei, Ej; try (destruct i; discriminate Ei); try (destruct j; discriminate Ej);
      try congruence; injection Ei as <-; injection Ej as <-; repeat split; vm_compute; discriminate. }
  split. { constructor; [|constructor; [|constructor]]; do 4 (split; [vmr|]); intros ph d H; vm_compute in H; discriminate H. }
  split.
  { constructor; [|constructor; [|constructor]]; do 7 eexists; (split; [apply whole_dec; vmr|]); (split; [apply whole_dec; vmr|]);
      (split; [split; [vmr|split; [left; vmr|vmr]]|]); (split; [split; [vmr|split; [left; vmr|vmr]]|]); (split; [vmr|]); (split; [vmr|]); (split; [vmr|]).
    - exact (proj2 (code_iff (mkDevice [68; 49] [65; 49] phone12 [] 0 0 0 0 V2013 0 [] [] []) code1) eq_refl).
    - exact (proj2 (code_iff (mkDevice [68; 50] [65; 50] phone12b [] 0 0 0 0 V2013 0 [] [] []) code2) eq_refl). }
  split; [repeat constructor|]. split; [constructor; [intros; exact Logic.I|constructor]|]. vmr.
Qed.
(** the case of [C110_in_turn]: the same two terminals *)
Definition cs111 : list (nat * str * list (res bytes * wres)) :=
  List.map (fun t => (en_conn t, en_addr t, [(Ok (en_reg t), None); (Ok (en_auth t), None)])) ts111.
Definition K111 (i : nat) : group := match nth_error ts111 i with Some t => own t | None => k110 end.
Example C110_in_turn_ex : sane (init 1000) /\ own_rings (init 1000)
  /\ (forall i, (i < length cs111)%nat -> parted (K111 i) (init 1000) /\ only e0 (K111 i) (init 1000) (conns_of cs111) i)
  /\ Forall (fun x => st_conns (init 1000) !! fst (fst x) = None) cs111
  /\ List.map (fun p => match p with Ret (Ok _) => true | _ => false end) (fst (running e0 (conns_of cs111) (init 1000) sch111)) = [true; true].
Proof.
  destruct C111_ex as (H1 & H2 & H3 & H4 & H5 & _). split; [exact H2|]. split; [exact (cs_geo_inj _ H1)|]. split; [|split; [repeat constructor|vmr]].
  intros i Hi. unfold K111. destruct (nth_error ts111 i) as [t|] eqn:E; [|apply nth_error_None in E; cbn in Hi, E; lia].
  split. { apply own_parted; [exact H1|]. eapply List.Forall_forall; [exact H4|eapply nth_error_In; exact E]. }
  intros j g Ej. apply (entries_only e0 (init 1000) ts111 [] i t H3 H5); [constructor|exact E|]. exact Ej.
Qed.
