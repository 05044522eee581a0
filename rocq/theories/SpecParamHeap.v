(** Specification vocabulary for the parameter objects (C112) *)
From stdpp Require Import gmap.
From Verif Require Import Base HexM ParamsM ProgM StateM ParamHeapM SpecCodec SpecState.
Local Open Scope N_scope.

(** the object stored for the phone *)
Definition cached (h : pheap) (ph : str) : option devparams :=
  match ph_map h !! ph with Some l => ph_obj h !! l | None => None end.
(** entries lead to objects with that phone *)
Definition linked (h : pheap) : Prop :=
  forall ph l, ph_map h !! ph = Some l -> exists d, ph_obj h !! l = Some d /\ dp_phone d = ph.
(** the objects hold what the value model holds *)
Definition same_params (h : pheap) (s : st) : Prop := forall ph, st_params s !! ph = cached h ph.
(** the messages are for the phone they name *)
Definition addressed (m : pmsg) : Prop := match m with PSet ph d | PQuery ph d => dp_phone d = ph end.
Definition brings (m : pmsg) : list param := match m with PSet _ d | PQuery _ d => dp_list d end.
(** no parameter listed twice, and the right count *)
Definition counted (n : N) (ps : list param) : Prop := n = N.of_nat (length ps) mod 256.
Definition distinct (ps : list param) : Prop := base.NoDup (List.map p_id ps).
Definition neat (d : devparams) : Prop := distinct (dp_list d) /\ counted (dp_cnt d) (dp_list d).
Definition neat_msg (m : pmsg) : Prop := match m with PSet _ d | PQuery _ d => neat d end.
Definition for_phone (m : pmsg) : str := match m with PSet ph _ | PQuery ph _ => ph end.
(** the parameter was there for the phone, or came with one of the messages for it *)
Definition comes_from (h : pheap) (ms : list pmsg) (ph : str) (p : param) : Prop :=
  (exists l d, ph_obj h !! l = Some d /\ dp_phone d = ph /\ In p (dp_list d))
  \/ exists m, In m ms /\ for_phone m = ph /\ In p (brings m).
