(** Specification vocabulary for what an action touches, as opposed to what its list of accesses says *)
From stdpp Require Import gmap.
From Verif Require Import Base HexM ParamsM ProgM RingM StateM ParamHeapM.
Local Open Scope N_scope.

(** ** The state [s] with the memory [c] replaced by what is there in [t] *)
(** the fields of a Device that are assigned to after NewDevice *)
Definition with_fields (t d : device) : device :=
  mkDevice (d_id d) (d_plate d) (d_phone d) (d_sid d) (d_conn d) (d_keep d) (d_last t) (d_status t)
           (d_ver d) (d_proto d) (d_auth t) (d_imei t) (d_sw t).
(** the object at [l] changed by [g], given the object there in [t] *)
Definition patch {V} (g : V -> V -> V) (l : nat) (t s : gmap nat V) : gmap nat V :=
  alter (fun v => match t !! l with Some v' => g v' v | None => v end) l s.
Definition with_cell (c : cell) (t s : st) : st :=
  match c with
  | CDevMaps => set_index (fun _ => st_byPlate t) (fun _ => st_byPhone t) s
  | CGeoMap => set_geo (fun _ => st_geo t) s
  | CParamMap => set_params (fun _ => st_params t) s
  | CSegMap => set_segs (fun _ => st_segs t) s
  | CSessMap => set_byID (fun _ => st_byID t) s
  | CTimer => set_jobs (fun _ => st_jobs t) s
  | CDev l => set_devs (patch with_fields l (st_devs t)) s
  | CRingSlots l => set_rings (patch (fun r' r => set_slots r (rg_slots r')) l (st_rings t)) s
  | CRingReader l => set_rings (patch (fun r' r => set_reader r (rg_reader r')) l (st_rings t)) s
  | CRingWriter l => set_rings (patch (fun r' r => set_writer r (rg_writer r')) l (st_rings t)) s
  | CSerial l => set_sess (patch (fun x' x => sset_sn x (ss_sn x')) l (st_sess t)) s
  | _ => s
  end.
(** the memory exists in [s] *)
Definition here (c : cell) (s : st) : Prop :=
  match c with
  | CDev l => is_Some (st_devs s !! l)
  | CRingSlots l | CRingReader l | CRingWriter l => is_Some (st_rings s !! l)
  | CSerial l => is_Some (st_sess s !! l)
  | _ => True
  end.
(** all shared memory of the server but the connections, which synchronise themselves *)
Definition memory (c : cell) : Prop :=
  match c with
  | CDevMaps | CGeoMap | CParamMap | CSegMap | CSessMap | CTimer
  | CDev _ | CRingSlots _ | CRingReader _ | CRingWriter _ | CSerial _ => True
  | _ => False
  end.
(** the same for the parameter objects of ParamHeapM.v *)
Definition with_pcell (c : cell) (t s : pheap) : pheap :=
  match c with
  | CParamMap => set_map (fun _ => ph_map t) s
  | CParamList l => set_obj (patch (fun d' d => mkParams (dp_phone d) (dp_cnt d) (dp_list d')) l (ph_obj t)) s
  | CParamCnt l => set_obj (patch (fun d' d => mkParams (dp_phone d) (dp_cnt d') (dp_list d)) l (ph_obj t)) s
  | _ => s
  end.
Definition phere (c : cell) (s : pheap) : Prop :=
  match c with CParamList l | CParamCnt l => is_Some (ph_obj s !! l) | _ => True end.
Definition pmemory (c : cell) : Prop :=
  match c with CParamMap | CParamList _ | CParamCnt _ => True | _ => False end.

Section Touch.
Context {S : Type} (wc : cell -> S -> S -> S) (at_ : cell -> S -> Prop) (mem : cell -> Prop).
(** the next action of [p] neither looks at the memory [c] nor changes it: whatever is there, the
    action does the same to everything else, leaves that there, and the goroutine continues the same *)
Definition ignores {A} (c : cell) (p : prog S A) : Prop :=
  match p with
  | Ret _ => True
  | Act _ f k => forall t s, at_ c s -> f (wc c t s) = wc c t (f s) /\ k (wc c t s) = k s
  end.
(** it does not change it *)
Definition keeps {A} (c : cell) (p : prog S A) : Prop :=
  match p with Ret _ => True | Act _ f _ => forall s, at_ c s -> wc c (f s) s = s end.
(** [c] is in the list of accesses; as a write *)
Definition listed (c : cell) (a : list access) : Prop := exists x, In x a /\ ac_cell x = c.
Definition listed_write (c : cell) (a : list access) : Prop := exists x, In x a /\ ac_cell x = c /\ ac_write x = true.
(** what the list leaves out is not touched, and what it has as reads only is not changed *)
Definition honest_next {A} (p : prog S A) : Prop :=
  forall c, mem c -> (listed c (accesses p) \/ ignores c p) /\ (listed_write c (accesses p) \/ keeps c p).
(** two goroutines at the memory [c]: one of the next actions does not touch it, or none changes it, or
    both have it under the same lock or both access it atomically *)
Definition apart {A} (c : cell) (p q : prog S A) : Prop :=
  ignores c p \/ ignores c q \/ (keeps c p /\ keeps c q)
  \/ exists x y, In x (accesses p) /\ In y (accesses q) /\ ac_cell x = c /\ ac_cell y = c
       /\ synced (ac_sync x) (ac_sync y) = true.
End Touch.
