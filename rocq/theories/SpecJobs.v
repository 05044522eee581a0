(** Specification for C151: devices and keepalive jobs *)
From stdpp Require Import gmap.
From Verif Require Import Base StateM SpecState.

(** the keepalive jobs of the phone [q] *)
Definition jobs_of (q : str) (s : st) : list str := base.filter (fun p => p = q) (st_jobs s).
(** the device of the phone [q] is checked by one job, and there is no job without a device *)
Definition watched (q : str) (s : st) : Prop :=
  jobs_of q s = match devAt s q with Some _ => [q] | None => [] end.
