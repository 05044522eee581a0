(** Specification vocabulary for how long silent devices stay (C126) *)
From stdpp Require Import gmap.
From Verif Require Import Base ProgM StateM ProcM ServerM.
Local Open Scope Z_scope.

(** what the clock shows at the keepalive checks of the phone *)
Fixpoint check_times (e : env) (ph : str) (w : world) (evs : list event) : list Z :=
  match evs with
  | [] => []
  | ev :: evs' =>
      match ev with
      | ETick q => if decide (q = ph) then [st_clock (w_st w)] else []
      | _ => []
      end ++ check_times e ph (step e w ev) evs'
  end.
(** The checks of a job come at least [lo] and at most [hi] after each other.  The last one before them was at [c], the
    time is now [t] and the next one has not been missed. *)
Fixpoint spaced (lo hi c : Z) (ts : list Z) (t : Z) : Prop :=
  match ts with
  | [] => c <= t <= c + hi
  | c' :: ts' => c + lo <= c' <= c + hi /\ spaced lo hi c' ts' t
  end.
