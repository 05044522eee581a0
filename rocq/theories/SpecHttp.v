(** Specification vocabulary for the answers to HTTP requests (C124) *)
From stdpp Require Import gmap.
From Verif Require Import Base ParamsM MsgM ProgM StateM ProcM ServerM SpecRing SpecState HttpM.
Local Open Scope N_scope.

(** the event of ServerM.v that a request is *)
Definition event_of (r : request) : event :=
  match r with
  | RList => EList
  | RGeo ph => EGeo ph
  | RGetParams ph w => EGetParams ph w
  | RPutParams ph bad ps w => EPutParams ph bad ps w
  end.
(** the error values a request has been answered with *)
Definition errs (n : nat) : list json := List.repeat JErr n.
(** What is claimed of an answer: one value, an error exactly with a status that says so. *)
Definition proper (a : response) : Prop :=
  exists v, rs_values a = [v] /\ (v = JErr <-> 400 <= rs_status a).
(** What a request is answered: the list with every device once; a known device's last location unless the number of
    its locations is a multiple of 100, then nothing; nothing to a command that is sent, and an error for each thing
    that is wrong with it. *)
Definition http_reply (e : env) (s : st) (r : request) (a : response) : Prop :=
  match r with
  | RList => exists ds, a = mkResp 200 [JDevs ds] /\ base.NoDup ds /\ forall d, d ∈ ds <-> exists ph, devAt s ph = Some d
  | RGeo ph =>
      match devAt s ph with
      | None => a = mkResp 400 [JErr]
      | Some d => forall ws, track s ph ws ->
          if (length ws mod 100 =? 0)%nat then a = mkResp 200 [] else exists g, last_of ws = Some g /\ a = mkResp 200 [JGeo d g]
      end
  | RGetParams ph w =>
      match devAt s ph with
      | None => a = mkResp 400 [JErr]
      | Some d => match st_byID s !! d_sid d with None => a = mkResp 400 [JErr] | Some _ => a = mkResp 200 [] end
      end
  | RPutParams ph bad ps w =>
      match devAt s ph with
      | None => a = mkResp 400 (errs (if bad then 2 else 1))
      | Some d =>
          match st_byID s !! d_sid d with
          | None => a = mkResp 400 (errs (if bad then 2 else 1))
          | Some _ => a = if bad then mkResp 400 [JErr] else match paramsEncode (e_o e) ps with Panic => mkResp 500 [] | _ => mkResp 200 [] end
          end
      end
  end.
(** the requests that are answered with one value *)
Definition one_value (s : st) (r : request) : Prop :=
  let lost ph := forall d, devAt s ph = Some d -> st_byID s !! d_sid d = None in
  match r with
  | RList => True
  | RGeo ph => devAt s ph = None \/ forall ws, track s ph ws -> (length ws mod 100 <> 0)%nat
  | RGetParams ph _ => lost ph
  | RPutParams ph bad _ _ => if bad then ~ lost ph else lost ph
  end.
