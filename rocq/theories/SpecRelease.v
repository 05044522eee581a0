(** Specification vocabulary for what becomes of silent devices and of stored data (C56, C114) *)
From stdpp Require Import gmap.
From Verif Require Import Base HexM HeaderM ParamsM MsgM PacketM ProgM StateM ProcM ServerM SpecState SpecReg.
Local Open Scope N_scope.

(** a message of the phone arrives *)
Definition speaks (e : env) (ph : str) (w : world) (ev : event) : Prop :=
  exists sl frm wr h b, ev = EFrame sl (Ok frm) wr /\ sl ∈ w_live w /\ received e (w_st w) frm = Some (h, b) /\ h_phone h = ph.
(** no event of the list brings one *)
Inductive wordless (e : env) (ph : str) : world -> list event -> Prop :=
| un_nil w : wordless e ph w []
| un_cons w ev evs : ~ speaks e ph w ev -> wordless e ph (step e w ev) evs -> wordless e ph w (ev :: evs).
(** the keepalive checks of the phone among the events that come after the time [t] *)
Fixpoint overdue (e : env) (ph : str) (t : Z) (w : world) (evs : list event) : nat :=
  match evs with
  | [] => O
  | ev :: evs' =>
      match ev with
      | ETick q => if decide (q = ph) then if (t <? st_clock (w_st w))%Z then 1%nat else O else O
      | _ => O
      end + overdue e ph t (step e w ev) evs'
  end%nat.
(** a silent device after that many of them *)
Definition after_checks (d : device) (n : nat) : option device :=
  match n, d_status d =? Offline with
  | O, _ => Some d
  | 1%nat, false => Some (with_status d Offline)
  | _, _ => None
  end.
(** the first [n] events of an endless run *)
Definition first (f : nat -> event) (n : nat) : list event := List.map f (seq 0 n).

(** stored parameters and transfers of [s] that [t] still has; transfers only get longer *)
Definition retains (s t : st) : Prop :=
  (forall ph, is_Some (st_params s !! ph) -> is_Some (st_params t !! ph))
  /\ forall key y, st_segs s !! key = Some y ->
       exists y' more, st_segs t !! key = Some y' /\ sg_data y' = sg_data y ++ more /\ sg_total y' = sg_total y.
