(** The device list with the records it shows *)
From stdpp Require Import gmap.
From Verif Require Import Base ProgM StateM ServerM.

(** c.JSON goes through the pointers one after the other; the fields of one record are read in one step *)
Fixpoint readAll (ls : list nat) : sp (list device) :=
  match ls with
  | [] => ret []
  | l :: t => (d <- readDev l ;; ds <- readAll t ;; ret (d :: ds))%prog
  end.
(** api/api.go:24-26 *)
Definition showList : sp (list device) := (ls <- apiList ;; readAll ls)%prog.
