(** What is said about restoring files when operations fail *)
From stdpp Require Import gmap.
From Verif Require Import Base AssetM SpecAsset SpecLogFile RestoreM SpecRestore RestoreFailM.
Local Open Scope N_scope.

(** the file at [pl] is a copy of the embedded file [g], with the permissions rw-r--r-- and its time *)
Definition copiedF (s : disk) (pl : list str) (g : gen) : Prop := d_files s !! pl = Some (Some g, 6 * 64 + 4 * 8 + 4, changed g).
(** operation number [n] fails *)
Definition fails (bad : nat -> option fault) (n : nat) : Prop := bad n <> None.
(** how many files a name stands for *)
Definition chosen_in (name : str) (ps : list (str * gen)) : list (str * gen) :=
  List.filter (fun x => bool_decide (fst x = name) || match under name (fst x) with Some _ => true | None => false end) ps.
