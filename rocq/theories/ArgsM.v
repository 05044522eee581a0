(** internal/protocol/model/device_args.go, which no other code uses *)
From Verif Require Import Base HexM.
Local Open Scope N_scope.

Section Args.
(** what an interface value may hold *)
Context {V : Type}.
(** device_args.go:49-53; a nil interface is None *)
Record argdata : Type := mkArg { ag_id : N; ag_len : N; ag_value : option V }.
(** :13-17 *)
Record devargs : Type := mkArgs { as_phone : str; as_cnt : N; as_args : list argdata }.
(** :55-57; the receiver is unchanged *)
Definition argDecode (a : argdata) (_ : bytes) : res argdata := Ok a.
(** :59-61 *)
Definition argEncode (_ : argdata) : res bytes := Ok [].
(** :22-30, [n] items to go; each call is given the whole packet *)
Fixpoint argsLoop (n : nat) (pkt : bytes) (a : devargs) : res devargs :=
  match n with
  | O => Ok a
  | S n => rbind (argDecode (mkArg 0 0 None) pkt) (fun g =>
             argsLoop n pkt (mkArgs (as_phone a) (as_cnt a) (as_args a ++ [g])))
  end.
(** :19-32 *)
Definition argsDecode (a : devargs) (phone : str) (cnt : N) (pkt : bytes) : res devargs :=
  argsLoop (N.to_nat cnt) pkt (mkArgs phone cnt (as_args a)).
(** :36-44; an item that fails is logged and skipped *)
Fixpoint argsPut (gs : list argdata) (pkt : bytes) : res bytes :=
  match gs with
  | [] => Ok pkt
  | g :: t => match argEncode g with
              | Ok b => argsPut t (WriteBytes pkt b)
              | Err _ => argsPut t pkt
              | Panic => Panic
              end
  end.
(** :34-46: the packet is built, and nil returned *)
Definition argsEncode (a : devargs) : res bytes :=
  rbind (argsPut (as_args a) (WriteByte [] (as_cnt a))) (fun _ => Ok []).
End Args.
Arguments argdata V : clear implicits.
Arguments devargs V : clear implicits.
