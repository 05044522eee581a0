(** Model of the lookups of internal/config/asset.go; the contents of the files are left out; RestoreAsset is in
    RestoreM.v *)
From stdpp Require Import gmap.
From Verif Require Import Base.
Local Open Scope N_scope.

(** the generators configsBannerTxt, configsDefaultYaml and testClientConfigsDefaultYaml *)
Inductive gen : Type := GBanner | GServer | GClient.
Global Instance gen_eqdec : EqDecision gen. Proof. solve_decision. Defined.

(** strings.Replace(name, "\\", "/", -1) *)
Definition canon (name : str) : str := List.map (fun c => if c =? 92 then 47 else c) name.
(** strings.Split(name, "/") *)
Fixpoint split (name : str) : list str :=
  match name with
  | [] => [[]]
  | c :: t => if c =? 47 then [] :: split t
              else match split t with p :: ps => (c :: p) :: ps | [] => [[c]] end
  end.

(** "configs", "banner.txt", "default.yaml", "test", "client" *)
Definition nConfigs : str := [99; 111; 110; 102; 105; 103; 115].
Definition nBanner : str := [98; 97; 110; 110; 101; 114; 46; 116; 120; 116].
Definition nDefault : str := [100; 101; 102; 97; 117; 108; 116; 46; 121; 97; 109; 108].
Definition nTest : str := [116; 101; 115; 116].
Definition nClient : str := [99; 108; 105; 101; 110; 116].

(** asset.go:193-197 _bindata *)
Definition bindata : list (str * gen) :=
  [ (nConfigs ++ 47 :: nBanner, GBanner);
    (nConfigs ++ 47 :: nDefault, GServer);
    (nTest ++ 47 :: nClient ++ 47 :: nConfigs ++ 47 :: nDefault, GClient) ].
Fixpoint assoc {A} (k : str) (l : list (str * A)) : option A :=
  match l with [] => None | (k', a) :: t => if bool_decide (k' = k) then Some a else assoc k t end.
(** asset.go:145-155 Asset and :171-181 AssetInfo: the generator that is called *)
Definition assetOf (name : str) : option gen := assoc (canon name) bindata.
(** asset.go:184-190 AssetNames, in some order *)
Definition assetNames : list str := List.map fst bindata.

(** asset.go:234-237 bintree *)
Inductive bintree : Type := Tree (f : option gen) (children : list (str * bintree)).
Definition bt_func (t : bintree) : option gen := let 'Tree f _ := t in f.
Definition bt_children (t : bintree) : list (str * bintree) := let 'Tree _ c := t in c.
(** asset.go:239-251 _bintree *)
Definition bintreeRoot : bintree :=
  Tree None [ (nConfigs, Tree None [ (nBanner, Tree (Some GBanner) []); (nDefault, Tree (Some GServer) []) ]);
              (nTest, Tree None [ (nClient, Tree None [ (nConfigs, Tree None [ (nDefault, Tree (Some GClient) []) ]) ]) ]) ].
(** asset.go:214-223 *)
Fixpoint walk (t : bintree) (ps : list str) : option bintree :=
  match ps with
  | [] => Some t
  | p :: ps => match assoc p (bt_children t) with Some t' => walk t' ps | None => None end
  end.
(** asset.go:212-232 AssetDir *)
Definition assetDir (name : str) : option (list str) :=
  let node := match name with [] => Some bintreeRoot | _ => walk bintreeRoot (split (canon name)) end in
  match node with
  | None => None
  | Some t => match bt_func t with Some _ => None | None => Some (List.map fst (bt_children t)) end
  end.
