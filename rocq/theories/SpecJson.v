(** Specification vocabulary for settings given as JSON (C140) *)
From Coq Require Import String Ascii.
From stdpp Require Import gmap.
From Verif Require Import Base HexM HeaderM ParamsM MsgM PacketM SpecCodec JsonM.
Local Open Scope N_scope.

(** a name as written in the documentation of the interface *)
Fixpoint text (s : string) : str := match s with EmptyString => [] | String a t => N_of_ascii a :: text t end.
(** equal up to the case of letters *)
Definition same_letter (a b : N) : Prop := a = b \/ (97 <= a <= 122 /\ b = a - 32) \/ (97 <= b <= 122 /\ a = b - 32).
Definition called (k : str) (name : string) : Prop := Forall2 same_letter k (text name).
(** the members of this name, of which there is at least one, are such values; there is none *)
Definition member (l : list (str * jvalue)) (name : string) (P : jvalue -> Prop) : Prop :=
  (exists k v, In (k, v) l /\ called k name) /\ forall k v, In (k, v) l -> called k name -> P v.
Definition lacks (l : list (str * jvalue)) (name : string) : Prop := forall k v, In (k, v) l -> ~ called k name.
Definition number (n : N) (v : jvalue) : Prop := exists t, v = JNum t /\ decimal t n.
(** a number of at most [max], 0 if it is left out *)
Definition number_or_0 (l : list (str * jvalue)) (name : string) (max n : N) : Prop :=
  n <= max /\ (member l name (number n) \/ lacks l name /\ n = 0).
(** integers below 2^53 are read exactly *)
Definition exact_numbers (num : str -> option Z) : Prop :=
  forall t n, decimal t n -> n < 9007199254740992 -> num t = Some (Z.of_N n).

(** [v] gives a parameter this value *)
Definition gives (x : pval) (v : jvalue) : Prop :=
  match x with
  | VF64 z => exists n, n < 9007199254740992 /\ z = Z.of_N n /\ number n v
  | VStr s => v = JText s
  | _ => False
  end.
(** {"paramId": ..., "paramLen": ..., "paramValue": ...}, with other members, in any order *)
Definition item (v : jvalue) (p : param) : Prop :=
  exists l, v = JObj l /\ member l "paramId" (number (p_id p)) /\ p_id p < 4294967296
    /\ number_or_0 l "paramLen" 255 (p_len p) /\ member l "paramValue" (gives (p_val p)).
(** {"paramCnt": ..., "params": [...]} *)
Definition asks (v : jvalue) (d : devparams) : Prop :=
  dp_phone d = [] /\ exists l, v = JObj l /\ number_or_0 l "paramCnt" 255 (dp_cnt d)
    /\ member l "params" (fun a => exists its, a = JArr its /\ Forall2 item its (dp_list d)).

(** the frame [f] is a whole message of the platform to [ph] that a terminal decodes to this body *)
Definition tells (o : oracle) (f : bytes) (ph : str) (id sn : N) (b : body) : Prop :=
  exists p, decodePacket o f = Ok p /\ h_id (pk_hdr p) = id /\ h_phone (pk_hdr p) = ph /\ h_sn (pk_hdr p) = sn
    /\ forall now, msgDecode o now (kind_of b) p = Ok (mkMsg (pk_hdr p) b).

(** an item that makes the handler panic ([spoils] below): null, or a known parameter with a value of another kind or none *)
Definition numeric (k : pkind) : bool := match k with PByte | PWord | PDword => true | _ => false end.
Definition misfit (k : pkind) (v : jvalue) : Prop :=
  if numeric k then forall t, v <> JNum t else forall s, v <> JText s.
(** A body that is bound without an error: members of these names, where they occur, are null or of the type of
    their field, and numbers are not too large for a float64. *)
Definition unsigned (max : N) (v : jvalue) : Prop :=
  v = JNull \/ exists t n, v = JNum t /\ t <> [] /\ digits t = true /\ dec_value t = n /\ n <= max.
Inductive readable (num : str -> option Z) : jvalue -> Prop :=
| rb_null : readable num JNull
| rb_bool b : readable num (JBool b)
| rb_num t z : num t = Some z -> readable num (JNum t)
| rb_text s : readable num (JText s)
| rb_arr l : Forall (readable num) l -> readable num (JArr l)
| rb_obj l : Forall (fun kv => readable num (snd kv)) l -> readable num (JObj l).
(** whatever members of this name there are, they are such values *)
Definition each (l : list (str * jvalue)) (name : string) (P : jvalue -> Prop) : Prop :=
  forall k v, In (k, v) l -> called k name -> P v.
Definition typed_item (num : str -> option Z) (v : jvalue) : Prop :=
  v = JNull \/ exists l, v = JObj l /\ each l "paramId" (unsigned 4294967295) /\ each l "paramLen" (unsigned 255)
    /\ each l "paramValue" (readable num).
Definition typed_body (num : str -> option Z) (v : jvalue) : Prop :=
  v = JNull \/ exists l, v = JObj l /\ each l "paramCnt" (unsigned 255)
    /\ each l "params" (fun a => a = JNull \/ exists its, a = JArr its /\ Forall (typed_item num) its).
Definition spoils (v : jvalue) : Prop :=
  v = JNull \/ exists l id k, v = JObj l /\ member l "paramId" (number id) /\ paramType id = Some k /\ id < 4294967296
    /\ each l "paramValue" (misfit k).
(** the body of a request that cannot be bound *)
Definition unbound (num : str -> option Z) (body : option jvalue) : Prop := forall v, body = Some v -> ~ typed_body num v.
