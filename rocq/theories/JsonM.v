(** The body of a setting (PUT /device/:phone/params) as JSON: what c.ShouldBind, called at internal/api/api.go:74 on
    a model.DeviceParams{}, makes of it.  For a request of content type application/json ShouldBind is
    encoding/json's Decode; its behaviour is transcribed here for the two types of
    internal/protocol/model/device_params.go:19-23 and :77-81.  Not modelled: JSON text (the body is given as the
    value it denotes), other content types, and the merging of a repeated "params" (the last one counts here). *)
From stdpp Require Import gmap.
From Verif Require Import Base HexM ParamsM MsgM ProgM StateM ProcM HttpM.
Local Open Scope N_scope.

(** A JSON value.  Numbers are kept as they are written, texts as the bytes they denote; the members of an object
    in their order. *)
Inductive jvalue : Type :=
| JNull | JBool (b : bool) | JNum (t : str) | JText (s : str) | JArr (l : list jvalue) | JObj (l : list (str * jvalue)).

(** the key of a member is compared with a field's name without regard to case (ASCII only here) *)
Definition lowerCase (c : N) : N := if (65 <=? c) && (c <=? 90) then c + 32 else c.
Definition keyIs (k name : str) : bool := bool_decide (List.map lowerCase k = List.map lowerCase name).
(** The members with this key are stored one after the other into the field; [f old v] is the field's new content and
    whether there was an error.  Decoding goes on after an error, which is reported at the end. *)
Fixpoint bindField {A} (name : str) (f : A -> jvalue -> A * bool) (l : list (str * jvalue)) (old : A) : A * bool :=
  match l with
  | [] => (old, false)
  | (k, v) :: t =>
      if keyIs k name then
        let (x, er) := f old v in
        let (y, er') := bindField name f t x in (y, er || er')
      else bindField name f t old
  end.

(** a field of an unsigned type: strconv.ParseUint on the number as it is written *)
Fixpoint parseDigits (t : str) (a : N) : option N :=
  match t with
  | [] => Some a
  | c :: t' => if (48 <=? c) && (c <=? 57) then parseDigits t' (10 * a + (c - 48)) else None
  end.
Definition bindUint (max : N) (old : N) (v : jvalue) : N * bool :=
  match v with
  | JNull => (old, false)
  | JNum t => match (if bool_decide (t = []) then None else parseDigits t 0) with
              | Some n => if n <=? max then (n, false) else (old, true)
              | None => (old, true)
              end
  | _ => (old, true)
  end.
(** [num]: strconv.ParseFloat, of whose result only the integer part is used later; None: out of range.
    Every number within the value is converted. *)
Fixpoint numbersOk (num : str -> option Z) (v : jvalue) : bool :=
  match v with
  | JNum t => match num t with Some _ => true | None => false end
  | JArr l => forallb (numbersOk num) l
  | JObj l => forallb (fun kv => numbersOk num (snd kv)) l
  | _ => true
  end.
(** the field ParamValue of type any *)
Definition bindAny (num : str -> option Z) (old : pval) (v : jvalue) : pval * bool :=
  match v with
  | JNum t => match num t with Some z => (VF64 z, false) | None => (old, true) end
  | JText s => (VStr s, false)
  | _ => (VOther, negb (numbersOk num v))
  end.
(** the names of the fields, from the json tags at device_params.go:21-22 and :78-80 *)
Definition kCnt : str := [112; 97; 114; 97; 109; 67; 110; 116].
Definition kParams : str := [112; 97; 114; 97; 109; 115].
Definition kId : str := [112; 97; 114; 97; 109; 73; 100].
Definition kLen : str := [112; 97; 114; 97; 109; 76; 101; 110].
Definition kValue : str := [112; 97; 114; 97; 109; 86; 97; 108; 117; 101].

(** A nil *ParamData, which ParamData.Encode (device_params.go:94) dereferences: it stands for itself as a parameter
    whose encoding panics. *)
Definition nilParam : param := mkParam 1 0 VOther.
(** an element of Params; ParamData{} is allocated for everything but null *)
Definition bindItem (num : str -> option Z) (v : jvalue) : param * bool :=
  match v with
  | JNull => (nilParam, false)
  | JObj l =>
      let (id, e1) := bindField kId (bindUint 4294967295) l 0 in
      let (ln, e2) := bindField kLen (bindUint 255) l 0 in
      let (va, e3) := bindField kValue (bindAny num) l VOther in
      (mkParam id ln va, e1 || e2 || e3)
  | _ => (mkParam 0 0 VOther, true)
  end.
Definition bindItems (num : str -> option Z) (old : list param) (v : jvalue) : list param * bool :=
  match v with
  | JNull => ([], false)
  | JArr l => (List.map (fun x => fst (bindItem num x)) l, existsb (fun x => snd (bindItem num x)) l)
  | _ => (old, true)
  end.
(** The parameters as bound and whether ShouldBind fails; None: the body is not JSON. *)
Definition bindBody (num : str -> option Z) (body : option jvalue) : devparams * bool :=
  match body with
  | None => (mkParams [] 0 [], true)
  | Some JNull => (mkParams [] 0 [], false)
  | Some (JObj l) =>
      let (c, e1) := bindField kCnt (bindUint 255) l 0 in
      let (ps, e2) := bindField kParams (bindItems num) l [] in
      (mkParams [] c ps, e1 || e2)
  | Some _ => (mkParams [] 0 [], true)
  end.
(** internal/api/api.go:71-92 with the body of the request *)
Definition httpSetting (e : env) (num : str -> option Z) (phone : str) (body : option jvalue) (w : wres) : sp response :=
  let (ps, bad) := bindBody num body in http e (RPutParams phone bad ps w).
