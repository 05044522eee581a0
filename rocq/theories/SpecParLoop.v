(** Parameter requests over HTTP, carried out by a terminal that runs the client (C138) *)
From Coq Require Import Sorted String.
From stdpp Require Import gmap.
From Verif Require Import Base HexM HeaderM ParamsM MsgM PacketM ProgM StateM ProcM ServerM ClientM ConcM SpecState SpecCodec SpecAnswer SpecCmd.
Local Open Scope N_scope.

(** * Both processes *)
(** the frames written to the connection [cn] between two states *)
Definition written (cn : nat) (s s' : st) : list bytes :=
  match st_conns s !! cn, st_conns s' !! cn with
  | Some k, Some k' => skipn (length (cn_out k)) (cn_out k')
  | _, _ => []
  end.
Definition received (fs : list bytes) : list (res bytes * wres) := List.map (fun f => (Ok f, None)) fs.
(** The server handles the request, the terminal reads what this writes to its connection, the
    server reads what the terminal writes.  [s]: the server, whose session [sl] has the
    connection [cn]; [c]: the terminal's process with session [slc] and connection [cnc]. *)
Record ends : Type := mkEnds { en_sl : nat; en_cn : nat; en_slc : nat; en_cnc : nat }.
(** The frames in both directions, and whether both still read from their connections
    afterwards. *)
Definition heard : Type := (list bytes * list bytes * bool)%type.
Definition reading (q q' : res bool) : bool :=
  match q, q' with Ok false, Ok false => true | _, _ => false end.
Definition exchange (e ec : env) (ph : str) (n : ends) (r : request) (s c : st) : (st * st) * heard :=
  let s1 := snd (run (code e (handling ph r)) s) in
  let fs := written (en_cn n) s s1 in
  let x := run (clientLoop ec (en_slc n) (received fs)) c in
  let gs := written (en_cnc n) c (snd x) in
  let y := run (serveLoop e (en_sl n) (received gs)) s1 in
  ((snd y, snd x), (fs, gs, reading (fst x) (fst y))).
Fixpoint exchanges (e ec : env) (ph : str) (n : ends) (reqs : list request) (s c : st) : (st * st) * list heard :=
  match reqs with
  | [] => ((s, c), [])
  | r :: t =>
      let x := exchange e ec ph n r s c in
      let y := exchanges e ec ph n t (fst (fst x)) (snd (fst x)) in
      (fst y, snd x :: snd y)
  end.

(** * What the terminal keeps *)
(** the table the terminal starts with when nothing was ever set *)
Definition default_table (o : oracle) (ph : str) : devparams :=
  mkParams ph 39 (built_in o ++ [mkParam 0x76 35 (VStr (strOf (built_in_last ++ leaked)))]).
(** [t]: the ids of [old], in order, each with the value of [new] if that has one *)
Definition merged (old new t : devparams) : Prop :=
  dp_phone t = dp_phone old /\ dp_cnt t = N.of_nat (length (dp_list t)) mod 256
  /\ StronglySorted (fun a b => p_id a < p_id b) (dp_list t)
  /\ forall id, value_of t id = match value_of old id with
                                | None => None
                                | Some q => Some (match value_of new id with Some q' => q' | None => q end)
                                end.
Definition after_put (t : option devparams) (new t' : devparams) : Prop :=
  match t with None => t' = new | Some old => merged old new t' end.
Definition table_or_default (o : oracle) (ph : str) (t : option devparams) : devparams :=
  match t with Some d => d | None => default_table o ph end.
(** [talk o ph t reqs ans t']: the requests [reqs] to a terminal with table [t]; every table fits
    a message.  An answer: the table as the platform receives it, None for a setting. *)
Inductive talk (o : oracle) (ph : str) : option devparams -> list request -> list (option devparams) -> option devparams -> Prop :=
| tk_end t : talk o ph t [] [] t
| tk_put t bad ps w ps' t1 rs ans t' : params_sent o ps w ps' -> dp_phone ps' = ph -> (length w < 1022)%nat ->
    after_put t ps' t1 -> talk o ph (Some t1) rs ans t' ->
    talk o ph t (RPut bad ps :: rs) (None :: ans) t'
| tk_get t w tb' rs ans t' : params_sent o (table_or_default o ph t) w tb' -> dp_phone tb' = ph -> (length w < 1022)%nat ->
    talk o ph (Some (table_or_default o ph t)) rs ans t' ->
    talk o ph t (RGet :: rs) (Some tb' :: ans) t'.

(** the frame [f] is a whole message of the terminal [ph] with this id, serial number and body *)
Definition says (o : oracle) (f : bytes) (ph : str) (id sn : N) (b : body) : Prop :=
  exists p, decodePacket o f = Ok p /\ h_id (pk_hdr p) = id /\ h_phone (pk_hdr p) = ph /\ h_sn (pk_hdr p) = sn
    /\ fragment (pk_hdr p) = false /\ forall now, msgDecode o now (kind_of b) p = Ok (mkMsg (pk_hdr p) b).
(** the terminal's message for the request with the serial number [sn] *)
Definition reports_back (o : oracle) (ph : str) (a : option devparams) (sn : N) (g : bytes) : Prop :=
  match a with
  | None => says o g ph 0x0001 sn (B0001 sn 0x8103 0)
  | Some d => says o g ph 0x0104 sn (B0104 sn (dp_cnt d) (Some d))
  end.
(** the serial numbers of [n] requests after [sn] *)
Definition serials (sn : N) (n : nat) : list N := List.map (fun j => (sn + 1 + N.of_nat j) mod 65536) (seq 0 n).

(** the terminal's process with another table, and [gs] written to its connection *)
Definition answered (c : st) (ph : str) (cnc : nat) (t : option devparams) (out : list bytes) : st :=
  set_params (partial_alter (fun _ => t) ph) (set_conns (<[cnc := mkConn true out]>) c).
(** the value of a parameter kept for a phone *)
Definition kept_value (c : st) (ph : str) (id : N) : option param :=
  match st_params c !! ph with Some d => value_of d id | None => None end.
