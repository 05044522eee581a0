(** The data the platform keeps for its devices, as a machine without caches, pointers, ring
    buffers, timers or locks: what each message does to it and what it is answered, and what a
    keepalive check does. *)
From stdpp Require Import gmap.
From Verif Require Import Base HexM TimeM HeaderM ParamsM GeoM MsgM PacketM ProgM RingM StateM ProcM ServerM SpecCodec SpecState.
Local Open Scope N_scope.

(** the registered devices by phone, the locations each phone has reported (oldest first), and
    the terminal parameters of each phone *)
Record platform : Type := mkPlat {
  pf_dev : gmap str device; pf_loc : gmap str (list devgeo); pf_par : gmap str devparams }.
Definition no_data : platform := mkPlat ∅ ∅ ∅.
Definition reported (pl : platform) (ph : str) : list devgeo := default [] (pf_loc pl !! ph).

Definition enter (d : device) (pl : platform) : platform := mkPlat (<[d_phone d := d]> (pf_dev pl)) (pf_loc pl) (pf_par pl).
Definition strike (ph : str) (pl : platform) : platform := mkPlat (delete ph (pf_dev pl)) (pf_loc pl) (pf_par pl).
Definition append (ph : str) (g : devgeo) (pl : platform) : platform :=
  mkPlat (pf_dev pl) (<[ph := reported pl ph ++ [g]]> (pf_loc pl)) (pf_par pl).
Definition forget (ph : str) (pl : platform) : platform := mkPlat (pf_dev pl) (delete ph (pf_loc pl)) (pf_par pl).
Definition store (ph : str) (ps : devparams) (pl : platform) : platform :=
  mkPlat (pf_dev pl) (pf_loc pl) (<[ph := ps]> (pf_par pl)).
(** heard of at time t, and now in this status *)
Definition heard (t : Z) (status : N) (d : device) : device :=
  mkDevice (d_id d) (d_plate d) (d_phone d) (d_sid d) (d_conn d) (d_keep d) t status
           (d_ver d) (d_proto d) (d_auth d) (d_imei d) (d_sw d).
Definition plate_taken (pl : platform) (plate : str) : Prop := map_Exists (fun _ d => d_plate d = plate) (pf_dev pl).

(** decimal notation of a number below 10^w *)
Fixpoint dec_string (w : nat) (n : N) : str :=
  match w with
  | O => []
  | S w' => if n <? 10 then [48 + n] else dec_string w' (n / 10) ++ [48 + n mod 10]
  end.
(** the authentication code of a device *)
Definition code_for (id plate phone : str) : str :=
  dec_string 20 (fnv1a 0x811c9dc5 (id ++ [95] ++ plate ++ [95] ++ phone)).

(** the parameter table [old] with the values of [new]: no id is added, each id is listed once,
    in increasing order *)
Fixpoint insert_id (i : N) (l : list N) : list N :=
  match l with
  | [] => [i]
  | j :: t => if i <? j then i :: l else if i =? j then l else j :: insert_id i t
  end.
Definition merged (old new : devparams) : devparams :=
  let l := omap (fun i => match last_with i (dp_list new) with Some q => Some q | None => last_with i (dp_list old) end)
                (fold_right insert_id [] (List.map p_id (dp_list old))) in
  mkParams (dp_phone old) (N.of_nat (length l) mod 256) l.

(** the answer to a message: its id and body, nothing, an error, or a crash of the handler *)
Definition answer : Type := res (option (N * body)).

(** A message with header [h] and body [b] arrives at time [t] (in civil time [now]) on the
    connection [c] accepted from the address [addr].  [dflt] is the built-in parameter table of
    the simulated terminal. *)
Definition handle (dflt : str -> res devparams) (addr : str) (c : nat) (t : Z) (now : civil) (h : header) (b : body)
    (pl : platform) : platform * answer :=
  let ph := h_phone h in
  let general r := Ok (Some (0x8001, B8001 (h_sn h) (h_id h) r)) in
  let registered er f := match pf_dev pl !! ph with Some d => f d | None => (pl, Err er) end in
  match b with
  | B0002 => registered ErrDeviceNotFound (fun d => (enter (heard t (d_status d) d) pl, general 0))
  | B0003 => registered ErrDeviceNotFound (fun d => (strike ph pl, general 0))
  | B0100 r =>
      let refused x := (pl, Ok (Some (0x8100, B8100 (h_sn h) x [65; 117; 116; 104; 67; 111; 100; 101]))) in
      if bool_decide (plate_taken pl (r_plate r)) then refused 1
      else if bool_decide (is_Some (pf_dev pl !! ph)) then refused 3
      else (enter (mkDevice (r_devid r) (r_plate r) ph addr c 60000 t Offline (a_ver (h_attr h)) (h_proto h) [] [] []) pl,
            Ok (Some (0x8100, B8100 (h_sn h) 0 (code_for (r_devid r) (r_plate r) ph))))
  | B0102 _ code imei sw =>
      registered ErrDeviceNotFound (fun d =>
        if bool_decide (code = code_for (d_id d) (d_plate d) ph)
        then (enter (mkDevice (d_id d) (d_plate d) ph (d_sid d) (d_conn d) (d_keep d) t Online
                              (d_ver d) (d_proto d) code imei sw) pl, general 0)
        else (strike ph pl, general 1))
  | B0200 m =>
      registered ErrDeviceNotFound (fun d =>
        (append ph (mkDevGeo ph (geoDecode (l_status m)) (l_lat m) (l_lon m) (l_altitude m) (l_speed m) (l_dir m)
                             (ParseTime now (l_time m)))
                (if N.testbit (l_status m) 0 then pl else enter (heard t Sleeping d) pl), general 0))
  | B8001 _ _ r =>
      if r =? 0 then
        registered ErrActiveClose (fun d =>
          ((if d_status d =? Offline then enter (heard t Online d) pl else pl), Ok None))
      else (pl, Ok None)
  | B8100 _ _ code =>
      registered ErrActiveClose (fun d =>
        (pl, Ok (Some (0x0102, B0102 (N.of_nat (length code) mod 256) code (d_imei d) (d_sw d)))))
  | B8103 _ (Some ps) =>
      (store ph (match pf_par pl !! ph with Some old => merged old ps | None => ps end) pl,
       Ok (Some (0x0001, B0001 (h_sn h) (h_id h) 0)))
  | B8104 =>
      let told ps := Ok (Some (0x0104, B0104 (h_sn h) 0 (Some ps))) in
      match pf_par pl !! ph with
      | Some ps => (pl, told ps)
      | None => match dflt ph with
                | Ok ps => (store ph ps pl, told ps)
                | Err er => (pl, Err er)
                | Panic => (pl, Panic)
                end
      end
  | B9205 q =>
      (pl, Ok (Some (0x1205, B1205 (h_sn h) 1 (mkMQ (q_chan q) (q_start q) (q_end q) 0 0 0 0 0) 0)))
  | _ => (pl, Ok None)
  end.

(** The keepalive check of a phone at time [t]. *)
Definition check (t : Z) (ph : str) (pl : platform) : platform :=
  match pf_dev pl !! ph with
  | None => pl
  | Some d =>
      if (t <=? d_last d + d_keep d)%Z then pl
      else if d_status d =? Offline then forget ph (strike ph pl)
      else enter (with_status d Offline) pl
  end.

(** the messages the platform knows *)
Definition known (id : N) : option mkind :=
  match id with
  | 0x0001 => Some K0001 | 0x0002 => Some K0002 | 0x0003 => Some K0003 | 0x0100 => Some K0100
  | 0x0102 => Some K0102 | 0x0104 => Some K0104 | 0x0200 => Some K0200 | 0x1205 => Some K1205
  | 0x8001 => Some K8001 | 0x8100 => Some K8100 | 0x8103 => Some K8103 | 0x8104 => Some K8104
  | 0x9205 => Some K9205 | _ => None
  end.
(** Whether the packet is a message to be handled now: it is no fragment, or the one whose number
    is the total announced by the fragment of the message that was stored first. *)
Definition whole (s : st) (p : packet) : bool :=
  if a_frag (h_attr (pk_hdr p)) =? 1 then
    match h_frag (pk_hdr p), st_segs s !! segKey (h_phone (pk_hdr p)) (h_id (pk_hdr p)) with
    | Some f, Some y => f_index f =? sg_total y
    | _, _ => false
    end
  else true.
(** the message a frame carries *)
Definition received (e : env) (s : st) (frm : bytes) : option (header * body) :=
  match decodePacket (e_o e) frm with
  | Ok p =>
      match known (h_id (pk_hdr p)) with
      | Some k => if whole s p then match msgDecode (e_o e) (e_civil e (st_clock s)) k p with
                                    | Ok m => Some (m_hdr m, m_body m)
                                    | _ => None
                                    end
                  else None
      | None => None
      end
  | _ => None
  end.
(** the built-in parameter table *)
Definition builtin (e : env) (ph : str) : res devparams := paramsDecode (e_o e) ph 39 (Str2Byte_slice paramByteStr).

(** what an event does to the data *)
Definition advance (e : env) (w : world) (ev : event) (pl : platform) : platform :=
  match ev with
  | EFrame sl (Ok frm) _ =>
      if bool_decide (sl ∈ w_live w) then
        match st_sess (w_st w) !! sl, received e (w_st w) frm with
        | Some x, Some (h, b) =>
            fst (handle (builtin e) (ss_id x) (ss_conn x) (st_clock (w_st w)) (e_civil e (st_clock (w_st w))) h b pl)
        | _, _ => pl
        end
      else pl
  | ETick ph => check (st_clock (w_st w)) ph pl
  | _ => pl
  end.
Fixpoint follow (e : env) (w : world) (evs : list event) (pl : platform) : platform :=
  match evs with
  | [] => pl
  | ev :: t => follow e (step e w ev) t (advance e w ev pl)
  end.

(** the state of the server shows the data [pl] *)
Definition shows (s : st) (pl : platform) : Prop :=
  forall ph, devAt s ph = pf_dev pl !! ph /\ track s ph (reported pl ph) /\ st_params s !! ph = pf_par pl !! ph.

(** What the connection of the session gets for the answer [a] to a message with header [h]
    (nothing disturbs the write): the frames written and whether the session goes on. *)
Definition outcome (e : env) (k : conn) (h : header) (a : answer) : list bytes * bool :=
  let fails er := ([], match er with ErrEOF | ErrClosedPipe | ErrNetClosed | ErrDeviceNotFound => false | _ => true end) in
  match a with
  | Ok None => ([], true)
  | Ok (Some (id, b)) =>
      match encodePacket (e_o e) (mkMsg (with_id h id) b) with
      | Ok f => if cn_open k then ([f], true) else ([], false)
      | Err er => fails er
      | Panic => ([], false)
      end
  | Err er => fails er
  | Panic => ([], false)
  end.

(** what a registration fixes *)
(** * The life of a registration *)
Definition same_identity (d d' : device) : Prop :=
  d_id d' = d_id d /\ d_plate d' = d_plate d /\ d_phone d' = d_phone d /\ d_sid d' = d_sid d /\ d_conn d' = d_conn d
  /\ d_keep d' = d_keep d /\ d_ver d' = d_ver d /\ d_proto d' = d_proto d.
(** the last communication time: the messages that refresh it *)
Definition refreshing (b : body) (d : device) : Prop :=
  b = B0002
  \/ (exists al imei sw, b = B0102 al (code_for (d_id d) (d_plate d) (d_phone d)) imei sw)
  \/ (exists m, b = B0200 m /\ N.testbit (l_status m) 0 = false)
  \/ (exists sn id, b = B8001 sn id 0 /\ d_status d = Offline).
(** what holds of the record of a phone *)
(** * Invariants of the records *)
Definition record_ok (ph : str) (d : device) : Prop :=
  d_phone d = ph /\ d_keep d = 60000%Z /\ (d_auth d = [] \/ d_auth d = code_for (d_id d) (d_plate d) ph)
  /\ (d_status d = 0 \/ d_status d = 1 \/ d_status d = 2).

(** * Staying registered *)
(** a heartbeat of the phone arrives *)
Definition beats (e : env) (ph : str) (w : world) (ev : event) : Prop :=
  exists sl frm wr h, ev = EFrame sl (Ok frm) wr /\ sl ∈ w_live w /\ received e (w_st w) frm = Some (h, B0002) /\ h_phone h = ph.
(** a message that ends the registration of the phone: logout, or a wrong authentication code *)
Definition leaves (e : env) (ph : str) (w : world) (ev : event) : Prop :=
  exists sl frm wr h b, ev = EFrame sl (Ok frm) wr /\ received e (w_st w) frm = Some (h, b) /\ h_phone h = ph
    /\ (b = B0003 \/ exists al code imei sw d, b = B0102 al code imei sw /\ devAt (w_st w) ph = Some d
          /\ code <> code_for (d_id d) (d_plate d) ph).
(** no event of the list ends the registration of the phone, the clock does not go back, and
    every keepalive check of the phone comes at most a minute after its last heartbeat, the
    first of which came at [t] *)
Inductive attended (e : env) (ph : str) : world -> Z -> list event -> Prop :=
| at_nil w t : attended e ph w t []
| at_beat w t ev evs : beats e ph w ev -> attended e ph (step e w ev) (st_clock (w_st w)) evs ->
    attended e ph w t (ev :: evs)
| at_other w t ev evs : ~ leaves e ph w ev -> (ev = ETick ph -> (st_clock (w_st w) <= t + 60000)%Z) ->
    (forall t', ev = EClock t' -> (st_clock (w_st w) <= t')%Z) -> attended e ph (step e w ev) t evs ->
    attended e ph w t (ev :: evs).
