(** Specification vocabulary for the shared state: what is stored under a phone or a plate,
    which states are consistent, and what an operation left alone *)
From stdpp Require Import gmap.
From Verif Require Import Base TimeM HeaderM ParamsM GeoM MsgM ProgM RingM SpecRing StateM ProcM ServerM SpecCodec.
Local Open Scope N_scope.

(** the device record found under a phone, under a plate *)
Definition devAt (s : st) (phone : str) : option device :=
  match st_byPhone s !! phone with Some l => st_devs s !! l | None => None end.
Definition devWithPlate (s : st) (plate : str) : option device :=
  match st_byPlate s !! plate with Some l => st_devs s !! l | None => None end.
(** the buffer holds the last n of the locations ws, written in this order *)
Definition holds {A} (n : nat) (ws : list A) (r : ring A) : Prop :=
  rg_size r = Z.of_nat n /\ window n ws (rg_slots r)
  /\ rg_writer r = Z.of_nat (length ws mod n) /\ rg_reader r = 0%Z.
(** the location buffer of a phone *)
Definition ringOf (s : st) (phone : str) : option (ring devgeo) :=
  match st_geo s !! phone with Some l => st_rings s !! l | None => None end.
(** the locations reported so far under a phone *)
Definition track (s : st) (phone : str) (ws : list devgeo) : Prop :=
  match ringOf s phone with Some r => holds 100 ws r | None => ws = [] end.
(** the session a session id leads to *)
Definition sessAt (s : st) (id : str) : option session :=
  match st_byID s !! id with Some l => st_sess s !! l | None => None end.

(** Consistent states. *)
Record consistent (s : st) : Prop := {
  (* each index entry leads to a device with that key, found under its other key too *)
  cs_phone : forall p l, st_byPhone s !! p = Some l ->
    exists d, st_devs s !! l = Some d /\ d_phone d = p /\ st_byPlate s !! d_plate d = Some l;
  cs_plate : forall q l, st_byPlate s !! q = Some l ->
    exists d, st_devs s !! l = Some d /\ d_plate d = q /\ st_byPhone s !! d_phone d = Some l;
  (* one keepalive job per stored device, no others *)
  cs_jobs1 : base.NoDup (st_jobs s);
  cs_jobs2 : forall p, p ∈ st_jobs s <-> is_Some (st_byPhone s !! p);
  (* each location buffer holds reports of its own phone, and belongs to one phone *)
  cs_geo : forall p l, st_geo s !! p = Some l -> exists r ws, st_rings s !! l = Some r
    /\ holds 100 ws r /\ Forall (fun g => dg_phone g = p) ws;
  cs_geo_inj : forall p q l, st_geo s !! p = Some l -> st_geo s !! q = Some l -> p = q;
  cs_params : forall p d, st_params s !! p = Some d -> dp_phone d = p;
  (* registered sessions have that id; sessions and devices have a connection *)
  cs_sess : forall i l, st_byID s !! i = Some l -> exists x, st_sess s !! l = Some x /\ ss_id x = i;
  cs_conn : forall l x, st_sess s !! l = Some x ->
    is_Some (st_conns s !! ss_conn x) /\ ss_sn x <= 65535;
  cs_conn_inj : forall l l' x x', st_sess s !! l = Some x -> st_sess s !! l' = Some x' ->
    ss_conn x = ss_conn x' -> l = l'
}.

(** [p] is a message with this id whose body decodes to [b] *)
Definition carries (e : env) (s : st) (p : packet) (id : N) (b : body) : Prop :=
  h_id (pk_hdr p) = id
  /\ (fragment (pk_hdr p) = false \/ pk_segdone p = true)
  /\ msgDecode (e_o e) (e_civil e (st_clock s)) (kind_of b) p = Ok (mkMsg (pk_hdr p) b).
(** the outgoing message [m] answers [p]: same phone, version and serial number, with its
    own message id *)
Definition answers (p : packet) (id : N) (b : body) (m : msg) : Prop :=
  m = mkMsg (mkHeader id (h_attr (pk_hdr p)) (h_proto (pk_hdr p)) (h_phone (pk_hdr p))
                      (h_sn (pk_hdr p)) (h_frag (pk_hdr p))) b.

(** a message that does not answer one of the device: for the device's phone and version, with
    this serial number; neither fragmented nor encrypted *)
Definition platform_msg (d : device) (id sn : N) (b : body) : msg :=
  mkMsg (mkHeader id (mkAttr 0 0 0 (match d_ver d with V2019 => 1 | _ => 0 end) 0 EncNone false V2011)
                  (d_proto d) (d_phone d) sn None) b.

(** the value a list of parameters gives an id: the last one counts *)
Definition value_of (d : devparams) (id : N) : option param := last_with id (dp_list d).
(** the device with this status *)
Definition with_status (d : device) (x : N) : device :=
  mkDevice (d_id d) (d_plate d) (d_phone d) (d_sid d) (d_conn d) (d_keep d) (d_last d) x
           (d_ver d) (d_proto d) (d_auth d) (d_imei d) (d_sw d).

(** the surrogate halves of Unicode, which are no characters *)
Definition surrogate (id : N) : Prop := 0xd800 <= id <= 0xdfff.
(** phones that are decimal digits, ids other than those *)
Definition plain_key (ph : str) (id : N) : Prop := Forall (fun b => 48 <= b <= 57) ph /\ id < 65536 /\ ~ surrogate id.
(** the fragments of one message *)
Definition of_message (ph : str) (id : N) (x : segment) : bool := bool_decide (sg_phone x = ph /\ sg_id x = id).

(** all devices but those under this phone and this plate are untouched *)
Definition others_kept (phone plate : str) (s s' : st) : Prop :=
  (forall q, q <> phone -> devAt s' q = devAt s q)
  /\ (forall q, q <> plate -> devWithPlate s' q = devWithPlate s q).
(** everything but devices, their indexes and the jobs is untouched *)
Definition rest_kept (s s' : st) : Prop :=
  st_rings s' = st_rings s /\ st_geo s' = st_geo s /\ st_params s' = st_params s
  /\ st_segs s' = st_segs s /\ st_sess s' = st_sess s /\ st_byID s' = st_byID s
  /\ st_conns s' = st_conns s /\ st_clock s' = st_clock s.
(** nothing stored under another phone is touched *)
Definition isolated (phone : str) (s s' : st) : Prop :=
  forall q, q <> phone -> devAt s' q = devAt s q /\ ringOf s' q = ringOf s q
                          /\ st_params s' !! q = st_params s !! q.
(** connections, session registry and clock are untouched, sessions but for their serial
    numbers *)
Definition conns_kept (s s' : st) : Prop :=
  st_conns s' = st_conns s /\ st_byID s' = st_byID s /\ st_clock s' = st_clock s
  /\ forall l, ss_id <$> st_sess s' !! l = ss_id <$> st_sess s !! l
              /\ ss_conn <$> st_sess s' !! l = ss_conn <$> st_sess s !! l.

(** ** Authentication codes *)
(** the 32-bit FNV-1a hash *)
Fixpoint fnv1a (h : N) (s : bytes) : N :=
  match s with [] => h | b :: t => fnv1a ((N.lxor h b * 0x01000193) mod 2 ^ 32) t end.
(** [c] is the code of a device: the hash of "id_plate_phone" in decimal *)
Definition is_code (id plate phone c : str) : Prop :=
  decimal c (fnv1a 0x811c9dc5 (id ++ [95] ++ plate ++ [95] ++ phone)).
