(** Specification vocabulary for interleavings: the states every schedule stays in *)
From stdpp Require Import gmap.
From Verif Require Import Base HexM TimeM HeaderM ParamsM MsgM PacketM FrameM ProgM RingM SpecRing StateM ProcM ServerM ConcM SpecCodec SpecState.
Local Open Scope N_scope.

(** every index entry leads to an object that has the entry's key as its own *)
Record sane (s : st) : Prop := {
  sn_phone : forall p l, st_byPhone s !! p = Some l -> exists d, st_devs s !! l = Some d /\ d_phone d = p;
  sn_plate : forall q l, st_byPlate s !! q = Some l -> exists d, st_devs s !! l = Some d /\ d_plate d = q;
  sn_geo : forall p l, st_geo s !! p = Some l -> is_Some (st_rings s !! l);
  sn_rings : forall l r, st_rings s !! l = Some r -> ring_ok r /\ rg_size r = 100%Z;
  sn_params : forall p d, st_params s !! p = Some d -> dp_phone d = p;
  sn_byID : forall i l, st_byID s !! i = Some l -> exists x, st_sess s !! l = Some x /\ ss_id x = i;
  sn_conn : forall l x, st_sess s !! l = Some x -> is_Some (st_conns s !! ss_conn x)
}.
(** what never changes: objects stay, devices keep who they are and sessions what they are *)
Record grows (s s' : st) : Prop := {
  gr_dev : forall l d, st_devs s !! l = Some d -> exists d', st_devs s' !! l = Some d'
    /\ (d_id d', d_plate d', d_phone d', d_sid d', d_conn d', d_keep d', d_ver d', d_proto d')
     = (d_id d, d_plate d, d_phone d, d_sid d, d_conn d, d_keep d, d_ver d, d_proto d);
  gr_sess : forall l x, st_sess s !! l = Some x -> exists x', st_sess s' !! l = Some x'
    /\ ss_id x' = ss_id x /\ ss_conn x' = ss_conn x;
  gr_conn : forall c, is_Some (st_conns s !! c) -> is_Some (st_conns s' !! c);
  gr_ring : forall l, is_Some (st_rings s !! l) -> is_Some (st_rings s' !! l)
}.
(** the message can be decoded or is rejected with an error, and is not a fragment *)
Definition calm (e : env) (p : packet) : Prop :=
  fragment (pk_hdr p) = false
  /\ (forall ik ok now, lookupN optionTable (h_id (pk_hdr p)) = Some (ik, ok) -> msgDecode (e_o e) now ik p <> Panic)
  /\ (h_id (pk_hdr p) = 0x8104 ->
      paramsDecode (e_o e) (h_phone (pk_hdr p)) 39 (Str2Byte_slice paramByteStr) <> Panic).
(** the goroutines that serve an existing session *)
Definition placed (s : st) (g : goroutine) : Prop :=
  match g with GServe sl _ | GMsg sl _ => is_Some (st_sess s !! sl) | _ => True end.
(** the goroutines that must not panic *)
Definition robust (e : env) (g : goroutine) : Prop :=
  match g with
  | GConn _ _ _ | GServe _ _ | GList | GClock _ | GCount => True
  | GMsg _ p => calm e p
  | _ => False
  end.

(** nothing stored under the phone [q] is touched: record, locations, parameters, keepalive
    jobs *)
Definition untouched (q : str) (s s' : st) : Prop :=
  devAt s' q = devAt s q /\ ringOf s' q = ringOf s q /\ st_params s' !! q = st_params s !! q
  /\ base.filter (fun p => p = q) (st_jobs s') = base.filter (fun p => p = q) (st_jobs s).
(** the goroutine does not act for the phone [q] *)
Definition avoids (e : env) (q : str) (g : goroutine) : Prop :=
  match g with
  | GConn _ _ ins | GServe _ ins => forall frm w p, In (Ok frm, w) ins -> decodePacket (e_o e) frm = Ok p ->
                                      h_phone (pk_hdr p) <> q
  | GMsg _ p => h_phone (pk_hdr p) <> q
  | GTick ph | GGeo ph => ph <> q
  | _ => True
  end.
(** the packet is not a registration with the plate [w] *)
Definition other_plate (e : env) (w : str) (p : packet) : Prop :=
  h_id (pk_hdr p) = 0x0100 -> forall now m r, msgDecode (e_o e) now K0100 p = Ok m -> m_body m = B0100 r -> r_plate r <> w.
(** the goroutine registers no device with the plate [w] *)
Definition avoids_plate (e : env) (w : str) (g : goroutine) : Prop :=
  match g with
  | GConn _ _ ins | GServe _ ins => forall frm x p, In (Ok frm, x) ins -> decodePacket (e_o e) frm = Ok p -> other_plate e w p
  | GMsg _ p => other_plate e w p
  | _ => True
  end.
(** only a device of the phone [q] is registered with the plate [w], if any *)
Definition plate_spare (q w : str) (s : st) : Prop :=
  (forall ph d, ph <> q -> devAt s ph = Some d -> d_plate d <> w)
  /\ (forall d, devWithPlate s w = Some d -> d_phone d = q).
(** no location buffer belongs to two phones *)
Definition own_rings (s : st) : Prop := forall p p' l, st_geo s !! p = Some l -> st_geo s !! p' = Some l -> p = p'.
(** [p] together with the goroutines [gs]; the first result is [p]'s *)
Definition beside {A} (e : env) (p : sp A) (gs : list goroutine) (s : st) (sch : list nat) : list (sp (option A)) * st :=
  psteps ((x <- p ;; ret (Some x))%prog :: List.map (fun g => (code e g ;;; ret None)%prog) gs) s sch.
(** the goroutine is one, not the passing of time *)
Definition timeless (g : goroutine) : Prop := match g with GClock _ => False | _ => True end.
(** among goroutines not acting for the phone [q], and while no time passes, [p] ends with the
    result it has alone, and with the same data stored under [q] *)
Definition undisturbed {A} (e : env) (q : str) (p : sp A) : Prop :=
  forall gs s sch r, sane s -> own_rings s -> Forall (placed s) gs -> Forall (avoids e q) gs -> Forall timeless gs ->
    nth_error (fst (beside e p gs s sch)) 0 = Some (Ret r) ->
    r = rmap Some (fst (run p s)) /\ untouched q (snd (run p s)) (snd (beside e p gs s sch)).
(** the same for a registration of [q] with the plate [w], when the others register no device
    with this plate; the plate index too is the same *)
Definition registers_alone {A} (e : env) (q w : str) (sl : nat) (p : sp A) : Prop :=
  forall gs s sch r, sane s -> own_rings s -> plate_spare q w s -> is_Some (st_sess s !! sl) ->
    Forall (placed s) gs -> Forall (avoids e q) gs -> Forall (avoids_plate e w) gs -> Forall timeless gs ->
    nth_error (fst (beside e p gs s sch)) 0 = Some (Ret r) ->
    r = rmap Some (fst (run p s)) /\ untouched q (snd (run p s)) (snd (beside e p gs s sch))
    /\ devWithPlate (snd (beside e p gs s sch)) w = devWithPlate (snd (run p s)) w.
