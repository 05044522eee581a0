(** The goroutines of ConcM.v with their mutexes: Lock blocks, critical sections take time,
    and while one is entered what the mutex protects may have any value *)
From stdpp Require Import gmap.
From Verif Require Import Base HexM TimeM HeaderM ParamsM MsgM PacketM FrameM ProgM RingM StateM ProcM ServerM ConcM.
Local Open Scope N_scope.

(** What each mutex protects: the maps of the caches (storage/device_cache.go:14-18,
    geo_cache.go:16-19, param_cache.go:13-16, segment_cache.go:10-13, session_cache.go:18-21);
    the mutex of TCPServer (tcp_server.go:23) protects no memory of its own. *)
Inductive part : Type :=
| PDev (plates phones : gmap str nat)
| PGeo (rings : gmap str nat)
| PParam (params : gmap str devparams)
| PSeg (segs : gmap str segment)
| PSess (ids : gmap str nat)
| PServ.
Definition kind (p : part) : mutex :=
  match p with
  | PDev _ _ => MDev | PGeo _ => MGeo | PParam _ => MParam | PSeg _ => MSeg | PSess _ => MSess | PServ => MServ
  end.
Definition peek (m : mutex) (s : st) : part :=
  match m with
  | MDev => PDev (st_byPlate s) (st_byPhone s)
  | MGeo => PGeo (st_geo s)
  | MParam => PParam (st_params s)
  | MSeg => PSeg (st_segs s)
  | MSess => PSess (st_byID s)
  | MServ => PServ
  end.
Definition put (p : part) (s : st) : st :=
  match p with
  | PDev a b => set_index (fun _ => a) (fun _ => b) s
  | PGeo a => set_geo (fun _ => a) s
  | PParam a => set_params (fun _ => a) s
  | PSeg a => set_segs (fun _ => a) s
  | PSess a => set_byID (fun _ => a) s
  | PServ => s
  end.

(** The mutexes an action locks for its own duration, takes, gives back. *)
Definition locksOf (a : list access) : list mutex :=
  List.flat_map (fun x => match ac_sync x with Locked m => [m] | _ => [] end) a.
Definition takes (a : list access) : list mutex :=
  List.flat_map (fun x => match ac_cell x with CHold m => [m] | _ => [] end) a.
Definition gives (a : list access) : list mutex :=
  List.flat_map (fun x => match ac_cell x with CFree m => [m] | _ => [] end) a.

(** A goroutine: the mutexes it owns across actions; inside a critical section, the protected
    data as it found them; what is left to do (inside a section: from its start). *)
Record thread : Type := mkTh { th_hold : list mutex; th_in : option part; th_prog : sp unit }.
Definition owns (t : thread) (m : mutex) : Prop :=
  In m (th_hold t) \/ exists p, th_in t = Some p /\ kind p = m.

(** The moves of a goroutine, [fr] being the mutexes that nobody owns.  A sync.Mutex is not
    reentrant: whoever owns it, Lock waits. *)
Inductive lmove (fr : mutex -> Prop) : thread -> st -> thread -> st -> Prop :=
(* mutex.Lock() at the start of a method of a cache *)
| l_enter h a f k v m : locksOf a = [m] -> takes a = [] -> gives a = [] -> fr m ->
    lmove fr (mkTh h None (Act a f k)) v (mkTh h (Some (peek m v)) (Act a f k)) v
(* inside, the data may be half changed *)
| l_tear h p r v q : kind q = kind p ->
    lmove fr (mkTh h (Some p) r) v (mkTh h (Some p) r) (put q v)
(* the deferred Unlock: the work of the section is done, on the data it found *)
| l_leave h p a f k v :
    lmove fr (mkTh h (Some p) (Act a f k)) v (mkTh h None (k (put p v))) (f (put p v))
(* an action outside any section *)
| l_plain h a f k v : locksOf a = [] -> takes a = [] -> gives a = [] ->
    lmove fr (mkTh h None (Act a f k)) v (mkTh h None (k v)) (f v)
(* Lock and Unlock of a mutex held across actions; Unlock of a mutex that is not locked is a
   fatal error in Go, no move here *)
| l_take h a f k v m : locksOf a = [] -> takes a = [m] -> gives a = [] -> fr m ->
    lmove fr (mkTh h None (Act a f k)) v (mkTh (m :: h) None (k v)) (f v)
| l_give h h' a f k v m : locksOf a = [] -> takes a = [] -> gives a = [m] -> h = m :: h' ->
    lmove fr (mkTh h None (Act a f k)) v (mkTh h' None (k v)) (f v).

Definition config : Type := list thread * st.
Definition unheld (ts : list thread) (m : mutex) : Prop := forall t, In t ts -> ~ owns t m.
(** one goroutine moves *)
Definition lstep (c c' : config) : Prop :=
  exists i t t', fst c !! i = Some t /\ lmove (unheld (fst c)) t (snd c) t' (snd c') /\ fst c' = <[i := t']> (fst c).
(** the goroutines [gs] at the start *)
Definition lstart (e : env) (gs : list goroutine) : list thread := List.map (fun g => mkTh [] None (code e g)) gs.

(** The data of the sections in progress put back as these found them. *)
Fixpoint puts (l : list part) (s : st) : st := match l with [] => s | p :: t => put p (puts t s) end.
Definition insides (ts : list thread) : list part := omap th_in ts.
Definition settled (ts : list thread) (s : st) : st := puts (insides ts) s.
(** a goroutine that is done and holds nothing *)
Definition finished (t : thread) : Prop := th_hold t = [] /\ th_in t = None /\ exists r, th_prog t = Ret r.
