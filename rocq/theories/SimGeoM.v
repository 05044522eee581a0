(** The simulator's base locations: test/client/main.go:78-104 with internal/storage/geo_cache.go.  One process
    holds the buffers of all its terminals.  [V] stands for *model.DeviceGeo (DatagenM.v: simgeo). *)
From stdpp Require Import gmap.
From Verif Require Import Base ProgM RingM StateM.
Local Open Scope Z_scope.

(** geo_cache.go:16-19 cacheByPhone, the buffers in place: nothing in the simulator deletes one (DelGeoByPhone is
    called by the keepalive timer only, which the simulator's client does not start) *)
Notation geobufs V := (gmap str (ring V)).
Section Geo.
Context {V : Type}.
(** what is done to the entry of one phone *)
Definition entry {A} (phone : str) (p : prog (option (ring V)) A) : prog (geobufs V) A :=
  zoom (fun m => m !! phone) (fun o m => partial_alter (fun _ => o) phone m) p.
(** geo_cache.go:35-44 GetGeoRingByPhone *)
Definition bufOf : prog (option (ring V)) unit :=
  wr1 [mkAcc CGeoMap true (Locked MGeo)] (fun o => match o with Some r => Some r | None => Some (newRing ringCapacity) end).
Definition inBuf {A} (p : prog (ring V) A) : prog (option (ring V)) A :=
  zoom (fun o => default (newRing ringCapacity) o) (fun r _ => Some r) p.
(** main.go:78-85 buildDeviceGeo; getDevice gives a device with the terminal's phone *)
Definition buildGeo (v : V) : prog (option (ring V)) unit := (bufOf ;;; inBuf (ringWrite 0 (Some v)))%prog.
(** geo_cache.go:46-52 GetGeoLatestByPhone *)
Definition latestGeo : prog (option (ring V)) (option V) := (bufOf ;;; inBuf (ringLatest 0))%prog.
(** main.go:87-104 reportLocation, [n] rounds: the base location of each report; None: no report in that round *)
Fixpoint rounds (n : nat) : prog (option (ring V)) (list (option V)) :=
  match n with
  | O => ret []
  | S n => (g <- latestGeo ;; t <- rounds n ;; ret (g :: t))%prog
  end.
(** a terminal of dialAndSend (:127-159): buildDeviceGeo, and later reportLocation in a goroutine started after it *)
Definition located (v : V) (n : nat) : prog (option (ring V)) (list (option V)) := (buildGeo v ;;; rounds n)%prog.
Definition locating (ts : list (str * V * nat)) (m : geobufs V) (sch : list nat) : list (prog (geobufs V) (list (option V))) * geobufs V :=
  psteps (List.map (fun t => entry (fst (fst t)) (located (snd (fst t)) (snd t))) ts) m sch.
End Geo.
