(** The parameter cache as the code has it: the map leads to objects that are changed in place and
    read when the answer is encoded (StateM.v has the values in the map) *)
From stdpp Require Import gmap.
From Verif Require Import Base HexM ParamsM ProgM StateM ProcM.
Local Open Scope N_scope.

(** storage/param_cache.go:13-16 cacheByPhone, and the DeviceParams objects (device_params.go:19-23) *)
Record pheap : Type := mkPHeap { ph_map : gmap str nat; ph_obj : gmap nat devparams }.
Definition hp (A : Type) : Type := prog pheap A.
Definition set_map (f : gmap str nat -> gmap str nat) (h : pheap) : pheap := mkPHeap (f (ph_map h)) (ph_obj h).
Definition set_obj (f : gmap nat devparams -> gmap nat devparams) (h : pheap) : pheap := mkPHeap (ph_map h) (f (ph_obj h)).

(** param_cache.go:31-38 *)
Definition hGet (phone : str) : hp (option nat) :=
  rd1 [mkAcc CParamMap false (Locked MParam)] (fun h => ph_map h !! phone).
(** param_cache.go:40-44; DevicePhone is set when the object is made and not changed afterwards.  A nil
    pointer cannot occur: 8103 and 8104 pass an object they were given or have made *)
Definition hCache (l : nat) : hp unit :=
  Act [mkAcc CParamMap true (Locked MParam)]
      (fun h => match ph_obj h !! l with Some d => set_map (<[dp_phone d := l]>) h | None => h end)
      (fun h => match ph_obj h !! l with Some _ => ret tt | None => panic end).
(** a new object, which no other goroutine knows yet *)
Definition hNew (d : devparams) : hp nat :=
  Act [] (fun h => set_obj (<[fresh (dom (ph_obj h)) := d]>) h) (fun h => ret (fresh (dom (ph_obj h)))).
(** the two fields *)
Definition hList (l : nat) : hp (list param) :=
  Act [mkAcc (CParamList l) false Plain] (fun h => h)
      (fun h => match ph_obj h !! l with Some d => ret (dp_list d) | None => panic end).
Definition hCnt (l : nat) : hp N :=
  Act [mkAcc (CParamCnt l) false Plain] (fun h => h)
      (fun h => match ph_obj h !! l with Some d => ret (dp_cnt d) | None => panic end).
Definition hSetList (l : nat) (ps : list param) : hp unit :=
  wr1 [mkAcc (CParamList l) true Plain] (set_obj (alter (fun d => mkParams (dp_phone d) (dp_cnt d) ps) l)).
Definition hSetCnt (l : nat) (n : N) : hp unit :=
  wr1 [mkAcc (CParamCnt l) true Plain] (set_obj (alter (fun d => mkParams (dp_phone d) n (dp_list d)) l)).

(** device_params.go:55-75 Update: reads p.Params (:57), builds the merged list, assigns p.Params (:73)
    and p.ParamCnt (:74).  The ParamData objects themselves are never changed after Decode. *)
Definition hUpdate (l : nat) (newp : devparams) : hp unit :=
  (ps <- hList l ;;
   let u := paramsUpdate (mkParams [] 0 ps) newp in
   hSetList l (dp_list u) ;;;
   hSetCnt l (dp_cnt u))%prog.
(** msg_processor.go:417-429 processMsg8103 for the phone of the message's header, with the decoded
    parameters *)
Definition hSet (phone : str) (newp : devparams) : hp unit :=
  (c <- hGet phone ;;
   l <- match c with None => hNew newp | Some l => hUpdate l newp ;;; ret l end ;;
   hCache l)%prog.
(** msg_processor.go:432-485 processMsg8104, where [def] are the built-in parameters (:440-478), and
    device_params.go:40-53 Encode, which reads ParamCnt first (:41) and then Params (:42): the count and
    the list that are encoded *)
Definition hQuery (phone : str) (def : devparams) : hp (N * list param) :=
  (c <- hGet phone ;;
   l <- match c with None => l <- hNew def ;; hCache l ;;; ret l | Some l => ret l end ;;
   n <- hCnt l ;;
   ps <- hList l ;;
   ret (n, ps))%prog.

(** the goroutines: messages 0x8103 and 0x8104; the first component is what an 0x8104 answers *)
Inductive pmsg : Type := PSet (phone : str) (newp : devparams) | PQuery (phone : str) (def : devparams).
Definition pcode (m : pmsg) : hp (option (N * list param)) :=
  (match m with
   | PSet ph d => hSet ph d ;;; ret None
   | PQuery ph d => x <- hQuery ph d ;; ret (Some x)
   end)%prog.
Definition prunning (ms : list pmsg) (h : pheap) (sch : list nat) : list (hp (option (N * list param))) * pheap :=
  psteps (List.map pcode ms) h sch.
