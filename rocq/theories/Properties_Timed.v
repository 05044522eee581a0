(** C126: how long a silent device stays *)
From stdpp Require Import gmap.
From Verif Require Import Base HexM TimeM HeaderM ParamsM GeoM MsgM PacketM FrameM ProgM RingM StateM ProcM ServerM
  SpecState SpecReg SpecRelease SpecTimed TimedP ExampleData ExampleState Properties_State Properties_Reg Properties_Server Properties_Split Properties_Release.
Local Open Scope Z_scope.

(** C126: whatever the others do and however the checks are spaced *)
Theorem C126_timed : forall e ph lo hi c now evs evs' d, let w := history e now evs in let s := w_st (history e now (evs ++ evs')) in
  let u := d_last d + d_keep d in
  devAt (w_st w) ph = Some d -> wordless e ph w evs' -> 0 <= lo -> c <= u -> spaced lo hi c (check_times e ph w evs') (st_clock s) ->
  (st_clock s <= u -> devAt s ph = Some d)
  /\ (d_status d <> Offline -> (st_clock s <= u + lo -> devAt s ph = Some d \/ devAt s ph = Some (with_status d Offline))
       /\ (u + hi < st_clock s -> devAt s ph = Some (with_status d Offline) \/ devAt s ph = None)
       /\ (u + 2 * hi < st_clock s -> devAt s ph = None))
  /\ (d_status d = Offline -> u + hi < st_clock s -> devAt s ph = None).
Proof. exact silent_timed. Qed.
Print Assumptions C126_timed.
(** with a check every minute, as they are registered: milliseconds since the device was last heard *)
Theorem C126_minute : forall e ph c now evs evs' d, let w := history e now evs in let s := w_st (history e now (evs ++ evs')) in
  let passed := st_clock s - d_last d in
  devAt (w_st w) ph = Some d -> wordless e ph w evs' -> c <= d_last d + 60000 ->
  spaced 60000 60000 c (check_times e ph w evs') (st_clock s) ->
  (passed <= 60000 -> devAt s ph = Some d)
  /\ (d_status d <> Offline ->
        (passed <= 120000 -> is_Some (devAt s ph))
        /\ (120000 < passed -> forall d', devAt s ph = Some d' -> d_status d' = Offline)
        /\ (180000 < passed -> devAt s ph = None))
  /\ (d_status d = Offline -> 120000 < passed -> devAt s ph = None).
Proof. exact silent_minute. Qed.
Print Assumptions C126_minute.
(** The bounds are reached.  The last check before was just after the device had been heard: it is removed a
    millisecond after two minutes.  It was at the time the device was heard: three minutes later it is still there. *)
Definition evs126 : list event := [EClock 62001; ETick phone12; EClock 122001; ETick phone12].
Definition evs126' : list event := [EClock 62000; ETick phone12; EClock 122000; ETick phone12; EClock 182000].
Example C126_ex : let w := history e0 1000 evs2 in devAt (w_st w) phone12 = Some d1 /\ d_status d1 <> Offline /\ d_last d1 = 2000
  /\ wordless e0 phone12 w evs126 /\ wordless e0 phone12 w evs126'
  /\ (let s := w_st (history e0 1000 (evs2 ++ evs126)) in
      spaced 60000 60000 2001 (check_times e0 phone12 w evs126) (st_clock s) /\ st_clock s - d_last d1 = 120001 /\ devAt s phone12 = None)
  /\ (let s := w_st (history e0 1000 (evs2 ++ evs126')) in
      spaced 60000 60000 2000 (check_times e0 phone12 w evs126') (st_clock s) /\ st_clock s - d_last d1 = 180000 /\ is_Some (devAt s phone12)).
Proof.
  split; [vmr|]. split; [vm_compute; discriminate|]. split; [vmr|].
  split; [apply no_word_wordless; vmr|]. split; [apply no_word_wordless; vmr|].
  assert (E : check_times e0 phone12 (history e0 1000 evs2) evs126 = [62001; 122001]) by vmr.
  assert (E' : check_times e0 phone12 (history e0 1000 evs2) evs126' = [62000; 122000]) by vmr.
  assert (C : st_clock (w_st (history e0 1000 (evs2 ++ evs126))) = 122001) by vmr.
  assert (C' : st_clock (w_st (history e0 1000 (evs2 ++ evs126'))) = 182000) by vmr.
  assert (L : d_last d1 = 2000) by vmr.
  cbv zeta. rewrite E, E', C, C', L. cbn [spaced].
  split; [split; [lia|split; [reflexivity|vmr]]|]. split; [lia|split; [reflexivity|]]. eexists. vmr.
Qed.
