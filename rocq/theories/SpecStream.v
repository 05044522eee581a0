(** Specification vocabulary for byte streams: the frames in them *)
From stdpp Require Import gmap.
From Verif Require Import Base FrameM ProgM StateM ProcM ServerM ConcM StreamM SpecCodec.
Local Open Scope N_scope.

(** the frames in the bytes, from the left: between one delimiter and the next, what lies outside is skipped *)
Inductive delivers : bytes -> list bytes -> Prop :=
| dl_end bs : (~ exists j c r, no_delim j /\ no_delim c /\ bs = j ++ framed c ++ r) -> delivers bs []
| dl_frame j c r fs : no_delim j -> no_delim c -> delivers r fs -> delivers (j ++ framed c ++ r) (framed c :: fs).
(** no Read returns 0 bytes without an error *)
Definition no_empty_read (s : stream) : Prop := ~ In [] (st_next s).
(** the same connection with the same bytes arriving, and the same error at the end *)
Definition same_feed (x y : feed) : Prop :=
  let '(c, addr, s, ws) := x in let '(c', addr', s', ws') := y in
  c = c' /\ addr = addr' /\ ws = ws' /\ st_bytes s = st_bytes s' /\ st_end s = st_end s' /\ no_empty_read s /\ no_empty_read s'.
(** [g] is the goroutine of the connection [x] given the frames in its bytes, and the error when they are used up *)
Definition as_conn (x : feed) (g : goroutine) : Prop :=
  let '(c, addr, s, ws) := x in no_empty_read s /\ exists fs, delivers (st_bytes s) fs
    /\ g = GConn c addr (combine (List.map Ok fs ++ repeat (Err (st_end s)) (length ws)) ws).
