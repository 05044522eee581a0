(** Model of internal/protocol/frame_handler.go *)
From Verif Require Import Base.
Local Open Scope N_scope.

(** The bufio.Reader over the connection (frame_handler.go:39-44): the bytes it has
    buffered, the results of the connection's following Read calls, and the error
    that follows them (io.EOF when the peer closes).  An empty result stands for a
    Read that returns 0 bytes and no error. *)
Record stream : Type := mkStream { st_cur : bytes; st_next : list bytes; st_end : gerr }.

(** All bytes that will still be delivered. *)
Definition st_bytes (s : stream) : bytes := st_cur s ++ concat (st_next s).

(** The loop of Recv, frame_handler.go:50-69, over the bytes of the current buffer:
    either it ends with a frame and the unread part of the buffer, or it needs more
    input in state (inMessage, readBuf[0], buf). *)
Fixpoint recvBuf (l : bytes) (inMessage : bool) (last : N) (buf : bytes)
  : (bytes * bytes) + (bool * N * bytes) :=
  match l with
  | [] => inr (inMessage, last, buf)
  | b :: t =>
      if b =? 0x7e then
        if inMessage then inl (buf ++ [b], t) else recvBuf t true b (buf ++ [b])
      else if inMessage then recvBuf t true b (buf ++ [b]) else recvBuf t false b buf
  end.

(** The loop continued over the following Read results.  A Read of 0 bytes leaves
    readBuf[0] as it was, and the loop handles that byte again. *)
Fixpoint recvChunks (cs : list bytes) (inMessage : bool) (last : N) (buf : bytes)
  : option (bytes * bytes * list bytes) :=
  match cs with
  | [] => None
  | c :: cs' =>
      let l := match c with [] => [last] | _ => c end in
      match recvBuf l inMessage last buf with
      | inl (f, t) => Some (f, t, cs')
      | inr (im, la, bf) => recvChunks cs' im la bf
      end
  end.

(** frame_handler.go:46-86 Recv.  MaxFrameLen is only an initial capacity; on a read
    error the bytes collected so far are lost.  ErrFrameReadEmpty (lines 71-73) is
    unreachable because the loop only ends after two appends.  The debug logging of
    lines 75-83 is left out. *)
Definition recv (s : stream) : res bytes * stream :=
  match recvBuf (st_cur s) false 0 [] with
  | inl (f, t) => (Ok f, mkStream t (st_next s) (st_end s))
  | inr (im, la, bf) =>
      match recvChunks (st_next s) im la bf with
      | Some (f, t, cs) => (Ok f, mkStream t cs (st_end s))
      | None => (Err (st_end s), mkStream [] [] (st_end s))
      end
  end.

(** Recv called repeatedly until its first error: the frames handed to the pipeline.
    Each frame consumes at least two bytes, so [frames] has enough fuel. *)
Fixpoint recvAll (fuel : nat) (s : stream) : list bytes :=
  match fuel with
  | O => []
  | S k => match recv s with
           | (Ok f, s') => f :: recvAll k s'
           | _ => []
           end
  end.
Definition frames (s : stream) : list bytes := recvAll (S (length (st_bytes s))) s.

(** frame_handler.go:88-109 Send against a writer described by the results of its
    successive Write calls: the number of bytes it took and its error.  The result is
    the bytes the writer took and what Send returned; [None] if the loop is still
    running when the given results are used up. *)
Fixpoint sendLoop (p : bytes) (ws : list (nat * option gerr))
  : bytes * option (res unit) :=
  match ws with
  | [] => ([], None)
  | (n, Some e) :: _ => (firstn n p, Some (Err e))
  | (n, None) :: t =>
      if (length p <=? n)%nat then (p, Some (Ok tt))
      else let '(out, r) := sendLoop (skipn n p) t in (firstn n p ++ out, r)
  end.
Definition send (payload : bytes) (ws : list (nat * option gerr))
  : bytes * option (res unit) :=
  match payload with [] => ([], Some (Ok tt)) | _ => sendLoop payload ws end.
