(** Common vocabulary of the model: Go results, byte strings, slices with capacity. *)
From Coq Require Export List NArith ZArith Lia Bool Arith.
Export ListNotations.

(** Error values of the repository.  The code inspects errors only through
    [errors.Is], so a wrapped error is identified with its cause.
    internal/protocol/packet_codec.go:20-24, frame_handler.go:21-23,
    msg_processor.go:22-26, model/header.go:9-12, model/msg.go:14-18,
    model/device_params.go:13-17, storage/*.go; the last four stand for errors
    returned by the net/io packages. *)
Inductive gerr : Type :=
| ErrEmptyPacket | ErrVerifyFailed | ErrEncodeType
| ErrFrameReadEmpty
| ErrMsgIDNotSupportted | ErrNotAuthorized | ErrActiveClose
| ErrDecodeHeader | ErrEncodeHeader
| ErrDecodeMsg | ErrEncodeMsg | ErrGenOutgoingMsg
| ErrParamIDNotSupportted
| ErrDeviceNotFound | ErrGisNotFound | ErrDeviceParamsNotFound | ErrSessionClosed
| ErrEOF | ErrClosedPipe | ErrNetClosed | ErrIO.

(** Outcome of a Go call: a value, a returned error, or a runtime panic. *)
Inductive res (A : Type) : Type :=
| Ok (a : A)
| Err (e : gerr)
| Panic.
Arguments Ok {A} a.
Arguments Err {A} e.
Arguments Panic {A}.

Definition rbind {A B} (r : res A) (f : A -> res B) : res B :=
  match r with Ok a => f a | Err e => Err e | Panic => Panic end.

Definition rmap {A B} (f : A -> B) (r : res A) : res B :=
  match r with Ok a => Ok (f a) | Err e => Err e | Panic => Panic end.

(** Go strings and []byte contents: sequences of bytes. *)
Definition bytes := list N.
Definition str := list N.

Definition byte_ok (b : N) : bool := (b <? 256)%N.
Definition bytes_ok (l : bytes) : bool := forallb byte_ok l.
Definition u16_ok (n : N) : bool := (n <? 65536)%N.
Definition u32_ok (n : N) : bool := (n <? 4294967296)%N.

(** A slice that is read from: the bytes up to [len] and the bytes between [len]
    and [cap].  Go allows [s[i:j]] for [i <= j <= cap(s)], so reads can reach
    [sl_spare]; an index expression [s[i]] is checked against [len]. *)
Record slice : Type := mkSlice { sl_data : bytes; sl_spare : bytes }.

Definition sl_len (s : slice) : nat := length (sl_data s).
Definition sl_cap (s : slice) : nat := length (sl_data s) + length (sl_spare s).

(** [s[lo:hi]] with [lo >= 0]; [hi] may be any int. *)
Definition sl_sub (s : slice) (lo : nat) (hi : Z) : res bytes :=
  if ((Z.of_nat lo <=? hi) && (hi <=? Z.of_nat (sl_cap s)))%Z%bool
  then Ok (firstn (Z.to_nat hi - lo) (skipn lo (sl_data s ++ sl_spare s)))
  else Panic.

(** [s[lo:]]: the upper bound is [len(s)]; the spare capacity is kept. *)
Definition sl_from (s : slice) (lo : nat) : res slice :=
  if (lo <=? sl_len s)%nat
  then Ok (mkSlice (skipn lo (sl_data s)) (sl_spare s))
  else Panic.

(** [s[i]] *)
Definition sl_at (s : slice) (i : nat) : res N :=
  match nth_error (sl_data s) i with Some b => Ok b | None => Panic end.

(** Decoders thread an index through a slice, like the [(pkt []byte, idx *int)]
    parameters of internal/codec/hex. *)
Definition rd (A : Type) : Type := slice -> nat -> res (A * nat).
Definition rd_ret {A} (a : A) : rd A := fun _ i => Ok (a, i).
Definition rd_bind {A B} (m : rd A) (f : A -> rd B) : rd B :=
  fun s i => match m s i with
             | Ok (a, j) => f a s j
             | Err e => Err e
             | Panic => Panic
             end.
Definition rd_fail {A} (e : gerr) : rd A := fun _ _ => Err e.
(** the current value of idx *)
Definition rd_idx : rd nat := fun _ i => Ok (i, i).

Declare Scope rd_scope.
Delimit Scope rd_scope with rd.
Notation "x <- m ;; k" := (rd_bind m (fun x => k))
  (at level 100, m at next level, right associativity) : rd_scope.

(** Behaviour of code outside the repository, or of the Go runtime, that the
    model does not fix.  Every theorem holds for all oracles unless it states a
    hypothesis about them. *)
Record oracle : Type := mkOracle {
  (* golang.org/x/text simplifiedchinese.GBK decoder / encoder; None = error *)
  o_gbk_dec : bytes -> option str;
  o_gbk_enc : str -> option bytes;
  (* gb2260.NewGB2260("").Get(code).Name; None = nil division *)
  o_region : str -> option str;
  (* capacity of a []byte grown by single-byte appends to this length *)
  o_growcap : nat -> nat;
  (* conversion of a JSON number outside the target range to uint8/16/32
     (implementation-defined in Go): bits, value *)
  o_fconv : N -> Z -> N
}.
