(** Vocabulary of the properties C98-C103 *)
From Coq Require Import String.
From stdpp Require Import gmap.
From Verif Require Import Base HexM ParamsM StateM ProcM.
Local Open Scope N_scope.

(** the text of a GBK field; empty when it is not GBK *)
Definition gbk_text (o : oracle) (b : bytes) : str :=
  match o_gbk_dec o b with Some t => t | None => [] end.
(** The built-in table of msg_processor.go:441-477 read entry by entry: id, length, value; all
    but its last entry *)
Definition built_in (o : oracle) : list param :=
  [mkParam 0x1 4 (VU32 0x4b687673);
   mkParam 0x2 4 (VU32 0x6e764e65);
   mkParam 0x3 4 (VU32 0x49716b57);
   mkParam 0x4 4 (VU32 0x52704a36);
   mkParam 0x5 4 (VU32 0x524d6d52);
   mkParam 0x6 4 (VU32 0x3535774e);
   mkParam 0x7 4 (VU32 0x4743525a);
   mkParam 0x10 16 (VStr (gbk_text o (strOf "Xggg7Z5XXKD7nbVa")));
   mkParam 0x11 16 (VStr (gbk_text o (strOf "5bPgVL7SzLafrwN6")));
   mkParam 0x12 16 (VStr (gbk_text o (strOf "HhNviWgwIMnI5UbM")));
   mkParam 0x13 16 (VStr (gbk_text o (strOf "dRt2eYgtdy1jFHWE")));
   mkParam 0x14 16 (VStr (gbk_text o (strOf "geTeyIV_zSsbiJnT")));
   mkParam 0x15 16 (VStr (gbk_text o (strOf "UohhXQqS5ew5u8Ub")));
   mkParam 0x16 16 (VStr (gbk_text o (strOf "h3muPyjnXM8y3Xqs")));
   mkParam 0x17 16 (VStr (gbk_text o (strOf "u9zWYtRDLHcaNjRx")));
   mkParam 0x18 4 (VU32 0x4e586a4f);
   mkParam 0x19 4 (VU32 0x38646c69);
   mkParam 0x1a 16 (VStr (gbk_text o (strOf "N0wV5xmJfMoc8afP")));
   mkParam 0x1b 4 (VU32 0x626c3676);
   mkParam 0x1c 4 (VU32 0x38366537);
   mkParam 0x1d 16 (VStr (gbk_text o (strOf "O4LBpKstEhzOLVF5")));
   mkParam 0x20 4 (VU32 0x386c5255);
   mkParam 0x21 4 (VU32 0x5041666e);
   mkParam 0x22 4 (VU32 0x57456b39);
   mkParam 0x23 16 (VStr (gbk_text o (strOf "a83LCvW7TmPQsn1R")));
   mkParam 0x24 16 (VStr (gbk_text o (strOf "BuYx_I7XNiOc6NMI")));
   mkParam 0x25 16 (VStr (gbk_text o (strOf "e7VpzYUyv5vYd34l")));
   mkParam 0x26 16 (VStr (gbk_text o (strOf "TN7lGfC8jKMInL9g")));
   mkParam 0x27 4 (VU32 0x5057586e);
   mkParam 0x28 4 (VU32 0x674c636c);
   mkParam 0x29 4 (VU32 0x474f6a64);
   mkParam 0x2c 4 (VU32 0x45493157);
   mkParam 0x2d 4 (VU32 0x634e507a);
   mkParam 0x2e 4 (VU32 0x53445442);
   mkParam 0x2f 4 (VU32 0x525f647a);
   mkParam 0x30 4 (VU32 0x5a4a6830);
   mkParam 0x31 2 (VU16 0x6c64);
   mkParam 0x32 4 (VStr (strOf "09302130"))].
(** The last entry, 0x76, announces 35 bytes; these 15 are all there are. *)
Definition built_in_last : string := "030000010100010202000103030001".
(** hexadecimal digits of the characters "6F63386166500000001B" *)
Definition leaked : string := "3646363333383631363635303030303030303142".

(** * Sending to a session (C100) *)
(** what reaches the connection [k] of the frame [f] when its Write ends as [w] says *)
Definition on_wire (k : conn) (f : bytes) (w : wres) : list bytes :=
  if cn_open k then [match w with None => f | Some (n, _) => take n f end] else [].
(** the write fails because the connection is closed *)
Definition broken (k : conn) (w : wres) : bool :=
  negb (cn_open k) || match w with
                      | Some (_, ErrClosedPipe) | Some (_, ErrNetClosed) => true
                      | _ => false
                      end.

(** * Accepted connections (C103) *)
(** the connections among the results of Accept *)
Definition accepted (rs : list (option (nat * str))) : list (nat * str) :=
  flat_map (fun r => match r with Some x => [x] | None => [] end) rs.
