(** Model of the time functions of internal/codec/hex/hex.go:179-208.
    A time.Time is its civil reading (the zone is UTC for parsed times and the
    value's own zone when formatting); years are natural numbers. *)
From Verif Require Import Base HexM.
Local Open Scope N_scope.

Record civil : Type := mkCivil
  { c_year : N; c_month : N; c_day : N; c_hour : N; c_min : N; c_sec : N }.

(** Gregorian calendar, as in package time (isLeap, daysIn) *)
Definition isLeap (y : N) : bool :=
  (y mod 4 =? 0) && (negb (y mod 100 =? 0) || (y mod 400 =? 0)).
Definition daysIn (m y : N) : N :=
  if m =? 2 then (if isLeap y then 29 else 28)
  else if (m =? 4) || (m =? 6) || (m =? 9) || (m =? 11) then 30
  else 31.

Definition isDigit (c : N) : bool := (48 <=? c) && (c <=? 57).

(** fmt "%02d" of a number below 100 *)
Definition dec2 (n : N) : str := [48 + n / 10; 48 + n mod 10].

(** hex.go:199-208 FormatTime *)
Definition FormatTime (t : civil) : str :=
  dec2 (c_year t mod 100) ++ dec2 (c_month t) ++ dec2 (c_day t)
  ++ dec2 (c_hour t) ++ dec2 (c_min t) ++ dec2 (c_sec t).

(** two decimal digits *)
Definition get2 (a b : N) : option N :=
  if isDigit a && isDigit b then Some ((a - 48) * 10 + (b - 48)) else None.

(** time.Parse("060102150405", s): two-digit year with the 1969 pivot, range
    checks of month, day, hour, minute, second; anything else (wrong length,
    non-digits) is an error.  The one-digit hour that package time would accept
    leaves a non-digit for the minute, so it fails as well.  Package time also
    accepts a sign in the year and a fraction of a second; the strings parsed here
    come from BCD fields and consist of hexadecimal digits, so neither occurs and
    the model rejects them. *)
Definition timeParse (s : str) : option civil :=
  match s with
  | [y1; y2; m1; m2; d1; d2; h1; h2; n1; n2; s1; s2] =>
      match get2 y1 y2, get2 m1 m2, get2 d1 d2, get2 h1 h2, get2 n1 n2, get2 s1 s2 with
      | Some y, Some m, Some d, Some h, Some n, Some sc =>
          let year := if 69 <=? y then y + 1900 else y + 2000 in
          if (1 <=? m) && (m <=? 12) && (1 <=? d) && (d <=? daysIn m year)
             && (h <? 24) && (n <? 60) && (sc <? 60)
          then Some (mkCivil year m d h n sc)
          else None
      | _, _, _, _, _, _ => None
      end
  | _ => None
  end.

(** hex.go:190-197 ParseTime; [now] is time.Now() *)
Definition ParseTime (now : civil) (s : str) : civil :=
  match timeParse s with Some t => t | None => now end.

(** hex.go:179-183 ReadTime (timeBCDLen = 6) *)
Definition ReadTime (now : civil) : rd civil :=
  (s <- ReadBCD 6 ;; rd_ret (ParseTime now s))%rd.

(** hex.go:186-188 WriteTime *)
Definition WriteTime (pkt : bytes) (t : civil) : bytes := WriteBCD pkt (FormatTime t).
