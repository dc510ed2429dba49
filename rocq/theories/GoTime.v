(** The part of package time used by /repo/header.go: Parse with the layout
    "0215040106" (header.go:68-69), durations.  Times are nanoseconds since
    the Unix epoch (UTC), unbounded: time.Time holds 64-bit seconds, which
    cannot overflow for the years 1969..2068 plus an int64 duration. *)
From Verif Require Import GoBase.

(** time/format.go [isDigit]. *)
Definition is_digit (b : byte) : bool := (48 <=? bz b) && (bz b <=? 57).
(** The value of a digit. *)
Definition digit (b : byte) : Z := bz b - 48.

(** time.getnum: one or two digits; [fixed] requires two. *)
Definition getnum (s : list byte) (fixed : bool) : option (Z * list byte) :=
  match s with
  | [] => None
  | a :: t =>
      if negb (is_digit a) then None
      else match t with
           | b :: t' =>
               if is_digit b then Some (digit a * 10 + digit b, t')
               else if fixed then None else Some (digit a, t)
           | [] => if fixed then None else Some (digit a, t)
           end
  end.

(** time.leadingInt and time.atoi. *)
Fixpoint all_digits (s : list byte) : bool :=
  match s with [] => true | b :: t => is_digit b && all_digits t end.
(** The value of digits. *)
Definition digits_to_Z (s : list byte) : Z := fold_left (fun a b => a * 10 + digit b) s 0.
(** time/format.go [atoi]. *)
Definition atoi (s : list byte) : option Z :=
  match s with
  | b :: t =>
      if (bz b =? 45) || (bz b =? 43)
      then if all_digits t
           then Some (if bz b =? 45 then - digits_to_Z t else digits_to_Z t)
           else None
      else if all_digits s then Some (digits_to_Z s) else None
  | [] => Some 0
  end.

(** time.isLeap, time.daysIn. *)
Definition is_leap (y : Z) : bool :=
  (y mod 4 =? 0) && (negb (y mod 100 =? 0) || (y mod 400 =? 0)).
(** time.go [daysBefore]. *)
Definition days_before (m : Z) : Z :=
  nth (Z.to_nat m) [0; 31; 59; 90; 120; 151; 181; 212; 243; 273; 304; 334; 365] 0.
(** time.go [daysIn]. *)
Definition days_in (m y : Z) : Z :=
  if (m =? 2) && is_leap y then 29 else days_before m - days_before (m - 1).

(** time.Date for valid fields: the number of days since year -292277022399
    (time.daysSinceEpoch), then seconds relative to the Unix epoch. *)
Definition absolute_zero_year : Z := -292277022399.
(** time.go [daysSinceEpoch]. *)
Definition days_since_epoch (year : Z) : Z :=
  let y := year - absolute_zero_year in
  let n := y / 400 in let y := y - 400 * n in let d := 146097 * n in
  let n := y / 100 in let y := y - 100 * n in let d := d + 36524 * n in
  let n := y / 4 in let y := y - 4 * n in let d := d + 1461 * n in
  d + 365 * y.
(** absoluteToInternal + internalToUnix, in seconds. *)
Definition absolute_to_unix : Z := - 9223372028715321600.
(** time.go [Date], for UTC and without seconds. *)
Definition go_date (year month day hour min : Z) : Z :=
  let d := days_since_epoch year in
  let d := d + days_before (month - 1) in
  let d := if is_leap year && (3 <=? month) then d + 1 else d in
  let d := d + (day - 1) in
  d * 86400 + hour * 3600 + min * 60 + absolute_to_unix.

(** time.Parse("0215040106", value): chunks 02 (day), 15 (hour), 04 (minute),
    01 (month), 06 (year); result in nanoseconds since the epoch, UTC. *)
Definition second : Z := 1000000000.
(** time.Minute (header.go:81, 91). *)
Definition minute : Z := 60 * second.

(** header.go:69: time.Parse("0215040106", date). *)
Definition time_parse (v : list byte) : option Z :=
  match getnum v true with
  | None => None
  | Some (day, v) =>
  match getnum v false with
  | None => None
  | Some (hour, v) =>
  if 24 <=? hour then None else
  match getnum v true with
  | None => None
  | Some (min, v) =>
  if 60 <=? min then None else
  match getnum v true with
  | None => None
  | Some (month, v) =>
  if (month <=? 0) || (12 <? month) then None else
  if len v <? 2 then None else
  match atoi (firstn 2 v) with
  | None => None
  | Some y =>
  let year := if 69 <=? y then y + 1900 else y + 2000 in
  match skipn 2 v with
  | _ :: _ => None                                   (* extra text *)
  | [] =>
  if (day <? 1) || (days_in month year <? day) then None
  else Some (go_date year month day hour min * second)
  end end end end end end.

(** [time.Duration(min) * time.Minute] (header.go:81, 91): int64 arithmetic. *)
Definition minutes_dur (min : Z) : Z := int_wrap (min * minute).
