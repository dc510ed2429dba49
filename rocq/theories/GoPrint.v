(** What radolan2png prints: the parts of packages fmt, time and strconv used
    by radolan2png.go:25-26, 43 and 70. *)
From Verif Require Import GoBase GoTime GoFloat Catalog Composite Png.
From Coq Require String. Import String.StringSyntax.

(** "\n" of radolan2png.go:26, 43, 70. *)
Definition newline : byte := Byte.x0a.

(** strconv's digit table. *)
Definition digit_byte (n : Z) : byte := nth (Z.to_nat n) (bs "0123456789") Byte.x30.
(** strconv: decimal digits of n >= 0 (by repeated division by 10). *)
Fixpoint itoa_loop (fuel : nat) (n : Z) (acc : list byte) : list byte :=
  match fuel with
  | O => acc
  | S f => let acc := digit_byte (n mod 10) :: acc in
           if n <? 10 then acc else itoa_loop f (n / 10) acc
  end.
(** strconv: decimal digits of a non-negative number. *)
Definition itoa (n : Z) : list byte := itoa_loop (S (Z.to_nat (Z.log2 n))) n [].

(** time.appendInt: decimal, zero-padded to the given width. *)
Definition append_int (n : Z) (width : nat) : list byte :=
  let s := itoa (Z.abs n) in
  (if n <? 0 then bs "-" else []) ++ repeat (Byte.x30) (width - length s) ++ s.

(** time.absDate: year, month, day of the day number [d] since the start of
    the year -292277022399 (d >= 0). *)
Definition abs_year (d : Z) : Z * Z :=
  let n := d / 146097 in let y := 400 * n in let d := d - 146097 * n in
  let n := d / 36524 in let n := n - n / 4 in let y := y + 100 * n in let d := d - 36524 * n in
  let n := d / 1461 in let y := y + 4 * n in let d := d - 1461 * n in
  let n := d / 365 in let n := n - n / 4 in let y := y + n in let d := d - 365 * n in
  (y + absolute_zero_year, d).
(** time.go [abs.days.date]: month and day from the day of the year. *)
Definition month_day (leap : bool) (yday : Z) : Z * Z :=
  if leap && (yday =? 59) then (2, 29)
  else
    let day := if leap && (59 <? yday) then yday - 1 else yday in
    let month := day / 31 in
    let last := days_before (month + 1) in
    if last <=? day then (month + 2, day - last + 1)
    else (month + 1, day - days_before month + 1).
(** time.go [Time.Date]. *)
Definition abs_date (d : Z) : Z * Z * Z :=
  let '(y, yday) := abs_year d in
  let '(m, dd) := month_day (is_leap y) yday in (y, m, dd).

(** time.formatNano with 9 digits, trailing zeros removed. *)
Fixpoint trim_zeros (s : list byte) : list byte :=   (* of the reversed digits *)
  match s with b :: t => if bz b =? 48 then trim_zeros t else s | [] => [] end.
(** time/format.go [appendNano] with trailing zeros removed. *)
Definition format_nano (ns : Z) : list byte :=
  let s := repeat (Byte.x30) (9 - length (itoa ns)) ++ itoa ns in
  match trim_zeros (rev s) with [] => [] | t => bs "." ++ rev t end.

(** time.Time.String for a UTC time without monotonic clock reading, [t] ns
    after the Unix epoch: layout "2006-01-02 15:04:05.999999999 -0700 MST". *)
Definition time_string (t : Z) : list byte :=
  let abs := t / second - absolute_to_unix in
  let '(y, m, d) := abs_date (abs / 86400) in
  let sec := abs mod 86400 in
  append_int y 4 ++ bs "-" ++ append_int m 2 ++ bs "-" ++ append_int d 2 ++ bs " " ++
  append_int (sec / 3600) 2 ++ bs ":" ++ append_int (sec mod 3600 / 60) 2 ++ bs ":" ++ append_int (sec mod 60) 2 ++
  format_nano (t mod second) ++ bs " +0000 UTC".

(** The verb %.1f: the exact value times ten, rounded half to even (strconv's
    bigFtoa). *)
Definition round_even (n d : Z) : Z :=      (* n / d for d > 0 *)
  let q := n / d in let r := n mod d in
  if 2 * r <? d then q else if d <? 2 * r then q + 1 else if Z.even q then q else q + 1.
(** Rounding to tenths, half to even (exact). *)
Definition tenths_of (m e : Z) : Z :=
  if 0 <=? e then 10 * m * 2 ^ e else round_even (10 * m) (2 ^ (- e)).
(** fmt "%.1f" of radolan2png.go:70. *)
Definition fmt_f1 (x : f64) : list byte :=
  match x with
  | S754_nan => bs "NaN"
  | S754_infinity s => if s then bs "-Inf" else bs "+Inf"
  | S754_zero s => (if s then bs "-" else []) ++ bs "0.0"
  | S754_finite s m e =>
      let n := tenths_of (Zpos m) e in
      (if s then bs "-" else []) ++ itoa (n / 10) ++ bs "." ++ itoa (n mod 10)
  end.

(** radolan2png.go:43, 70: the lines printed (an invalid unit cannot occur, C44;
    log.Fatal writes to the standard error stream). *)
Definition printed (e : event) : list byte :=
  match e with
  | EvInfo product (Some unit_name) t => product ++ bs "-Image (" ++ unit_name ++ bs ") showing " ++ time_string t ++ [newline]
  | EvGrid w h => bs "detected grid: " ++ fmt_f1 w ++ bs " km * " ++ fmt_f1 h ++ bs " km" ++ [newline]
  | _ => []
  end.
(** All that is printed: radolan2png.go:25, 43, 70. *)
Definition stdout (evs : list event) : list byte := concat (map printed evs).

(** radolan2png.go:25-26. *)
Definition usage (name : list byte) : list byte :=
  bs "radolan2png converts radolan composite files to png images." ++ [newline; newline] ++ Byte.x09 ::
  bs "Usage: " ++ name ++ bs " <input> <output.png>" ++ [newline; newline].
(** radolan2png.go:22-31 [main]: what it prints. *)
Definition tool_stdout (M : Projection.mathlib) log K E border (w : world) (args : list (list byte)) : list byte :=
  match args with
  | _ :: _ :: _ :: _ => stdout (main M log K E border w args)
  | name :: _ => usage name
  | [] => []
  end.
