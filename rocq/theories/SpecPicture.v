(** Vocabulary of C62: the picture radolan2png makes of a file. *)
From Coq Require Import Reals.
From Verif Require Import GoBase GoFloat Catalog Composite Projection Radolan Vis Png Spec SpecHeader SpecWriter SpecReal SpecProj SpecVis SpecValue SpecSamples.
Local Open Scope R_scope.

(** The level a cell of the runlength encoding stands for, in tenths: 0 and
    numbers beyond the list are no data. *)
Definition level_number (levels : list Z) (k : Z) : option Z :=
  if (k =? 0)%Z then None else List.nth_error levels (Z.to_nat (k - 1)).

(** The bytes of a file with this header that stores [cells] (rows from the
    top, [cols] cells each), in one byte or two bytes per cell or, if the header
    has levels, run-length encoded, whatever follows.  The cells are raw values
    or, of files with levels, the levels in tenths. *)
Inductive file_of (h : header_data) (cols rows : Z) : list (list (option Z)) -> list byte -> Prop :=
| one_byte_cells cells tail :
    h_levels h = None -> h_total h = (len (header_text h) + 1 + cols * rows)%Z ->
    grid_of (fun o => match o with Some v => (0 <= v <= 255 /\ v <> 250)%Z | None => True end) cols rows cells ->
    file_of h cols rows cells (header_text h ++ Byte.x03 :: encode_grid encode_byte_cell cells ++ tail)
| two_byte_cells cells tail :
    h_levels h = None -> h_total h = (len (header_text h) + 1 + 2 * (cols * rows))%Z ->
    grid_of (fun o => match o with Some v => (- 4095 <= v <= 4095)%Z | None => True end) cols rows cells ->
    file_of h cols rows cells (header_text h ++ Byte.x03 :: encode_grid encode_cell cells ++ tail)
| level_cells levels lines tail :
    h_levels h = Some levels ->
    grid_of (fun k => (0 <= k < 16)%Z) cols rows (map snd lines) -> ~ In Byte.x0a (map fst lines) ->
    file_of h cols rows (map (map (level_number levels)) (map snd lines)) (header_text h ++ Byte.x03 :: encode_lines lines ++ tail).

(** The row of the file that row [y] of the picture shows: the picture is the
    first layer, or the bottom [dy] rows if the file has a part of a layer more. *)
Definition shown_row (py dy y : Z) : Z := if (py mod dy =? 0)%Z then y else (py - dy + y)%Z.

(** A raw value in half dBZ from -32.5: black below 1 dBZ, a gradient to 75 dBZ. *)
Definition reflectivity_color (K : convs) (stored : option Z) (col : rgba) : Prop :=
  match stored with
  | None => col = nan_color K
  | Some v => let dbz := IZR v / 2 - 32.5 in
      (dbz < 1 -> col = black) /\ (1 <= dbz -> heat_color_at (Rmin 1 ((dbz - 1) / 74)) col)
  end.

(** A raw value of [precision] (a level: -1) that stands for the number [x]. *)
Definition measured (precision v : Z) (x : R) : Prop :=
  Rabs (x - IZR v * powerRZ 10 precision) <= Rabs (IZR v * powerRZ 10 precision) / 2 ^ 22.

(** A level in tenths of dBZ. *)
Definition level_reflectivity_color (K : convs) (stored : option Z) (col : rgba) : Prop :=
  match stored with
  | None => col = nan_color K
  | Some v => exists dbz, measured (-1) v dbz /\
      (dbz < 1 -> col = black) /\ (1 <= dbz -> heat_color_at (Rmin 1 ((dbz - 1) / 74)) col)
  end.

(** Precipitation in mm: black below 0.1 mm, from there a logarithmic gradient
    to [top]; negative values are shown like missing ones. *)
Definition precipitation_color (K : convs) (precision : Z) (top : R) (stored : option Z) (col : rgba) : Prop :=
  match stored with
  | None => col = nan_color K
  | Some v => exists x, measured precision v x /\
      (x < 0 -> col = nan_color K) /\ (0 <= x < 0.1 -> col = black) /\
      (0.1 <= x -> heat_color_at (Rmin 1 ((ln x - ln 0.1) / (ln top - ln 0.1))) col)
  end.

(** The upper end of the gradient by the interval (in ns): 100 mm up to an hour,
    400 mm from a week on, else 200 mm. *)
Inductive top_of : Z -> R -> Prop :=
| top_hour i : (i <= 3600 * 10 ^ 9)%Z -> top_of i 100
| top_day i : (3600 * 10 ^ 9 < i < 7 * 24 * 3600 * 10 ^ 9)%Z -> top_of i 200
| top_week i : (7 * 24 * 3600 * 10 ^ 9 <= i)%Z -> top_of i 400.

(** Echo tops in km: gray from 0 to 15 km. *)
Definition echo_top_color (K : convs) (precision : Z) (stored : option Z) (col : rgba) : Prop :=
  match stored with
  | None => col = nan_color K
  | Some v => exists x, measured precision v x /\ (x < 0 -> col = black) /\
      (0 <= x -> exists l, col = gray l /\ rounded_down l (255 * Rmin 1 (x / 15)))
  end.

(** Radial velocities in m/s: pale up to 1 m/s, then logarithmic to 31.5 m/s,
    cyan towards the radar, red away from it; no data black. *)
Definition velocity_color (precision : Z) (stored : option Z) (col : rgba) : Prop :=
  match stored with
  | None => col = black
  | Some v => exists x, measured precision v x /\
      (Rabs x <= 1 -> x < 0 -> col = mk_rgba 204 255 255 255) /\
      (Rabs x <= 1 -> 0 <= x -> col = mk_rgba 255 204 204 255) /\
      (1 < Rabs x -> exists l, rounded_down l (255 * Rmin 1 (ln (Rabs x) / ln 31.5)) /\
         (x < 0 -> col = mk_rgba 0 l l 255) /\ (0 < x -> col = mk_rgba l 0 0 255))
  end.
