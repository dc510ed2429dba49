(** Vocabulary of the colour properties. *)
From Coq Require Import Reals.
From Flocq Require Import Core.
From Verif Require Import GoBase GoFloat Vis SpecReal.
Local Open Scope Z_scope.

(** [x] is a float64 of value [r]. *)
Definition has (x : f64) (r : R) : Prop := valid64 x /\ is_value x r.

(** Bounds a gradient can be built on: [lo] below [hi], both finite and their
    difference not overflowing. *)
Definition gradient_bounds (lo hi : f64) (a b : R) : Prop :=
  has lo a /\ has hi b /\ (a < b)%R /\ (b - a < powerRZ 2 1023)%R.

Definition infinity : f64 := S754_infinity false.
(** A float64 that is not NaN and at least [a]: a finite value or +Inf. *)
Definition at_least (a : R) (v : f64) : Prop := v = infinity \/ exists y, has v y /\ (a <= y)%R.

(** An opaque gray. *)
Definition gray (l : Z) : rgba := mk_rgba l l l 255.

(** [l] is [x] rounded down, up to an error of a millionth in [x]. *)
Definition rounded_down (l : Z) (x : R) : Prop := (x - 1 - / 1000000 < IZR l <= x + / 1000000)%R.

(** The standard conversion from HSL to RGB: the channel n (0 red, 8 green,
    4 blue) of hue h (degrees), saturation s, lightness l. *)
Definition hsl_channel (n h s l : R) : R :=
  (let k := (n + h / 30) - 12 * IZR (Zfloor ((n + h / 30) / 12)) in
   let a := s * Rmin l (1 - l) in
   l - a * Rmax (-1) (Rmin (Rmin (k - 3) (9 - k)) 1))%R.

(** The documented gradient: at the relative position t between 0 and 1 the hue
    runs from 240 degrees (blue) backwards by 330 degrees, fully saturated,
    the lightness from 1/4 to 3/4. *)
Definition heat_channel (n t : R) : R := (255 * hsl_channel n (240 - 330 * t) 1 (/ 4 + t / 2))%R.
