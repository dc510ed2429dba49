(** Vocabulary of C63: gradients on the values a composite can hold. *)
From Coq Require Import Reals.
From Verif Require Import GoBase GoFloat Vis SpecReal SpecVis.
Local Open Scope R_scope.

(** The colour of NaN in a gradient: gray, by the platform's conversion of NaN to a byte. *)
Definition nan_color (K : convs) : rgba := gray (oor_u8 K S754_nan mod 256).

(** Colour at the relative position [t] of the documented gradient. *)
Definition heat_color_at (t : R) (col : rgba) : Prop :=
  exists cr cg cb, col = mk_rgba cr cg cb 255 /\
    rounded_down cr (heat_channel 0 t) /\ rounded_down cg (heat_channel 8 t) /\ rounded_down cb (heat_channel 4 t).

(** math.Log: accurate on positive numbers, with the documented special cases. *)
Definition natural_log (eps : R) (log : f64 -> f64) : Prop :=
  (forall x a, valid64 x -> is_value x a -> 0 < a -> Rabs (ln a) <= 500 ->
     exists r, valid64 (log x) /\ is_value (log x) r /\ Rabs (r - ln a) <= eps * (1 + Rabs (ln a))) /\
  (forall s, log (S754_zero s) = S754_infinity true) /\ log (S754_infinity false) = S754_infinity false /\ log (S754_infinity true) = S754_nan /\
  (forall x a, is_value x a -> a < 0 -> log x = S754_nan) /\ log S754_nan = S754_nan.

(** The heat gradient from [lo] to [hi] on a float32: black below [lo], the
    upper end of the gradient from [hi] on. *)
Definition heat_between (K : convs) (lo hi : R) (d : f32) (col : rgba) : Prop :=
  match d with
  | S754_nan => col = nan_color K
  | S754_infinity neg => if neg then col = black else heat_color_at 1 col
  | _ => forall x, is_value d x -> (x < lo -> col = black) /\ (lo <= x -> heat_color_at (Rmin 1 ((x - lo) / (hi - lo))) col)
  end.

(** The same in the logarithm; negative values are shown like NaN. *)
Definition heat_log_between (K : convs) (lo hi : R) (d : f32) (col : rgba) : Prop :=
  match d with
  | S754_nan => col = nan_color K
  | S754_infinity neg => if neg then col = nan_color K else heat_color_at 1 col
  | _ => forall x, is_value d x -> (x < 0 -> col = nan_color K) /\ (0 <= x < lo -> col = black) /\
      (lo <= x -> heat_color_at (Rmin 1 ((ln x - ln lo) / (ln hi - ln lo))) col)
  end.

(** Grays from black at [lo] to white at [hi]. *)
Definition gray_between (K : convs) (lo hi : R) (d : f32) (col : rgba) : Prop :=
  match d with
  | S754_nan => col = nan_color K
  | S754_infinity neg => col = if neg then black else gray 255
  | _ => forall x, is_value d x -> (x < lo -> col = black) /\
      (lo <= x -> exists l, col = gray l /\ rounded_down l (255 * Rmin 1 ((x - lo) / (hi - lo))))
  end.

(** Velocities: pale up to 1, then logarithmic to [hi]; cyan below 0, red above. *)
Definition radial_log_between (hi : R) (d : f32) (col : rgba) : Prop :=
  match d with
  | S754_nan => col = black
  | S754_infinity neg => col = if neg then mk_rgba 0 255 255 255 else mk_rgba 255 0 0 255
  | _ => forall x, is_value d x ->
      (Rabs x <= 1 -> x < 0 -> col = mk_rgba 204 255 255 255) /\
      (Rabs x <= 1 -> 0 <= x -> col = mk_rgba 255 204 204 255) /\
      (1 < Rabs x -> exists l, rounded_down l (255 * Rmin 1 (ln (Rabs x) / ln hi)) /\
         (x < 0 -> col = mk_rgba 0 l l 255) /\ (0 < x -> col = mk_rgba l 0 0 255))
  end.
