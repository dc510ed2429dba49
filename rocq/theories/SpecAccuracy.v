(** Vocabulary of the accuracy properties: math libraries that compute the
    mathematical functions to a given accuracy, and the exact pixel position. *)
From Coq Require Import Reals.
From Verif Require Import GoBase GoFloat Composite Projection SpecReal ExactReal.
Local Open Scope R_scope.

(** [y] is a float64 value within [eps] of the real number [r]. *)
Definition within (eps : R) (y : f64) (r : R) : Prop :=
  valid64 y /\ exists v, is_value y v /\ Rabs (v - r) <= eps.

(** A math library whose sine and cosine (of angles up to 4 radians), tangent
    (of angles up to 1 radian) and power (bases between 1/2 and 2, exponents
    between -1 and 1) are within [eps] of the true values.  (Go documents
    errors of about one unit in the last place, 2^-52.) *)
Definition accurate_library (eps : R) (M : mathlib) : Prop :=
  (forall x a, valid64 x -> is_value x a -> Rabs a <= 4 -> within eps (m_sin M x) (sin a)) /\
  (forall x a, valid64 x -> is_value x a -> Rabs a <= 4 -> within eps (m_cos M x) (cos a)) /\
  (forall x a, valid64 x -> is_value x a -> Rabs a <= 1 -> within eps (m_tan M x) (tan a)) /\
  (forall x y a b, valid64 x -> valid64 y -> is_value x a -> is_value y b -> / 2 <= a <= 2 -> Rabs b <= 1 ->
     within eps (m_pow M x y) (Rpower a b)).

(** The exact position, in fractions of the width and of the height of the
    grid with corners [nw] and [se], of a point of the earth. *)
Definition exact_fraction (format : Z) (nw se : R * R) (north east : R) : R * R :=
  let P := plane format north east in
  let N := plane format (fst nw) (snd nw) in
  let S := plane format (fst se) (snd se) in
  ((fst P - fst N) / (fst S - fst N), (snd P - snd N) / (snd S - snd N)).

(** The pixel index [i] belongs clearly to the coordinate [t] (in pixels) on an
    axis of [k] pixels: [t] lies between [i] and [i + 1] (index 0: between -1
    and 1, as Go's int() rounds towards zero), not closer than a billionth of
    the axis to either end. *)
Definition pixel_index (k : Z) (t : R) (i : Z) : Prop :=
  (1 <= i)%Z /\ IZR i + IZR k / 10 ^ 9 < t < IZR i + 1 - IZR k / 10 ^ 9 \/
  i = 0%Z /\ -1 + IZR k / 10 ^ 9 < t < 1 - IZR k / 10 ^ 9.

(** [t] is clearly off the axis: more than one pixel before its start, or
    beyond its end. *)
Definition off_axis (k : Z) (t : R) : Prop := t < -1 - IZR k / 10 ^ 9 \/ IZR k + IZR k / 10 ^ 9 < t.

(** The coordinate [t] is not clearly outside pixel [i]. *)
Definition near_pixel (k : Z) (t : R) (i : Z) : Prop :=
  (if (i =? 0)%Z then -1 else IZR i) - IZR k / 10 ^ 9 <= t <= IZR i + 1 + IZR k / 10 ^ 9.

(** The float64 coordinates (latitude, longitude) are, up to rounding, those of
    a point of the northern hemisphere. *)
Definition stands_for (p : f64 * f64) (r : R * R) : Prop :=
  within (powerRZ 2 (-47)) (fst p) (fst r) /\ within (powerRZ 2 (-46)) (snd p) (snd r) /\
  0 <= fst r <= 90 /\ -180 <= snd r <= 190.
