(** Vocabulary of the Z-R properties: the exact relation, and the accuracy of
    the math library it is computed with. *)
From Coq Require Import Reals.
From Verif Require Import GoBase GoFloat SpecReal SpecAccuracy.
Local Open Scope R_scope.

(** The decimal logarithm. *)
Definition log10 (x : R) : R := ln x / ln 10.

(** Z = a * R^b with Z = 10^(dBZ/10), solved for the rate R and for dBZ. *)
Definition exact_rate (a b dbz : R) : R := Rpower (Rpower 10 (dbz / 10) / a) (/ b).
Definition exact_dbz (a b rate : R) : R := 10 * log10 (a * Rpower rate b).

(** [y] is a float64 whose relative distance from [r] is at most [eps]. *)
Definition relative (eps : R) (y : f64) (r : R) : Prop :=
  valid64 y /\ exists v, is_value y v /\ Rabs (v - r) <= eps * Rabs r.

(** math.Pow and math.Log10 as accurate as Go's: the relative error of a power
    may grow with the exponent (it is computed by repeated squaring), the
    error of a logarithm with the logarithm.  Only arguments and results far
    from underflow and overflow (e^-500 to e^500) are constrained. *)
Definition accurate_pow (eps : R) (pow : f64 -> f64 -> f64) : Prop :=
  forall x y a b, valid64 x -> valid64 y -> is_value x a -> is_value y b -> 0 < a ->
    Rabs (ln a) <= 500 -> Rabs (b * ln a) <= 500 -> relative (eps * (1 + Rabs b)) (pow x y) (Rpower a b).
Definition accurate_log10 (eps : R) (lg : f64 -> f64) : Prop :=
  forall x a, valid64 x -> is_value x a -> 0 < a -> Rabs (ln a) <= 500 ->
    within (eps * (1 + Rabs (log10 a))) (lg x) (log10 a).
