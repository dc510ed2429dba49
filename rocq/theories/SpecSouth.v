(** Vocabulary of C55 in the southern hemisphere. *)
From Coq Require Import Reals.
From Verif Require Import GoBase GoFloat Composite Projection SpecReal SpecAccuracy.
Local Open Scope R_scope.

(** A tangent of angles up to 1.57 radians whose error is at most [eps] of one
    plus its size.  (Go documents errors of about 2^-52.) *)
Definition accurate_tangent (eps : R) (M : mathlib) : Prop :=
  forall x a, valid64 x -> is_value x a -> Rabs a <= 1.57 -> within (eps * (1 + Rabs (tan a))) (m_tan M x) (tan a).
