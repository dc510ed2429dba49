(** Vocabulary of C61: looking up stored values of any product. *)
From Coq Require Import Reals.
From Verif Require Import GoBase GoFloat SpecReal.
Local Open Scope R_scope.

(** The float32 [d] represents the stored cell: NaN for no data, else the raw
    value times ten to the precision up to 2^-22 of it. *)
Definition shows (precision : Z) (stored : option Z) (d : f32) : Prop :=
  match stored with
  | Some v => exists x, is_value d x /\ Rabs (x - IZR v * powerRZ 10 precision) <= Rabs (IZR v * powerRZ 10 precision) / 2 ^ 22
  | None => IsNaN d = true
  end.

(** The float32 [d] represents cell [k] of a file with levels in tenths: NaN for
    0 and beyond the table, else level number k (from 1) up to 2^-23 of it. *)
Definition shows_level (levels : list Z) (k : Z) (d : f32) : Prop :=
  match (if (k =? 0)%Z then None else List.nth_error levels (Z.to_nat (k - 1))) with
  | Some n => exists x, is_value d x /\ Rabs (x - IZR n / 10) <= Rabs (IZR n / 10) / 2 ^ 23
  | None => IsNaN d = true
  end.
