(** Vocabulary of the numeric properties: the real number a float stands for. *)
From Coq Require Import Reals.
From Verif Require Import GoBase GoFloat.

(** [x] is a finite float whose value is the real number [r]. *)
Definition is_value (x : spec_float) (r : R) : Prop :=
  match x with
  | S754_zero _ => r = 0%R
  | S754_finite s m e => r = ((if s then -1 else 1) * IZR (Zpos m) * powerRZ 2 e)%R
  | S754_infinity _ | S754_nan => False
  end.

(** [x] is a finite float. *)
Definition finite (x : spec_float) : Prop := exists r, is_value x r.

(** Powers of ten. *)
Definition ten_to (p : Z) : R := powerRZ 10 p.
