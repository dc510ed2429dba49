(** IEEE-754 numbers as used by Go: float32 and float64 with round to nearest
    even, in the representation of Coq.Floats.SpecFloat (sign, mantissa,
    exponent; one NaN).  Axiom free and computable.  Fused multiply-add (which
    Go's compiler may use, and does on arm64, ppc64 and s390x) is [f64_fma]. *)
From Verif Require Import GoBase.
From Coq Require Export SpecFloat.

Definition f32 : Type := spec_float.
Definition f64 : Type := spec_float.

Definition prec32 : Z := 24.   Definition emax32 : Z := 128.
Definition prec64 : Z := 53.   Definition emax64 : Z := 1024.

(** Well-formed encodings (the values a float32 / float64 variable can hold). *)
Definition valid32 (x : f32) : Prop := valid_binary prec32 emax32 x = true.
Definition valid64 (x : f64) : Prop := valid_binary prec64 emax64 x = true.

Definition f32_mul : f32 -> f32 -> f32 := SFmul prec32 emax32.
Definition f32_add : f32 -> f32 -> f32 := SFadd prec32 emax32.
Definition f32_sub : f32 -> f32 -> f32 := SFsub prec32 emax32.
Definition f32_div : f32 -> f32 -> f32 := SFdiv prec32 emax32.

Definition f64_mul : f64 -> f64 -> f64 := SFmul prec64 emax64.
Definition f64_add : f64 -> f64 -> f64 := SFadd prec64 emax64.
Definition f64_sub : f64 -> f64 -> f64 := SFsub prec64 emax64.
Definition f64_div : f64 -> f64 -> f64 := SFdiv prec64 emax64.

(** Fused multiply-add: x*y + z rounded once.  (If one of the factors is not a
    nonzero finite number then their product is exact.) *)
Definition f64_fma (x y z : f64) : f64 :=
  match x, y with
  | S754_finite s1 m1 e1, S754_finite s2 m2 e2 =>
      match z with
      | S754_finite s3 m3 e3 =>
          let e := Z.min (e1 + e2) e3 in
          binary_normalize prec64 emax64
            (cond_Zopp (xorb s1 s2) (Zpos (m1 * m2)) * 2 ^ (e1 + e2 - e) + cond_Zopp s3 (Zpos m3) * 2 ^ (e3 - e)) e false
      | S754_zero _ => f64_mul x y
      | _ => z
      end
  | _, _ => f64_add (f64_mul x y) z
  end.

(** x*y - z, z - x*y, z + x*y and x*y + z, fused or not (the Go specification
    allows both, also across statements; each occurrence in the program may be
    compiled either way). *)
Definition mul_sub (fused : bool) (x y z : f64) : f64 :=
  if fused then f64_fma x y (SFopp z) else f64_sub (f64_mul x y) z.
Definition sub_mul (fused : bool) (z x y : f64) : f64 :=
  if fused then f64_fma (SFopp x) y z else f64_sub z (f64_mul x y).
Definition add_mul (fused : bool) (z x y : f64) : f64 :=
  if fused then f64_fma x y z else f64_add z (f64_mul x y).
Definition mul_add (fused : bool) (x y z : f64) : f64 :=
  if fused then f64_fma x y z else f64_add (f64_mul x y) z.

(** Comparisons [<], [<=], [==] (false on NaN). *)
Definition f_lt : spec_float -> spec_float -> bool := SFltb.
Definition f_le : spec_float -> spec_float -> bool := SFleb.
Definition f_eq : spec_float -> spec_float -> bool := SFeqb.

(** Conversion of an integer: float32(v), float64(v). *)
Definition f32_of_int (z : Z) : f32 := binary_normalize prec32 emax32 z 0 false.
Definition f64_of_int (z : Z) : f64 := binary_normalize prec64 emax64 z 0 false.

(** float32(x) for a float64 x, and float64(x) for a float32 x. *)
Definition f32_of_f64 (x : f64) : f32 :=
  match x with
  | S754_finite s m e => binary_round prec32 emax32 s m e
  | _ => x
  end.
Definition f64_of_f32 (x : f32) : f64 :=
  match x with
  | S754_finite s m e => binary_round prec64 emax64 s m e
  | _ => x
  end.

(** The float nearest to the rational +-n/d (a Go floating-point constant, or
    the result of strconv.ParseFloat on a decimal). *)
Definition of_ratio (prec emax : Z) (s : bool) (n d : positive) : spec_float :=
  let '(mz, ez, lz) := SFdiv_core_binary prec emax (Zpos n) 0 (Zpos d) 0 in
  binary_round_aux prec emax s mz ez lz.

(** The float nearest to the decimal +-m * 10^e. *)
Definition of_decimal (prec emax : Z) (s : bool) (m : Z) (e : Z) : spec_float :=
  match m with
  | Zpos p =>
      if 0 <=? e then of_ratio prec emax s (p * Z.to_pos (10 ^ e))%positive 1
      else of_ratio prec emax s p (Z.to_pos (10 ^ (- e)))
  | _ => S754_zero s
  end.

Definition f64_lit (m e : Z) : f64 := of_decimal prec64 emax64 (m <? 0) (Z.abs m) e.
Definition f32_lit (m e : Z) : f32 := of_decimal prec32 emax32 (m <? 0) (Z.abs m) e.

(** math.Pow10 (math/pow10.go): table lookups and one float64 operation. *)
Definition pow10 (n : Z) : f64 :=
  if (0 <=? n) && (n <=? 308)
  then f64_mul (f64_lit 1 (32 * (n / 32))) (f64_lit 1 (n mod 32))
  else if (-323 <=? n) && (n <=? 0)
  then f64_div (f64_lit 1 (- (32 * ((- n) / 32)))) (f64_lit 1 ((- n) mod 32))
  else if 0 <? n then S754_infinity false
  else S754_zero false.

(** conversion.go:7 [var NaN = float32(math.NaN())]. *)
Definition NaN32 : f32 := S754_nan.
Definition NaN64 : f64 := S754_nan.

(** conversion.go:9-11 [IsNaN]: f != f. *)
Definition IsNaN (f : f32) : bool := negb (f_eq f f).
