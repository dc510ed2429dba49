(** Vocabulary of C59: the documented rainfall lookup, end to end. *)
From Coq Require Import Reals.
From Verif Require Import GoBase GoFloat Composite Projection Conversion Radolan Vis SpecReal SpecAccuracy SpecZR.
Local Open Scope R_scope.

(** The named Z-R relations with their coefficients a and b. *)
Definition float_named (M : mathlib) (lg : f64 -> f64) : list (zr (arith64 M) * R * R) :=
  (Aniol80 (arith64 M) lg, 256, 1.42) :: (Doelling98 (arith64 M) lg, 316, 1.5) ::
  (JossWaldvogel70 (arith64 M) lg, 300, 1.5) :: (MarshallPalmer55 (arith64 M) lg, 200, 1.6) :: nil.

(** The documented way to read the value at a position (radolan.go:75-79):
    x, y := c.Project(north, east); c.At(int(x), int(y)). *)
Definition value_at M (K : convs) (c : composite (num (arith64 M))) (north east : f64) : option f32 :=
  let p := project (arith64 M) c north east in at_ (arith64 M) c (to_int K (fst p)) (to_int K (snd p)).

(** PrecipitationRate for that value. *)
Definition rate_of M (r : zr (arith64 M)) (d : f32) : f64 := precipitation_rate (arith64 M) f32 f64_of_f32 r d.

(** math.Pow gives NaN for a NaN exponent (unless the base is 1). *)
Definition nan_power (M : mathlib) : Prop := forall x r, is_value x r -> r <> 1 -> m_pow M x NaN64 = NaN64.

(** The lookup finds what the file stores: a raw value (rvp-6 units, half dBZ
    from -32.5 on) with its rainfall rate by each relation, or no data and no rate. *)
Definition finds M K lg (c : composite (num (arith64 M))) (north east : f64) (stored : option Z) : Prop :=
  exists d, value_at M K c north east = Some d /\
    match stored with
    | Some v => is_value d (IZR v / 2 - 32.5) /\
        (Rabs (IZR v / 2 - 32.5) <= 200 ->
         List.Forall (fun '(r, a, b) => relative (/ 10 ^ 11) (rate_of M r d) (exact_rate a b (IZR v / 2 - 32.5))) (float_named M lg))
    | None => IsNaN d = true /\ (nan_power M -> List.Forall (fun '(r, _, _) => IsNaN (rate_of M r d) = true) (float_named M lg))
    end.
