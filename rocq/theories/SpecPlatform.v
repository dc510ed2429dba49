(** Vocabulary of C70: results on two platforms. *)
From Coq Require Import Reals.
From Verif Require Import GoBase GoFloat Catalog Composite Projection Radolan Vis SpecReal.
Local Open Scope Z_scope.

(** The same composite but for the resolution and the offset of the projection. *)
Definition same_but_scale (c d : composite f64) : Prop :=
  c_product c = c_product d /\ c_capture c = c_capture d /\ c_forecast c = c_forecast d /\ c_interval c = c_interval d /\
  c_unit c = c_unit d /\ c_plain c = c_plain d /\ c_px c = c_px d /\ c_py c = c_py d /\ c_dataz c = c_dataz d /\
  c_data c = c_data d /\ c_dx c = c_dx d /\ c_dy c = c_dy d /\ c_dz c = c_dz d /\ c_format c = c_format d /\
  c_data_length c = c_data_length d /\ c_precision c = c_precision d /\ c_level c = c_level d /\
  c_has_projection c = c_has_projection d /\ c_wgs84 c = c_wgs84 d.

(** Both platforms return, with such composites and the same error, or both panic. *)
Definition same_outcome (a b : outcome f64 (composite f64)) : Prop :=
  match a, b with
  | Value c, Value d => same_but_scale c d
  | Failure e c, Failure e' d => e = e' /\ same_but_scale c d
  | Panic, Panic => True
  | _, _ => False
  end.

(** The same for a whole archive: the same composites in the same order. *)
Definition same_composites (a b : list (composite f64)) : Prop := Forall2 same_but_scale a b.

(** sort.Slice sees the elements only through the answers of "less" to pairs of
    positions: lists whose elements compare alike are permuted alike. *)
Definition by_comparison {X} (sort : (X -> X -> bool) -> list X -> list X) : Prop :=
  exists order : (nat -> nat -> bool) -> nat -> list nat,
    forall less l, sort less l =
      flat_map (fun i => match nth_error l i with Some x => [x] | None => [] end)
        (order (fun i j => match nth_error l i, nth_error l j with Some x, Some y => less x y | _, _ => false end) (length l)).

(** Colours that differ by one step per channel at most. *)
Definition near_color (c d : rgba) : Prop :=
  Z.abs (r_r c - r_r d) <= 1 /\ Z.abs (r_g c - r_g d) <= 1 /\ Z.abs (r_b c - r_b d) <= 1 /\ r_a c = r_a d.
