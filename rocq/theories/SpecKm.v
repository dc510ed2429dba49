(** Vocabulary of C56: where the documented 1-km grids lie on the map. *)
From Coq Require Import Reals.
From Verif Require Import GoBase ExactReal.
Local Open Scope R_scope.

(** The point of the map plane [ax] km west and [ay] km north of the reference
    point 51 N 9 E (in the spherical earth model): km east, km south of the pole. *)
Definition from_reference (ax ay : R) : R * R := (fst (plane 0 51 9) - ax, snd (plane 0 51 9) - ay).

(** The documented place of the grids: extent in km, whether the format version
    is 5 or higher, and the north-western corner on the map plane.  On the
    spherical grids the reference point lies a whole number of km from the corner
    (projection_sphere_test.go:51-97); the WGS84 grid is placed by the false
    easting and northing of its projection string (projection_wgs84.go:22, which
    refers to the centre of the first pixel, half a km inside the corner). *)
Inductive located : Z * Z -> bool -> R * R -> Prop :=
| located_national : located (900, 900)%Z false (from_reference 450 450)
| located_picture : located (920, 920)%Z false (from_reference 460 460)
| located_extended : located (900, 1100)%Z false (from_reference 370 550)
| located_DE1200 : located (1100, 1200)%Z false (from_reference 470 600)
| located_DE1200_WGS84 : located (1100, 1200)%Z true (- (543.19683521776402 + 0.5), 3622.588861931001 - 0.5)
| located_european : located (1400, 1500)%Z false (from_reference 600 700).
