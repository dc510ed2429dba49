(** The projection and the Z-R relation in exact real arithmetic, and the
    vocabulary of the geometric properties. *)
From Coq Require Import Reals.
From Verif Require Import GoBase GoFloat Composite Projection Radolan Spec SpecProj.
Local Open Scope R_scope.

(** Exact arithmetic: real numbers, exact constants, the mathematical
    functions.  (There is no real NaN; 0 stands for it and no statement below
    depends on it.) *)
Definition arithR : arith :=
  mk_arith R 0 0 IZR (fun m k => IZR m / IZR (10 ^ k))
    Rplus Rminus Rmult Rdiv Ropp
    (fun _ a b c => a * b - c) (fun _ c a b => c - a * b) (fun _ c a b => c + a * b)
    sin cos tan Rpower
    (PI / 180) (10 * (PI / 180)) (PI / 2).

(** A composite with calibrated projection: read from a file (whatever
    decoding of exotic floats) or made by NewDummy with int dimensions. *)
Definition calibrated {A : arith} (c : composite (num A)) : Prop :=
  (exists E input, parsed A E input c) \/
  (exists product format dx dy, in_int dx = true /\ in_int dy = true /\ c = new_dummy A product format dx dy).

(** The documented corner points of the grids: size, whether the format
    version is 5 or higher, north-west corner (latitude, longitude),
    south-east corner (latitude, longitude). *)
Inductive documented_corners : Z * Z -> bool -> R * R -> R * R -> Prop :=
| corners_national : documented_corners (900, 900)%Z false (54.5877, 2.0715) (47.0705, 14.6209)
| corners_picture : documented_corners (920, 920)%Z false (54.66218275, 1.900684377) (46.98044293, 14.73300934)
| corners_extended : documented_corners (900, 1100)%Z false (55.5482, 3.0889) (46.1827, 15.4801)
| corners_DE1200 : documented_corners (1100, 1200)%Z false (55.86584289, 1.435612143) (45.68358331, 16.60186543)
| corners_DE1200_WGS84 : documented_corners (1100, 1200)%Z true (55.86208711, 1.463301510) (45.68460578, 16.58086935)
| corners_european : documented_corners (1400, 1500)%Z false (56.5423, -0.8654) (43.8736, 18.2536).

(** [c] is a composite on the documented grid with these corners. *)
Definition on_grid (c : composite (num arithR)) (size : Z * Z) (nw se : R * R) : Prop :=
  @calibrated arithR c /\ resampled (c_dx c) (c_dy c) (fst size) (snd size) /\
  documented_corners size (5 <=? c_format c)%Z nw se.

(** Degrees to radians. *)
Definition radians (deg : R) : R := deg * (PI / 180).

(** The polar stereographic projection of the sphere (true at 60 degrees north,
    10 degrees east downwards): distance from the pole in km. *)
Definition sphere_radius (north : R) : R :=
  6370.04 * (1 + sin (radians 60)) * tan (PI / 4 - radians north / 2).

(** The same for the WGS84 ellipsoid (EPSG guidance note 7-2, polar
    stereographic; parameters of the DWD): distance from the pole in km. *)
Definition ecc : R := 0.08181919084262032.
Definition ellipsoid_radius (north : R) : R :=
  11862.667042661695 * tan (PI / 4 - radians north / 2) /
  Rpower ((1 - ecc * sin (radians north)) / (1 + ecc * sin (radians north))) (ecc / 2).

(** Distance from the pole for a composite, by its format version. *)
Definition pole_distance (format : Z) (north : R) : R :=
  if (5 <=? format)%Z then ellipsoid_radius north else sphere_radius north.

(** The point of the map plane (km east of the pole, km south of the pole). *)
Definition plane (format : Z) (north east : R) : R * R :=
  (pole_distance format north * sin (radians (east - 10)),
   pole_distance format north * cos (radians (east - 10))).

(** The inverse of the spherical projection: from the pixel position (x, y) of
    a composite with resolution rx, ry whose north-west corner is nw. *)
Definition sphere_unproject (nw : R * R) (rx ry x y : R) : R * R :=
  let X := fst (plane 0 (fst nw) (snd nw)) + x * rx in
  let Y := snd (plane 0 (fst nw) (snd nw)) + y * ry in
  let rho := sqrt (X * X + Y * Y) in
  (90 - 2 * atan (rho / (6370.04 * (1 + sin (radians 60)))) * (180 / PI),
   10 + 2 * atan (X / (rho + Y)) * (180 / PI)).
