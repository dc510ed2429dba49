(** Vocabulary of C66: the coordinate tables of the radar service.  The formulas
    are those of testdata/README_GRID.md. *)
From Coq Require Import Reals.
From Verif Require Import GoBase ExactReal.
Local Open Scope R_scope.

Definition degrees (r : R) : R := r * (180 / PI).

(** x = R M cos(LAT) sin(LON-LON0), y = -R M cos(LAT) cos(LON-LON0),
    M = (1+sin(LAT0))/(1+sin(LAT)), R = 6370.04 km, LON0 = 10 E, LAT0 = 60 N. *)
Definition table_M (lat : R) : R := (1 + sin (radians 60)) / (1 + sin (radians lat)).
Definition table_x (lat lon : R) : R := 6370.04 * table_M lat * cos (radians lat) * sin (radians (lon - 10)).
Definition table_y (lat lon : R) : R := - (6370.04 * table_M lat * cos (radians lat) * cos (radians (lon - 10))).

(** LON = arctan(-x/y) + LON0, LAT = 2 arctan(R A sin(LON-LON0)/x) - 90, A = 1+sin(LAT0). *)
Definition table_lon (x y : R) : R := degrees (atan (- x / y)) + 10.
Definition table_lat (x y : R) : R :=
  degrees (2 * atan (6370.04 * (1 + sin (radians 60)) * sin (radians (table_lon x y - 10)) / x)) - 90.

(** Printed with five decimals. *)
Definition five_decimals (printed exact : R) : Prop := Rabs (printed - exact) <= 0.000005.

(** Documented points of the grids: size, whether the format version is 5 or
    higher, latitude and longitude, km from the north-western corner, and the
    accuracy (projection_sphere_test.go:51-97, projection_wgs84_test.go:8-13). *)
Inductive documented_point : Z * Z -> bool -> R * R -> R * R -> R -> Prop :=
| national_1 : documented_point (900, 900)%Z false (54.5877, 2.0715) (0, 0) 0.03
| national_2 : documented_point (900, 900)%Z false (54.7405, 15.7208) (900, 0) 0.03
| national_3 : documented_point (900, 900)%Z false (51, 9) (450, 450) 0.03
| national_4 : documented_point (900, 900)%Z false (46.9526, 3.5889) (0, 900) 0.03
| national_5 : documented_point (900, 900)%Z false (47.0705, 14.6209) (900, 900) 0.03
| picture_1 : documented_point (920, 920)%Z false (54.66218275, 1.900684377) (0, 0) 0.03
| picture_2 : documented_point (920, 920)%Z false (54.81884457, 15.88724008) (920, 0) 0.03
| picture_3 : documented_point (920, 920)%Z false (51, 9) (460, 460) 0.03
| picture_4 : documented_point (920, 920)%Z false (46.86029310, 3.481345126) (0, 920) 0.03
| picture_5 : documented_point (920, 920)%Z false (46.98044293, 14.73300934) (920, 920) 0.03
| extended_1 : documented_point (900, 1100)%Z false (55.5482, 3.0889) (0, 0) 0.03
| extended_2 : documented_point (900, 1100)%Z false (55.5342, 17.1128) (900, 0) 0.03
| extended_3 : documented_point (900, 1100)%Z false (51, 9) (370, 550) 0.03
| extended_4 : documented_point (900, 1100)%Z false (46.1929, 4.6759) (0, 1100) 0.03
| extended_5 : documented_point (900, 1100)%Z false (46.1827, 15.4801) (900, 1100) 0.03
| de1200_1 : documented_point (1100, 1200)%Z false (55.86584289, 1.435612143) (0, 0) 0.03
| de1200_2 : documented_point (1100, 1200)%Z false (55.84848692, 18.76728172) (1100, 0) 0.03
| de1200_3 : documented_point (1100, 1200)%Z false (51, 9) (470, 600) 0.03
| de1200_4 : documented_point (1100, 1200)%Z false (45.69587048, 3.551921296) (0, 1200) 0.03
| de1200_5 : documented_point (1100, 1200)%Z false (45.68358331, 16.60186543) (1100, 1200) 0.03
| european_1 : documented_point (1400, 1500)%Z false (56.5423, -0.8654) (0, 0) 0.03
| european_2 : documented_point (1400, 1500)%Z false (56.4505, 21.6986) (1400, 0) 0.03
| european_3 : documented_point (1400, 1500)%Z false (51, 9) (600, 700) 0.03
| european_4 : documented_point (1400, 1500)%Z false (43.9336, 2.3419) (0, 1500) 0.03
| european_5 : documented_point (1400, 1500)%Z false (43.8736, 18.2536) (1400, 1500) 0.03
| wgs84_1 : documented_point (1100, 1200)%Z true (55.86208711, 1.463301510) (0, 0) 0.000001
| wgs84_2 : documented_point (1100, 1200)%Z true (55.84543856, 18.73161645) (1100, 0) 0.000001
| wgs84_3 : documented_point (1100, 1200)%Z true (45.68460578, 16.58086935) (1100, 1200) 0.000001
| wgs84_4 : documented_point (1100, 1200)%Z true (45.69642538, 3.566994635) (0, 1200) 0.000001.
