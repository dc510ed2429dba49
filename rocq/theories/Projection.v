(** projection.go, projection_sphere.go, projection_wgs84.go.
    The float64 arithmetic is a parameter record, so that the same model is
    instantiated with IEEE float64 over an arbitrary math library and with
    exact real numbers. *)
From Verif Require Import GoBase GoFloat Catalog Composite.

(** The places where the compiler may fuse a multiplication with the following
    addition or subtraction (projection_sphere.go:25-30, projection_wgs84.go:43-55,
    conversion.go:49).  Each may be fused or not, independently. *)
Inductive fsite :=
| AtSphereLonX | AtSphereLonY      (* lamda-lamda0, twice *)
| AtSphereX | AtSphereY            (* x -= c.offx, y -= c.offy *)
| AtColat                          (* math.Pi/2-lat *)
| AtEccMinus | AtEccPlus           (* 1-p.ecc*sinLat, 1+p.ecc*sinLat *)
| AtLonX | AtLonY                  (* lon-p.lon_0, twice *)
| AtFalseX | AtFalseY              (* p.x_0 + s*Sin, p.y_0 - s*Cos *)
| AtReflectivity.                  (* relation.c4 + relation.c1*math.Log10(rate) *)

Record arith := mk_arith {
  num : Type;
  n_nan : num;                       (* math.NaN() *)
  n_zero : num;                      (* the zero value / constant 0.0 *)
  n_ofZ : Z -> num;                  (* float64(int), small integer constants *)
  n_lit : Z -> Z -> num;             (* decimal constant m / 10^k *)
  n_add : num -> num -> num;
  n_sub : num -> num -> num;
  n_mul : num -> num -> num;
  n_div : num -> num -> num;
  n_neg : num -> num;
  n_mul_sub : fsite -> num -> num -> num -> num;   (* a*b - c *)
  n_sub_mul : fsite -> num -> num -> num -> num;   (* c - a*b, in the order c, a, b *)
  n_add_mul : fsite -> num -> num -> num -> num;   (* c + a*b, in the order c, a, b *)
  n_sin : num -> num;                (* math.Sin, math.Cos, math.Tan, math.Pow *)
  n_cos : num -> num;
  n_tan : num -> num;
  n_pow : num -> num -> num;
  n_deg : num;                       (* constants math.Pi/180.0 = 2*math.Pi/360 *)
  n_10deg : num;                     (* constant 10*degToRad *)
  n_half_pi : num                    (* constant math.Pi/2 *)
}.

(** projection.go:8-17 [grid]. *)
Inductive grid := unknownGrid | nationalGrid | nationalPictureGrid
                | extendedNationalGrid | DE1200Grid | middleEuropeanGrid.

(** projection.go:21-32 [minRes]: the loop, with fuel; [None] means that the
    fuel did not suffice (shown impossible for non-zero ints with fuel 64). *)
Fixpoint min_res_loop (fuel : nat) (rdx rdy : Z) : option (Z * Z) :=
  match fuel with
  | O => None
  | S f =>
      if (Z.land rdx 1 =? 0) && (Z.land rdy 1 =? 0)
      then min_res_loop f (Z.shiftr rdx 1) (Z.shiftr rdy 1)
      else Some (rdx, rdy)
  end.
(** projection.go:19-32 [minRes]. *)
Definition min_res (dx dy : Z) : Z * Z :=
  if (dx =? 0) || (dy =? 0) then (dx, dy)
  else match min_res_loop 64 dx dy with Some r => r | None => (0, 0) end.

(** projection.go:41-53: dx == mx && dy == my. *)
Definition same_dims (a b : Z * Z) : bool := (fst a =? fst b) && (snd a =? snd b).

(** projection.go:38-57 [detectGrid]. *)
Definition detect_grid (dx dy : Z) : grid :=
  let d := min_res dx dy in
  if same_dims d (min_res 900 900) then nationalGrid
  else if same_dims d (min_res 920 920) then nationalPictureGrid
  else if same_dims d (min_res 900 1100) then extendedNationalGrid
  else if same_dims d (min_res 1100 1200) then DE1200Grid
  else if same_dims d (min_res 1400 1500) then middleEuropeanGrid
  else unknownGrid.

Section Projection.
Variable A : arith.
Notation T := (num A).
Notation "x +. y" := (n_add A x y) (at level 50, left associativity).
Notation "x -. y" := (n_sub A x y) (at level 50, left associativity).
Notation "x *. y" := (n_mul A x y) (at level 40, left associativity).
Notation "x /. y" := (n_div A x y) (at level 40, left associativity).

(** projection.go:63-89 [cornerPoints]: ((originTop, originLeft),
    (edgeBottom, edgeRight)); [None] is errNoProjection. *)
Definition corner_points (format : Z) (g : grid) : option ((T * T) * (T * T)) :=
  let L := n_lit A in
  match g with
  | nationalGrid => Some ((L 545877 4, L 20715 4), (L 470705 4, L 146209 4))
  | nationalPictureGrid =>
      Some ((L 5466218275 8, L 1900684377 9), (L 4698044293 8, L 1473300934 8))
  | extendedNationalGrid => Some ((L 555482 4, L 30889 4), (L 461827 4, L 154801 4))
  | DE1200Grid =>
      if 5 <=? format
      then Some ((L 5586208711 8, L 1463301510 9), (L 4568460578 8, L 1658086935 8))
      else Some ((L 5586584289 8, L 1435612143 9), (L 4568358331 8, L 1660186543 8))
  | middleEuropeanGrid => Some ((L 565423 4, L (-8654) 4), (L 438736 4, L 182536 4))
  | unknownGrid => None
  end.

(** projection_sphere.go:8-13: constants; 15-36 [projectSphere]. *)
Definition earth_radius : T := n_lit A 637004 2.
(** projection_sphere.go:16-18 [rad]. *)
Definition rad (deg : T) : T := deg *. n_deg A.
(** projection_sphere.go:15-36 [projectSphere]. *)
Definition project_sphere (c : composite T) (north east : T) : T * T :=
  let one := n_ofZ A 1 in
  let lamda0 := rad (n_ofZ A 10) in let phi0 := rad (n_ofZ A 60) in
  let phi := rad north in
  let m := (one +. n_sin A phi0) /. (one +. n_sin A phi) in
  (* lamda = rad(east) = east*(Pi/180); lamda-lamda0 *)
  let dx := n_mul_sub A AtSphereLonX east (n_deg A) lamda0 in
  let dy := n_mul_sub A AtSphereLonY east (n_deg A) lamda0 in
  (* x = (earthRadius * m * Cos(phi) * Sin(lamda-lamda0)); x -= c.offx *)
  let x := n_mul_sub A AtSphereX (earth_radius *. m *. n_cos A phi) (n_sin A dx) (c_offx c) in
  let y := n_mul_sub A AtSphereY (earth_radius *. m *. n_cos A phi) (n_cos A dy) (c_offy c) in
  (x /. c_rx c, y /. c_ry c).

(** projection_wgs84.go:7-31: the parameters of proj_DE1200_WGS84. *)
Definition p_lon_0 : T := n_10deg A.
(** projection_wgs84.go:25 ecc. *)
Definition p_ecc : T := n_lit A 8181919084262032 17.
(** projection_wgs84.go:26 k_0. *)
Definition p_k_0 : T := n_lit A 11862667042661695 9.
(** projection_wgs84.go:27 x_0. *)
Definition p_x_0 : T := n_lit A 54319683521776402 11.
(** projection_wgs84.go:28 y_0. *)
Definition p_y_0 : T := n_lit A 3622588861931001 9.
(** projection_wgs84.go:30 scale. *)
Definition p_scale : T := n_ofZ A 1000.

(** projection_wgs84.go:33-60 [projectWGS84]. *)
Definition project_wgs84 (c : composite T) (north east : T) : T * T :=
  let half := n_lit A 5 1 in let one := n_ofZ A 1 in
  let lat := north *. n_deg A in
  let sinLat := n_sin A lat in
  (* Pi/2-lat with lat = north*degToRad; 1-ecc*sinLat; 1+ecc*sinLat *)
  let s := p_k_0 *. n_tan A (half *. n_sub_mul A AtColat (n_half_pi A) north (n_deg A))
           /. n_pow A (n_sub_mul A AtEccMinus one p_ecc sinLat /. n_add_mul A AtEccPlus one p_ecc sinLat) (half *. p_ecc) in
  (* lon-lon_0 with lon = east*degToRad *)
  let dx := n_mul_sub A AtLonX east (n_deg A) p_lon_0 in
  let dy := n_mul_sub A AtLonY east (n_deg A) p_lon_0 in
  let x := n_add_mul A AtFalseX p_x_0 s (n_sin A dx) in
  let y := n_sub_mul A AtFalseY p_y_0 s (n_cos A dy) in
  let x := x /. p_scale in
  let y := y /. n_neg A p_scale in
  let x := x -. c_offx c in
  let y := y -. c_offy c in
  (x /. c_rx c, y /. c_ry c).

(** projection.go:135-145 [Project]. *)
Definition project (c : composite T) (north east : T) : T * T :=
  if negb (c_has_projection c) then (n_nan A, n_nan A)
  else if c_wgs84 c then project_wgs84 c north east
  else project_sphere c north east.

(** projection.go:92-130 [calibrateProjection]. *)
Definition calibrate_projection (c : composite T) : composite T :=
  let nan := n_nan A in
  let c := set_offy (set_offx (set_ry (set_rx c nan) nan) nan) nan in
  let g := detect_grid (c_dx c) (c_dy c) in
  match corner_points (c_format c) g with
  | None => c
  | Some ((originTop, originLeft), (edgeBottom, edgeRight)) =>
      let continue := fun c =>
        let c := set_has_projection c true in
        let c := set_ry (set_rx c (n_ofZ A 1)) (n_ofZ A 1) in
        let c := set_offy (set_offx c (n_zero A)) (n_zero A) in
        let '(ox, oy) := project c originTop originLeft in
        let c := set_offy (set_offx c ox) oy in
        let '(resx, resy) := project c edgeBottom edgeRight in
        let c := set_rx c (resx /. n_ofZ A (c_dx c)) in
        set_ry c (resy /. n_ofZ A (c_dy c)) in
      if 5 <=? c_format c then
        match g with
        | DE1200Grid => continue (set_wgs84 c true)
        | _ => c
        end
      else continue c
  end.
End Projection.

(** float64 arithmetic over a math library [sin cos tan pow] (Go's results
    for these are not specified bit by bit) and a choice of fused operations.
    math.Pi is the constant 3.14159265358979323846264338327950288419716939937510582097494459. *)
Definition pi_num : positive := 314159265358979323846264338327950288419716939937510582097494459.
(** The denominator of math.Pi as a decimal fraction (Go standard library). *)
Definition pi_den : positive := 100000000000000000000000000000000000000000000000000000000000000.
(** The functions of package math used by projection_sphere.go and projection_wgs84.go, and the choice of fused operations. *)
Record mathlib := mk_mathlib {
  m_sin : f64 -> f64; m_cos : f64 -> f64; m_tan : f64 -> f64; m_pow : f64 -> f64 -> f64;
  m_fused : fsite -> bool }.      (* where the compiler fuses *)
Definition arith64 (M : mathlib) : arith :=
  mk_arith f64 NaN64 (S754_zero false) f64_of_int
    (fun m k => f64_lit m (- k))
    f64_add f64_sub f64_mul f64_div SFopp
    (fun k => mul_sub (m_fused M k)) (fun k => sub_mul (m_fused M k)) (fun k => add_mul (m_fused M k))
    (m_sin M) (m_cos M) (m_tan M) (m_pow M)
    (of_ratio prec64 emax64 false pi_num (180 * pi_den))
    (of_ratio prec64 emax64 false pi_num (18 * pi_den))
    (of_ratio prec64 emax64 false pi_num (2 * pi_den)).
