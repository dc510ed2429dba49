(** radolan2png/vis/vis.go: colour maps and image creation. *)
From Verif Require Import GoBase GoFloat Catalog Composite Projection Radolan.

(** color.RGBA; components 0..255. *)
Record rgba := mk_rgba { r_r : Z; r_g : Z; r_b : Z; r_a : Z }.
(** vis.go: color.RGBA{0, 0, 0, 255}, as in the colour functions. *)
Definition black : rgba := mk_rgba 0 0 0 255.
(** The zero color.RGBA: the pixels of a new image (vis.go:62). *)
Definition transparent : rgba := mk_rgba 0 0 0 0.

(** Truncation of a finite float towards zero. *)
Definition trunc (x : f64) : option Z :=
  match x with
  | S754_zero _ => Some 0
  | S754_finite s m e =>
      let a := if 0 <=? e then Zpos m * 2 ^ e else Zpos m / 2 ^ (- e) in
      Some (if s then - a else a)
  | _ => None
  end.

(** Go leaves conversions of NaN and out-of-range floats to integers
    implementation defined, and lets the compiler fuse x*y + z (GoFloat.v): parameters.
    [vsite]: the places in vis.go where it may (146, 149, 152 and, with
    x = c * (1 - ...), the three sums of 178).  (The other products that are
    added to something are exact: c*s with s = 1, and c/2 as c*0.5.) *)
Inductive vsite := AtHue | AtLight | AtChroma | AtRed | AtGreen | AtBlue.
(** The parameters: conversion of out-of-range values, and fusing. *)
Record convs := mk_convs { oor_u8 : f64 -> Z; oor_int : f64 -> Z; k_fused : vsite -> bool }.

(** uint8(x) and int(x). *)
Definition to_u8 (K : convs) (x : f64) : Z :=
  match trunc x with
  | Some t => if (0 <=? t) && (t <=? 255) then t else (oor_u8 K x) mod 256
  | None => (oor_u8 K x) mod 256
  end.
(** int(x), e.g. radolan2png.go:77. *)
Definition to_int (K : convs) (x : f64) : Z :=
  match trunc x with
  | Some t => if in_int t then t else int_wrap (oor_int K x)
  | None => int_wrap (oor_int K x)
  end.

(** math.Abs. *)
Definition f_abs (x : f64) : f64 := SFabs x.

(** math.Max (for float64). *)
Definition f_max (x y : f64) : f64 :=
  match x, y with
  | S754_infinity false, _ | _, S754_infinity false => S754_infinity false
  | S754_nan, _ | _, S754_nan => S754_nan
  | S754_zero sx, S754_zero _ => if sx then y else x
  | _, _ => if f_lt y x then x else y
  end.

(** math.Mod: exact remainder with the sign of x. *)
Definition f_mod (x y : f64) : f64 :=
  match x, y with
  | S754_nan, _ | _, S754_nan => S754_nan
  | S754_infinity _, _ => S754_nan
  | _, S754_zero _ => S754_nan
  | _, S754_infinity _ => x
  | S754_zero _, _ => x
  | S754_finite sx mx ex, S754_finite _ my ey =>
      let e := Z.min ex ey in
      let r := (Zpos mx * 2 ^ (ex - e)) mod (Zpos my * 2 ^ (ey - e)) in
      binary_normalize prec64 emax64 (if sx then - r else r) e sx
  end.

(** Integer constants of vis.go and radolan2png.go as float64. *)
Definition fl (z : Z) : f64 := f64_of_int z.
(** Decimal constants of vis.go and radolan2png.go as float64. *)
Definition flit (m k : Z) : f64 := f64_lit m (- k).

(** vis.go:49-51 [Id]. *)
Definition Id (x : f64) : f64 := x.

(** vis.go:79-98 [Graymap]. *)
Definition graymap (K : convs) (min max : f64) (compression : f64 -> f64) (val : f64) : rgba :=
  let min := compression min in
  let max := compression max in
  let val := compression val in
  if f_lt val min then black
  else
    let p := f64_div (f64_sub val min) (f64_sub max min) in
    let p := if f_lt (fl 1) p then fl 1 else p in
    let l := to_u8 K (f64_mul (fl 255) p) in
    mk_rgba l l l 255.

(** vis.go:102-128 [Radialmap]. *)
Definition radialmap (K : convs) (min max : f64) (compression : f64 -> f64) (val : f64) : rgba :=
  if negb (f_eq val val) then black
  else
    let base := f_max (f_abs min) (f_abs max) in
    let p := f64_div (compression (f_abs val)) (compression base) in
    let p := if f_lt (fl 1) p then fl 1 else p in
    let lev := to_u8 K (f64_mul (fl 255) p) in
    let '(lev, non) := if f_le (f_abs val) (fl 1) then (255, 204) else (lev, 0) in
    if f_lt val (S754_zero false) then mk_rgba non lev lev 255
    else mk_rgba lev non non 255.

(** vis.go:132-182 [Heatmap]. *)
Definition heatmap (K : convs) (min max : f64) (compression : f64 -> f64) (val : f64) : rgba :=
  let min := compression min in
  let max := compression max in
  let val := compression val in
  if f_lt val min then black
  else
    let p := f64_div (f64_sub val min) (f64_sub max min) in
    let p := if f_lt (fl 1) p then fl 1 else p in
    let F := k_fused K in
    let h := f_mod (f64_add (sub_mul (F AtHue) (fl 360) (fl 330) p) (fl 240)) (fl 360) in
    let s := fl 1 in
    let l := mul_add (F AtLight) (flit 5 1) p (flit 25 2) in
    let c := f64_mul (f64_sub (fl 1) (f_abs (mul_sub (F AtChroma) (fl 2) l (fl 1)))) s in
    let hh := f64_div h (fl 60) in
    let w := f64_sub (fl 1) (f_abs (f64_sub (f_mod hh (fl 2)) (fl 1))) in
    let hh := if IsNaN hh then fl (-1) else hh in
    let m := f64_sub l (f64_div c (fl 2)) in
    (* the summands c + m, x + m (x = c * w) and 0 + m *)
    let cm := f64_add c m in
    let xm := fun k => mul_add (F k) c w m in
    let zm := f64_add (S754_zero false) m in
    let '(rm, gm, bm) :=
      match to_int K hh with
      | 0 => (cm, xm AtGreen, zm)
      | 1 => (xm AtRed, cm, zm)
      | 2 => (zm, cm, xm AtBlue)
      | 3 => (zm, xm AtGreen, cm)
      | 4 => (xm AtRed, zm, cm)
      | 5 => (cm, zm, xm AtBlue)
      | _ => (zm, zm, zm)
      end in
    mk_rgba (to_u8 K (f64_mul (fl 255) rm))
            (to_u8 K (f64_mul (fl 255) gm))
            (to_u8 K (f64_mul (fl 255) bm))
            255.

(** vis.go:15-46: the sample gradients; [log] is math.Log (vis.go:54-56 [Log]). *)
Section Samples.
Variables (K : convs) (log : f64 -> f64).
(** vis.go:18. *)
Definition HeatmapReflectivityShort : f64 -> rgba := heatmap K (fl 5) (fl 75) Id.
(** vis.go:22. *)
Definition HeatmapReflectivity : f64 -> rgba := heatmap K (fl 1) (fl 75) Id.
(** vis.go:26. *)
Definition HeatmapReflectivityWide : f64 -> rgba := heatmap K (flit (-325) 1) (fl 75) Id.
(** vis.go:31. *)
Definition HeatmapAccumulatedHour : f64 -> rgba := heatmap K (flit 1 1) (fl 100) log.
(** vis.go:36. *)
Definition HeatmapAccumulatedDay : f64 -> rgba := heatmap K (flit 1 1) (fl 200) log.
(** vis.go:38. *)
Definition HeatmapRadialVelocity : f64 -> rgba := radialmap K (flit (-315) 1) (flit 315 1) log.
(** vis.go:42. *)
Definition GraymapLinear : f64 -> rgba := graymap K (fl 0) (flit 4095 1) Id.
(** vis.go:46. *)
Definition GraymapLinearWide : f64 -> rgba := graymap K (fl 0) (fl 4095) Id.
End Samples.

(** image.RGBA: bounds and pixels.  image.Rect (stdlib) swaps bounds given in
    the wrong order. *)
Record image := mk_image { i_x0 : Z; i_y0 : Z; i_x1 : Z; i_y1 : Z; i_pix : Z -> Z -> rgba }.
(** image.RGBA.Set (vis.go:70): points outside the bounds are ignored. *)
Definition in_image (i : image) (x y : Z) : bool :=
  (i_x0 i <=? x) && (x <? i_x1 i) && (i_y0 i <=? y) && (y <? i_y1 i).

(** image.NewRGBA(image.Rect(0, 0, dx, dy)); [None]: panic on huge sizes. *)
Definition new_rgba (dx dy : Z) : option image :=
  if Z.abs dx * Z.abs dy * 4 <=? max_alloc
  then Some (mk_image (Z.min 0 dx) (Z.min 0 dy) (Z.max 0 dx) (Z.max 0 dy) (fun _ _ => transparent))
  else None.

(** (img *RGBA) Set with a color.RGBA: no effect outside the bounds. *)
Definition img_set (i : image) (x y : Z) (c : rgba) : image :=
  if in_image i x y
  then mk_image (i_x0 i) (i_y0 i) (i_x1 i) (i_y1 i)
         (fun x' y' => if (x' =? x) && (y' =? y) then c else i_pix i x' y')
  else i.

Section Image.
Variable A : arith.

(** vis.go:69-71: the inner loop over x; [None]: index panic. *)
Fixpoint image_row (fn : f64 -> rgba) (row : option (list f32)) (n : nat) (x y : Z) (i : image) : option image :=
  match n with
  | O => Some i
  | S n' =>
      match row with
      | None => None
      | Some r =>
          match index r x with
          | None => None
          | Some v => image_row fn row n' (x + 1) y (img_set i x y (fn (f64_of_f32 v)))
          end
      end
  end.

(** vis.go:68-72: the outer loop over y. *)
Fixpoint image_rows (fn : f64 -> rgba) (layer : list (list f32)) (dx : Z) (n : nat) (y : Z) (i : image) : option image :=
  match n with
  | O => Some i
  | S n' =>
      match image_row fn (index layer y) (Z.to_nat dx) 0 y i with
      | None => None
      | Some i' => image_rows fn layer dx n' (y + 1) i'
      end
  end.

(** vis.go:60-75 [Image]; [None] is a panic. *)
Definition image_of (fn : f64 -> rgba) (c : composite (num A)) (layer : Z) : option image :=
  match new_rgba (c_dx c) (c_dy c) with
  | None => None
  | Some img =>
      if (layer <? 0) || (c_dz c <=? layer) then Some img
      else match index (c_dataz c) layer with
           | None => if (0 <? c_dy c) && (0 <? c_dx c) then None else Some img
           | Some l => image_rows fn l (c_dx c) (Z.to_nat (c_dy c)) 0 img
           end
  end.
End Image.
