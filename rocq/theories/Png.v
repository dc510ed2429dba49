(** radolan2png/radolan2png.go: the command line tool, as the sequence of its
    external effects. *)
From Verif Require Import GoBase GoFloat Catalog Composite Header Projection Radolan Vis.
From Coq Require String. Import String.StringSyntax.

(** radolan2png.go:17-20. *)
Definition border_color : rgba := mk_rgba 255 255 0 255.
(** radolan2png.go:19. *)
Definition mesh_color : rgba := mk_rgba 51 255 34 255.

(** The colour functions the tool selects from (vis.go:22, 38 and
    radolan2png.go:55, 59). *)
Inductive colormap :=
| CM_heat_log (max : f64)       (* vis.Heatmap(0.1, max, vis.Log) *)
| CM_reflectivity               (* vis.HeatmapReflectivity = Heatmap(1.0, 75.0, Id) *)
| CM_gray_km                    (* vis.Graymap(0, 15, vis.Id) *)
| CM_radial.                    (* vis.HeatmapRadialVelocity = Radialmap(-31.5, 31.5, Log) *)

Definition color_fn (K : convs) (log : f64 -> f64) (m : colormap) : f64 -> rgba :=
  match m with
  | CM_heat_log max => heatmap K (flit 1 1) max log
  | CM_reflectivity => HeatmapReflectivity K
  | CM_gray_km => graymap K (fl 0) (fl 15) Id
  | CM_radial => HeatmapRadialVelocity K log
  end.

(** radolan2png.go:49, 52: time.Hour in nanoseconds. *)
Definition hour : Z := 3600 * 1000000000.

(** radolan2png.go:45-62: [None] is the nil function. *)
Definition select_colormap (u : unit_t) (interval : Z) : option colormap :=
  match u with
  | Unit_mm =>
      let max := fl 200 in
      let max := if interval <=? hour then fl 100 else max in
      let max := if hour * 24 * 7 <=? interval then fl 400 else max in
      Some (CM_heat_log max)
  | Unit_dBZ => Some CM_reflectivity
  | Unit_km => Some CM_gray_km
  | Unit_mps => Some CM_radial
  | Unit_unknown => None
  end.

Section Tool.
Variable M : mathlib.
Variable log : f64 -> f64.        (* math.Log *)
Variable K : convs.
Variable E : goenv.
Variable border : list (f64 * f64).   (* borders.go: the table of border points *)
Notation A := (arith64 M).

(** radolan2png.go:72-78. *)
Definition draw_borders (c : composite f64) (i : image) : image :=
  fold_left (fun i b =>
    let '(x, y) := project A c (fst b) (snd b) in
    img_set i (to_int K x) (to_int K y) border_color) border i.

(** radolan2png.go:81-88: float loops [for e := lo; e < hi; e += 0.1], with
    fuel; 200 steps suffice (shown in PropTool.C44_mesh_ends). *)
Fixpoint frange (fuel : nat) (v hi : f64) : list f64 :=
  match fuel with
  | O => []
  | S f => if f_lt v hi then v :: frange f (f64_add v (flit 1 1)) hi else []
  end.
(** radolan2png.go:83: v-float64(int(v)) < 0.1. *)
Definition frac_small (v : f64) : bool :=
  f_lt (f64_sub v (f64_of_int (to_int K v))) (flit 1 1).
(** radolan2png.go:81-83: the points of the two loops that meet the condition. *)
Definition mesh_points : list (f64 * f64) :=
  flat_map (fun e => map (fun n => (n, e))
    (filter (fun n => frac_small e || frac_small n) (frange 200 (fl 46) (fl 55))))
    (frange 200 (fl 1) (fl 16)).
(** radolan2png.go:80-88. *)
Definition draw_mesh (c : composite f64) (i : image) : image :=
  fold_left (fun i p =>
    let '(x, y) := project A c (fst p) (snd p) in
    img_set i (to_int K x) (to_int K y) mesh_color) mesh_points i.

(** External effects. [EvFatal] is log.Fatal (exit code 1), [EvPanic] a crash. *)
Inductive event :=
| EvUsage                              (* radolan2png.go:25-26 *)
| EvOpen (file : list byte)            (* 35 *)
| EvInfo (product : list byte) (unit_name : option (list byte)) (forecast : Z)  (* 43 *)
| EvGrid (width height : f64)          (* 70: the numbers printed, before formatting with %.1f *)
| EvCreate (file : list byte)          (* 92 *)
| EvWritePng (i : image)               (* 97 *)
| EvFatal
| EvPanic.

(** The environment of one run: content of the input file, or [None] if it
    cannot be opened; whether the output file can be created / written. *)
Record world := mk_world { w_input : list byte -> option (list byte);
                           w_create : bool; w_encode : bool }.

(** radolan2png.go:33-98 [convert]. *)
Definition convert (w : world) (inp out : list byte) : list event :=
  EvOpen inp ::
  match w_input w inp with
  | None => [EvFatal]
  | Some bytes =>
      match new_composite A E bytes with
      | Panic => [EvPanic]
      | Failure _ _ => [EvFatal]
      | Value comp =>
          EvInfo (c_product comp) (unit_string (unit_code (c_unit comp))) (c_forecast comp) ::
          match select_colormap (c_unit comp) (c_interval comp) with
          | None => [EvPanic]
          | Some cm =>
              match image_of A (color_fn K log cm) comp 0 with
              | None => [EvPanic]
              | Some img =>
                  let '(evs, img) :=
                    if c_has_projection comp
                    then ([EvGrid (f64_mul (f64_of_int (c_dx comp)) (c_rx comp)) (f64_mul (f64_of_int (c_dy comp)) (c_ry comp))],
                          draw_mesh comp (draw_borders comp img))
                    else ([], img) in
                  evs ++ EvCreate out ::
                  (if w_create w then
                     [EvWritePng img] ++ (if w_encode w then [] else [EvFatal])
                   else [EvFatal])
              end
          end
      end
  end.

(** radolan2png.go:22-31 [main]. *)
Definition main (w : world) (args : list (list byte)) : list event :=
  match args with
  | _ :: inp :: out :: _ => convert w inp out
  | _ => [EvUsage]
  end.
End Tool.
