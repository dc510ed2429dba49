(** conversion.go:13-50: the Z-R relationship.  (The other functions of that
    file, IsNaN, toDBZ, toRVP6 and rvp6Raw, are in GoFloat.v and Data.v.) *)
From Verif Require Import GoBase GoFloat Projection.

Section ZR.
Variable A : arith.
Variable log10 : num A -> num A.       (* math.Log10 *)
Variable D : Type.                     (* float32 *)
Variable widen : D -> num A.           (* float64(x) *)
Variable narrow : num A -> D.          (* float32(x) *)
Notation "x *. y" := (n_mul A x y) (at level 40, left associativity).
Notation "x /. y" := (n_div A x y) (at level 40, left associativity).

(** conversion.go:14-20 [type ZR struct]. *)
Record zr := mk_zr { z_c1 : num A; z_c2 : num A; z_c3 : num A; z_c4 : num A }.

(** conversion.go:31-38 [NewZR]. *)
Definition new_zr (a b : num A) : zr :=
  let c1 := n_ofZ A 10 *. b in
  let c2 := n_pow A a (n_ofZ A (-1) /. b) in
  let c3 := n_pow A (n_ofZ A 10) (n_ofZ A 1 /. c1) in
  let c4 := n_ofZ A 10 *. log10 a in
  mk_zr c1 c2 c3 c4.

(** conversion.go:42-44 [PrecipitationRate]. *)
Definition precipitation_rate (r : zr) (dbz : D) : num A :=
  z_c2 r *. n_pow A (z_c3 r) (widen dbz).

(** conversion.go:48-50 [Reflectivity]. *)
Definition reflectivity (r : zr) (rate : num A) : D :=
  narrow (n_add_mul A AtReflectivity (z_c4 r) (z_c1 r) (log10 rate)).

(** conversion.go:23-28: the common relationships. *)
Definition Aniol80 : zr := new_zr (n_ofZ A 256) (n_lit A 142 2).
(** conversion.go:25. *)
Definition Doelling98 : zr := new_zr (n_ofZ A 316) (n_lit A 150 2).
(** conversion.go:26. *)
Definition JossWaldvogel70 : zr := new_zr (n_ofZ A 300) (n_lit A 150 2).
(** conversion.go:27. *)
Definition MarshallPalmer55 : zr := new_zr (n_ofZ A 200) (n_lit A 160 2).
End ZR.
