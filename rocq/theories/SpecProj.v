(** Vocabulary of the projection properties: the documented grids. *)
From Verif Require Import GoBase.

(** The documented grids, by their extent in km (width, height). *)
Definition documented_sizes : list (Z * Z) :=
  [(900, 900); (920, 920); (900, 1100); (1100, 1200); (1400, 1500)].

(** dx x dy is the size gx x gy scaled up or down by a power of two. *)
Definition resampled (dx dy gx gy : Z) : Prop :=
  exists a b, 0 <= a /\ 0 <= b /\ dx * 2 ^ a = gx * 2 ^ b /\ dy * 2 ^ a = gy * 2 ^ b.

(** dx x dy is a documented grid in some resolution. *)
Definition known_size (dx dy : Z) : Prop :=
  exists gx gy, In (gx, gy) documented_sizes /\ resampled dx dy gx gy.

(** The sizes and format versions with a projection rule. *)
Definition projectable (format dx dy : Z) : Prop :=
  if 5 <=? format then resampled dx dy 1100 1200 else known_size dx dy.
