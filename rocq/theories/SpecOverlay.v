(** The colours of the overlay: borders yellow, mesh bright green, both opaque. *)
From Verif Require Import GoBase Vis.

Definition yellow : rgba := mk_rgba 255 255 0 255.
Definition bright_green : rgba := mk_rgba 51 255 34 255.
