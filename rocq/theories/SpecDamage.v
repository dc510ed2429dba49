(** Vocabulary of C68: files that differ in their data bytes only. *)
From Verif Require Import GoBase GoFloat Composite.

(** A composite without its values: PlainData, DataZ and Data are left out. *)
Definition without_values {T} (c : composite T) : composite T := set_data (set_dataz (set_plain c []) []) [].

(** [l] with the element at position [y] replaced. *)
Definition replaced {X} (l : list X) (y : nat) (x : X) : list X := firstn y l ++ x :: skipn (S y) l.
