(** Vocabulary of C73: the memory NewComposite asks for. *)
From Verif Require Import GoBase GoFloat Heap.

(** Size of an array: a float32 has 4 bytes, a []float32 (pointer, length,
    capacity) has 24. *)
Definition array_bytes (b : block) : Z :=
  match b with Floats l => 4 * len l | Rows l => 24 * len l end.

(** What the next step of a program allocates. *)
Definition requests {R} (p : prog R) : Z :=
  match p with Alloc b _ => array_bytes b | _ => 0 end.

(** [p] has come to [q] and allocated [n] bytes.  Before each of its steps
    everybody else may have changed the memory. *)
Inductive allocates {R} (p : prog R) : Z -> prog R -> Prop :=
| at_start : allocates p 0 p
| one_step n q m m' q' : allocates p n q -> pstep m q m' q' -> allocates p (n + requests q) q'.

(** A composite of [rows] rows of [cols] values. *)
Definition grid_bytes (cols rows : Z) : Z := rows * 24 + rows * (cols * 4).
