(** Basic Go notions used by the model of /repo: bytes, the 64-bit [int],
    bounds-checked slicing and indexing, [make].
    No code of /repo is modelled here; these are the language primitives the
    modelled functions are written in. *)
From Coq Require Export List ZArith Bool.
From Coq.Strings Require Export Byte.
Export ListNotations.
Open Scope Z_scope.

(** A Go [byte] as a number 0..255. *)
Definition bz (b : byte) : Z := Z.of_N (Byte.to_N b).

(** Go [len] (of a string or slice), an [int]. *)
Definition len {A : Type} (l : list A) : Z := Z.of_nat (length l).

(** Go [int] arithmetic on a 64-bit platform wraps around. *)
Definition int_wrap (z : Z) : Z := (z + 2 ^ 63) mod 2 ^ 64 - 2 ^ 63.

(** math.MinInt64. *)
Definition int_min : Z := - 2 ^ 63.
(** math.MaxInt64. *)
Definition int_max : Z := 2 ^ 63 - 1.
(** The values of type int. *)
Definition in_int (z : Z) : bool := (int_min <=? z) && (z <=? int_max).

(** Go slice expression [s[a:b]]; [None] is the run-time panic
    "slice bounds out of range".  (For slices the capacity equals the length
    everywhere the code slices.) *)
Definition slice {A : Type} (l : list A) (a b : Z) : option (list A) :=
  if (0 <=? a) && (a <=? b) && (b <=? len l)
  then Some (firstn (Z.to_nat (b - a)) (skipn (Z.to_nat a) l))
  else None.

(** Go index expression [s[i]]; [None] is the run-time panic
    "index out of range". *)
Definition index {A : Type} (l : list A) (i : Z) : option A :=
  if (0 <=? i) && (i <? len l) then nth_error l (Z.to_nat i) else None.

(** Go assignment [s[i] = v]; [None] is the run-time panic. *)
Fixpoint replace_nth {A : Type} (l : list A) (n : nat) (v : A) : list A :=
  match l, n with
  | [], _ => []
  | _ :: t, O => v :: t
  | x :: t, S n' => x :: replace_nth t n' v
  end.

(** l[i] = v; [None] is an index panic. *)
Definition assign {A : Type} (l : list A) (i : Z) (v : A) : option (list A) :=
  if (0 <=? i) && (i <? len l) then Some (replace_nth l (Z.to_nat i) v) else None.

(** [make([]T, n)] with elements of [sz] bytes: run-time panic
    "makeslice: len out of range" if [n] is negative or [n*sz] exceeds
    [maxAlloc] = 2^48 (linux/amd64).  Exhaustion of physical memory is not
    modelled. *)
Definition max_alloc : Z := 2 ^ 48.
(** make([]T, n) for elements of [size] bytes; [None] is a panic. *)
Definition make {A : Type} (sz : Z) (zero : A) (n : Z) : option (list A) :=
  if (0 <=? n) && (n * sz <=? max_alloc)
  then Some (repeat zero (Z.to_nat n)) else None.

(** Equality of strings. *)
Definition byte_eqb (a b : byte) : bool := Byte.eqb a b.
(** Comparison of strings. *)
Fixpoint str_eqb (a b : list byte) : bool :=
  match a, b with
  | [], [] => true
  | x :: a', y :: b' => byte_eqb x y && str_eqb a' b'
  | _, _ => false
  end.

(** A Go [map[string]V] built by successive assignments [m[k] = v]: the list
    of assignments, latest first.  [lookup] is [v, ok := m[k]]. *)
Definition gomap (V : Type) : Type := list (list byte * V).
(** m[k] of a map. *)
Fixpoint lookup {V : Type} (m : gomap V) (k : list byte) : option V :=
  match m with
  | [] => None
  | (k', v) :: t => if str_eqb k k' then Some v else lookup t k
  end.

(** Reading up to and including the first occurrence of a delimiter
    (bufio.Reader.ReadString / ReadBytes on the remaining input, as a pure
    function of the bytes; the chunked reader is modelled in Bufio.v and
    shown equivalent).  [None]: end of input before the delimiter. *)
Fixpoint read_until (d : byte) (s : list byte) : option (list byte * list byte) :=
  match s with
  | [] => None
  | b :: t =>
      if byte_eqb b d then Some ([b], t)
      else match read_until d t with
           | None => None
           | Some (l, r) => Some (b :: l, r)
           end
  end.

(** io.ReadFull of [n] bytes; [None]: EOF or unexpected EOF. *)
Definition read_full (n : Z) (s : list byte) : option (list byte * list byte) :=
  if n <=? len s then Some (firstn (Z.to_nat n) s, skipn (Z.to_nat n) s) else None.
