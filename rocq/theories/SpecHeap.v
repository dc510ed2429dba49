(** Vocabulary for composites a caller writes to.  A composite has three
    names for its pixels: PlainData, DataZ and Data. *)
From Verif Require Import GoBase GoFloat Catalog Composite Header Data Projection Radolan Heap.

Section SpecHeap.
Context {T : Type}.

Definition at2 (d : list (list f32)) (y x : Z) : option f32 :=
  match index d y with Some r => index r x | None => None end.

(** c.PlainData[y][x], c.DataZ[z][y][x], c.Data[y][x]; [None]: no such element. *)
Definition read (c : composite T) (p : path) : option f32 :=
  match p with
  | InPlain y x => at2 (c_plain c) y x
  | InData y x => at2 (c_data c) y x
  | InDataZ z y x => match index (c_dataz c) z with Some l => at2 l y x | None => None end
  end.

(** The row and column of PlainData that holds the pixel: layers follow one
    another downwards; if the height is no multiple of the layer height there
    is one layer, at the bottom. *)
Definition layer_top (c : composite T) (z : Z) : Z :=
  if c_py c mod c_dy c =? 0 then z * c_dy c else c_py c - c_dy c.
Definition place (c : composite T) (p : path) : Z * Z :=
  match p with
  | InPlain y x => (y, x)
  | InDataZ z y x => (layer_top c z + y, x)
  | InData y x => (layer_top c 0 + y, x)
  end.
Definition same_place (c : composite T) (p q : path) : bool :=
  (fst (place c p) =? fst (place c q)) && (snd (place c p) =? snd (place c q)).

(** Apart from the three data fields. *)
Definition same_metadata (c c' : composite T) : Prop :=
  set_data (set_dataz (set_plain c' []) []) [] = set_data (set_dataz (set_plain c []) []) [].

(** [c'] is [c] after an assignment of v to the existing pixel named p: every
    name of that pixel now has the value v, everything else is as before. *)
Definition after_write (c : composite T) (p : path) (v : f32) (c' : composite T) : Prop :=
  read c p <> None /\ same_metadata c c' /\
  forall q, read c' q = match read c q with
                        | None => None
                        | Some old => Some (if same_place c p q then v else old)
                        end.

(** The same for a sequence of assignments. *)
Inductive after_writes (c : composite T) : list (path * f32) -> composite T -> Prop :=
| no_writes : after_writes c [] c
| more_writes ws p v c1 c2 : after_writes c ws c1 -> after_write c1 p v c2 ->
    after_writes c (ws ++ [(p, v)]) c2.

(** A returned composite with assignments. *)
Definition outcome_after (o : outcome T (composite T)) (ws : list (path * f32)) (o' : outcome T (composite T)) : Prop :=
  match o, o' with
  | Value c, Value c' => after_writes c ws c'
  | Failure e c, Failure e' c' => e = e' /\ after_writes c ws c'
  | Panic, Panic => ws = []
  | _, _ => False
  end.
End SpecHeap.

(** The array a running call accesses in its next step. *)
Definition next_access {R} (p : prog R) : option nat :=
  match p with
  | GetRow a _ _ | SetRow a _ _ _ | GetFloats a _ | SetFloat a _ _ _ => Some a
  | Ret _ | Alloc _ _ => None
  end.
