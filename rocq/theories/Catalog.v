(** catalog.go: units and the two product catalogs. *)
From Verif Require Import GoBase.
From Coq Require String. Import String.StringSyntax.

(** A Go string literal as bytes. *)
Definition bs (s : String.string) : list byte := String.list_byte_of_string s.
Arguments bs _%string_scope.

(** catalog.go:32-40 [type Unit int] and its constants; a [Unit] variable can
    hold any int, the numeric value is [unit_code]. *)
Inductive unit_t := Unit_unknown | Unit_mm | Unit_dBZ | Unit_km | Unit_mps.

(** catalog.go:34-40: the numbers of the units. *)
Definition unit_code (u : unit_t) : Z :=
  match u with Unit_unknown => 0 | Unit_mm => 1 | Unit_dBZ => 2 | Unit_km => 3 | Unit_mps => 4 end.

(** Equality of units, e.g. radolan.go:149. *)
Definition unit_eqb (a b : unit_t) : bool := unit_code a =? unit_code b.

(** catalog.go:42-44 [func (u Unit) String]: indexing a slice literal;
    [None] is the index panic. *)
Definition unit_string (u : Z) : option (list byte) :=
  index [bs "unknown unit"; bs "mm"; bs "dBZ"; bs "km"; bs "m/s"] u.

(** catalog.go:3-12 [type spec struct].  The resolutions are small integers
    written as untyped constants. *)
Record spec := mk_spec { s_px : Z; s_py : Z; s_dx : Z; s_dy : Z; s_rx : Z; s_ry : Z }.

(** catalog.go:15-30 [dimensionCatalog]. *)
Definition dimension_catalog : gomap spec :=
  [ (bs "OL", mk_spec 200 224 200 200 2 2);
    (bs "OX", mk_spec 200 224 200 200 1 1);
    (bs "PD", mk_spec 200 224 200 200 1 1);
    (bs "PE", mk_spec 200 224 200 200 2 2);
    (bs "PF", mk_spec 200 224 200 200 1 1);
    (bs "PH", mk_spec 200 224 200 200 1 1);
    (bs "PL", mk_spec 200 224 200 200 2 2);
    (bs "PM", mk_spec 200 224 200 200 2 2);
    (bs "PR", mk_spec 200 224 200 200 1 1);
    (bs "PU", mk_spec 200 2400 200 200 1 1);
    (bs "PV", mk_spec 200 224 200 200 1 1);
    (bs "PX", mk_spec 200 224 200 200 1 1);
    (bs "PY", mk_spec 200 224 200 200 1 1);
    (bs "PZ", mk_spec 200 2400 200 200 2 2) ].

(** catalog.go:46-115 [unitCatalog]. *)
Definition unit_catalog : gomap unit_t :=
  [
    (bs "CH", Unit_mm);
    (bs "CX", Unit_dBZ);
    (bs "D2", Unit_mm);
    (bs "D3", Unit_mm);
    (bs "EA", Unit_dBZ);
    (bs "EB", Unit_mm);
    (bs "EC", Unit_mm);
    (bs "EH", Unit_mm);
    (bs "EM", Unit_mm);
    (bs "EW", Unit_mm);
    (bs "EX", Unit_dBZ);
    (bs "EY", Unit_mm);
    (bs "EZ", Unit_mm);
    (bs "FX", Unit_dBZ);
    (bs "FZ", Unit_dBZ);
    (bs "HX", Unit_dBZ);
    (bs "OL", Unit_dBZ);
    (bs "OX", Unit_dBZ);
    (bs "PA", Unit_dBZ);
    (bs "PC", Unit_dBZ);
    (bs "PD", Unit_mps);
    (bs "PE", Unit_km);
    (bs "PF", Unit_dBZ);
    (bs "PG", Unit_dBZ);
    (bs "PH", Unit_mm);
    (bs "PI", Unit_dBZ);
    (bs "PK", Unit_dBZ);
    (bs "PL", Unit_dBZ);
    (bs "PM", Unit_dBZ);
    (bs "PN", Unit_dBZ);
    (bs "PR", Unit_mps);
    (bs "PU", Unit_mps);
    (bs "PV", Unit_mps);
    (bs "PX", Unit_dBZ);
    (bs "PY", Unit_mm);
    (bs "PZ", Unit_dBZ);
    (bs "RA", Unit_mm);
    (bs "RB", Unit_mm);
    (bs "RE", Unit_mm);
    (bs "RH", Unit_mm);
    (bs "RK", Unit_mm);
    (bs "RL", Unit_mm);
    (bs "RM", Unit_mm);
    (bs "RN", Unit_mm);
    (bs "RQ", Unit_mm);
    (bs "RR", Unit_mm);
    (bs "RU", Unit_mm);
    (bs "RW", Unit_mm);
    (bs "RX", Unit_dBZ);
    (bs "RY", Unit_mm);
    (bs "RZ", Unit_mm);
    (bs "S2", Unit_mm);
    (bs "S3", Unit_mm);
    (bs "SF", Unit_mm);
    (bs "SH", Unit_mm);
    (bs "SQ", Unit_mm);
    (bs "TB", Unit_mm);
    (bs "TH", Unit_mm);
    (bs "TW", Unit_mm);
    (bs "TX", Unit_dBZ);
    (bs "TZ", Unit_mm);
    (bs "W1", Unit_mm);
    (bs "W2", Unit_mm);
    (bs "W3", Unit_mm);
    (bs "W4", Unit_mm);
    (bs "WN", Unit_dBZ);
    (bs "WX", Unit_dBZ);
    (bs "YW", Unit_mm) ].
