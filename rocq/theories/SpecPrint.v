(** Vocabulary of C65: the lines radolan2png prints. *)
From Verif Require Import GoBase Catalog Composite SpecHeader SpecWriter.
From Coq Require String. Import String.StringSyntax.

Definition end_of_line : list byte := [Byte.x0a].

(** A calendar minute in UTC: "2018-08-02 12:40:00 +0000 UTC". *)
Definition shown_minute (y m d h mi : Z) : list byte :=
  digits y ++ bs "-" ++ two m ++ bs "-" ++ two d ++ bs " " ++ two h ++ bs ":" ++ two mi ++ bs ":00 +0000 UTC".

(** The names of the units. *)
Inductive unit_named : unit_t -> list byte -> Prop :=
| named_mm : unit_named Unit_mm (bs "mm")
| named_dBZ : unit_named Unit_dBZ (bs "dBZ")
| named_km : unit_named Unit_km (bs "km")
| named_mps : unit_named Unit_mps (bs "m/s").

(** "RW-Image (mm) showing ...". *)
Definition info_line (label unit_name time : list byte) : list byte :=
  label ++ bs "-Image (" ++ unit_name ++ bs ") showing " ++ time ++ end_of_line.

(** "detected grid: 900.0 km * 900.0 km". *)
Definition extent_line (gx gy : Z) : list byte :=
  bs "detected grid: " ++ digits gx ++ bs ".0 km * " ++ digits gy ++ bs ".0 km" ++ end_of_line.

(** The calendar minute [minutes] after another one. *)
Definition minutes_later (minutes y m d h mi y' m' d' h' mi' : Z) : Prop :=
  calendar_minute y' m' d' h' mi' /\ y <= y' /\ epoch_minute y' m' d' h' mi' = epoch_minute y m d h mi + minutes.

(** The help text. *)
Definition help_text (program : list byte) : list byte :=
  bs "radolan2png converts radolan composite files to png images." ++ end_of_line ++ end_of_line ++
  [Byte.x09] ++ bs "Usage: " ++ program ++ bs " <input> <output.png>" ++ end_of_line ++ end_of_line.
