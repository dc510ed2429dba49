(** The products of the radar service, independently of the catalogs of the
    code: which quantity each carries, and the layout of the local ones. *)
From Verif Require Import GoBase GoFloat Catalog.
From Coq Require String. Import String.StringSyntax.

(** Precipitation (mm per interval), reflectivity (dBZ), radial velocity (m/s),
    echo top (km). *)
Definition precipitation_products : list (list byte) :=
  [bs "CH"; bs "D2"; bs "D3"; bs "EB"; bs "EC"; bs "EH"; bs "EM"; bs "EW"; bs "EY"; bs "EZ";
    bs "PH"; bs "PY"; bs "RA"; bs "RB"; bs "RE"; bs "RH"; bs "RK"; bs "RL"; bs "RM"; bs "RN";
    bs "RQ"; bs "RR"; bs "RU"; bs "RW"; bs "RY"; bs "RZ"; bs "S2"; bs "S3"; bs "SF"; bs "SH";
    bs "SQ"; bs "TB"; bs "TH"; bs "TW"; bs "TZ"; bs "W1"; bs "W2"; bs "W3"; bs "W4"; bs "YW"].
Definition reflectivity_products : list (list byte) :=
  [bs "CX"; bs "EA"; bs "EX"; bs "FX"; bs "FZ"; bs "HX"; bs "OL"; bs "OX"; bs "PA"; bs "PC";
    bs "PF"; bs "PG"; bs "PI"; bs "PK"; bs "PL"; bs "PM"; bs "PN"; bs "PX"; bs "PZ"; bs "RX";
    bs "TX"; bs "WN"; bs "WX"].
Definition velocity_products : list (list byte) := [bs "PD"; bs "PR"; bs "PU"; bs "PV"].
Definition echo_top_products : list (list byte) := [bs "PE"].

(** The unit of a product. *)
Inductive product_unit (label : list byte) : unit_t -> Prop :=
| is_precipitation : In label precipitation_products -> product_unit label Unit_mm
| is_reflectivity : In label reflectivity_products -> product_unit label Unit_dBZ
| is_velocity : In label velocity_products -> product_unit label Unit_mps
| is_echo_top : In label echo_top_products -> product_unit label Unit_km.

(** Local products: one sweep of 200 x 200 pixels.  PU and PZ are volumes of
    12 layers, the others carry 24 further rows (a side view) above. *)
Definition local_products : list (list byte) :=
  [bs "OL"; bs "OX"; bs "PD"; bs "PE"; bs "PF"; bs "PH"; bs "PL"; bs "PM"; bs "PR"; bs "PU";
    bs "PV"; bs "PX"; bs "PY"; bs "PZ"].
Definition volume_products : list (list byte) := [bs "PU"; bs "PZ"].
Inductive local_rows (label : list byte) : Z -> Z -> Prop :=   (* rows in the file, layers *)
| is_volume : In label volume_products -> local_rows label (12 * 200) 12
| is_flat : In label local_products -> ~ In label volume_products -> local_rows label (24 + 200) 1.
