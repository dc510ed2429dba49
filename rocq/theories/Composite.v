(** radolan.go:84-120 [type Composite struct], the errors of the package and
    the outcome of its functions. *)
From Verif Require Import GoBase GoFloat Catalog.

(** One constructor per error site (the texts are not modelled). *)
Inductive error :=
| EHeaderShort        (* header.go:46 *)
| EDataLength         (* header.go:63 *)
| ECaptureTime        (* header.go:71 *)
| EForecastTime       (* header.go:79 *)
| EInterval           (* header.go:88 *)
| EDimGP              (* header.go:101 *)
| EDimBG              (* header.go:107 *)
| ENoDimension        (* header.go:114 *)
| EPrecision          (* header.go:125 *)
| ELevelShort         (* header.go:133 *)
| ELevelCount         (* header.go:138 *)
| ELevelFormat        (* header.go:142 *)
| ELevelValue         (* header.go:149 *)
| EFormat             (* header.go:157 *)
| ENoHeader           (* data.go:51 *)
| EUnknownEncoding    (* data.go:81 *)
| EReadRunlength      (* runlength.go:30 *)
| EOffsetValue        (* runlength.go:53 *)
| EDestination        (* runlength.go:65 *)
| EReadLittleEndian   (* littleendian.go:33 *)
| ESizeLittleEndian   (* littleendian.go:41 *)
| EReadSingleByte     (* singlebyte.go:33 *)
| ESizeSingleByte     (* singlebyte.go:41 *)
| ErrUnknownUnit      (* radolan.go:126 *)
| EArchive.           (* radolan.go:169-171: error of the tar / bzip2 reader *)

(** The composite.  [T] is the type of the float64 fields used by the
    projection (float64 itself, or exact reals for the idealised theorems).
    [level = None] is the nil slice.  [c_wgs84] tells whether the pointer
    [proj_wgs84] is non-nil (its only non-nil value is proj_DE1200_WGS84). *)
Record composite (T : Type) := mk_composite {
  c_product : list byte;        (* Product *)
  c_capture : Z;                (* CaptureTime, ns since the Unix epoch *)
  c_forecast : Z;               (* ForecastTime *)
  c_interval : Z;               (* Interval, ns *)
  c_unit : unit_t;              (* DataUnit *)
  c_plain : list (list f32);    (* PlainData [y][x] *)
  c_px : Z;                     (* Px *)
  c_py : Z;                     (* Py *)
  c_dataz : list (list (list f32));  (* DataZ [z][y][x] *)
  c_data : list (list f32);     (* Data [y][x] *)
  c_dx : Z;                     (* Dx *)
  c_dy : Z;                     (* Dy *)
  c_dz : Z;                     (* Dz *)
  c_rx : T;                     (* Rx *)
  c_ry : T;                     (* Ry *)
  c_has_projection : bool;      (* HasProjection *)
  c_format : Z;                 (* Format *)
  c_data_length : Z;            (* dataLength *)
  c_precision : Z;              (* precision *)
  c_level : option (list f32);  (* level *)
  c_offx : T;                   (* offx *)
  c_offy : T;                   (* offy *)
  c_wgs84 : bool                (* proj_wgs84 != nil *)
}.
Arguments mk_composite {T}.
Arguments c_product {T}.     Arguments c_capture {T}.   Arguments c_forecast {T}.
Arguments c_interval {T}.    Arguments c_unit {T}.      Arguments c_plain {T}.
Arguments c_px {T}.          Arguments c_py {T}.        Arguments c_dataz {T}.
Arguments c_data {T}.        Arguments c_dx {T}.        Arguments c_dy {T}.
Arguments c_dz {T}.          Arguments c_rx {T}.        Arguments c_ry {T}.
Arguments c_has_projection {T}. Arguments c_format {T}. Arguments c_data_length {T}.
Arguments c_precision {T}.   Arguments c_level {T}.     Arguments c_offx {T}.
Arguments c_offy {T}.        Arguments c_wgs84 {T}.

(** Result of a Go function working on a composite: normal return, return with
    an error (the caller still holds the composite as modified so far), or a
    run-time panic. *)
Inductive outcome (T A : Type) :=
| Value (a : A)
| Failure (e : error) (c : composite T)
| Panic.
Arguments Value {T A}. Arguments Failure {T A}. Arguments Panic {T A}.

(** time.Time{} is 1 January year 1 UTC. *)
Definition zero_time : Z := -62135596800 * 1000000000.

(** [&Composite{}] (radolan.go:134); [z] is the zero of the float64 type. *)
Definition zero_composite {T : Type} (z : T) : composite T :=
  mk_composite [] zero_time zero_time 0 Unit_unknown [] 0 0 [] [] 0 0 0 z z false 0 0 0 None z z false.

(** Field updates [c.F = v]. *)
Section Setters.
Context {T : Type}.
(** header.go:53. *)
Definition set_product (c : composite T) v : composite T :=
  mk_composite v (c_capture c) (c_forecast c) (c_interval c) (c_unit c) (c_plain c) (c_px c) (c_py c) (c_dataz c) (c_data c) (c_dx c) (c_dy c) (c_dz c) (c_rx c) (c_ry c) (c_has_projection c) (c_format c) (c_data_length c) (c_precision c) (c_level c) (c_offx c) (c_offy c) (c_wgs84 c).
(** header.go:69. *)
Definition set_capture (c : composite T) v : composite T :=
  mk_composite (c_product c) v (c_forecast c) (c_interval c) (c_unit c) (c_plain c) (c_px c) (c_py c) (c_dataz c) (c_data c) (c_dx c) (c_dy c) (c_dz c) (c_rx c) (c_ry c) (c_has_projection c) (c_format c) (c_data_length c) (c_precision c) (c_level c) (c_offx c) (c_offy c) (c_wgs84 c).
(** header.go:75, 81. *)
Definition set_forecast (c : composite T) v : composite T :=
  mk_composite (c_product c) (c_capture c) v (c_interval c) (c_unit c) (c_plain c) (c_px c) (c_py c) (c_dataz c) (c_data c) (c_dx c) (c_dy c) (c_dz c) (c_rx c) (c_ry c) (c_has_projection c) (c_format c) (c_data_length c) (c_precision c) (c_level c) (c_offx c) (c_offy c) (c_wgs84 c).
(** header.go:91, 94. *)
Definition set_interval (c : composite T) v : composite T :=
  mk_composite (c_product c) (c_capture c) (c_forecast c) v (c_unit c) (c_plain c) (c_px c) (c_py c) (c_dataz c) (c_data c) (c_dx c) (c_dy c) (c_dz c) (c_rx c) (c_ry c) (c_has_projection c) (c_format c) (c_data_length c) (c_precision c) (c_level c) (c_offx c) (c_offy c) (c_wgs84 c).
(** header.go:56-59. *)
Definition set_unit (c : composite T) v : composite T :=
  mk_composite (c_product c) (c_capture c) (c_forecast c) (c_interval c) v (c_plain c) (c_px c) (c_py c) (c_dataz c) (c_data c) (c_dx c) (c_dy c) (c_dz c) (c_rx c) (c_ry c) (c_has_projection c) (c_format c) (c_data_length c) (c_precision c) (c_level c) (c_offx c) (c_offy c) (c_wgs84 c).
(** data.go:55-58. *)
Definition set_plain (c : composite T) v : composite T :=
  mk_composite (c_product c) (c_capture c) (c_forecast c) (c_interval c) (c_unit c) v (c_px c) (c_py c) (c_dataz c) (c_data c) (c_dx c) (c_dy c) (c_dz c) (c_rx c) (c_ry c) (c_has_projection c) (c_format c) (c_data_length c) (c_precision c) (c_level c) (c_offx c) (c_offy c) (c_wgs84 c).
(** header.go:103, 109, 117. *)
Definition set_px (c : composite T) v : composite T :=
  mk_composite (c_product c) (c_capture c) (c_forecast c) (c_interval c) (c_unit c) (c_plain c) v (c_py c) (c_dataz c) (c_data c) (c_dx c) (c_dy c) (c_dz c) (c_rx c) (c_ry c) (c_has_projection c) (c_format c) (c_data_length c) (c_precision c) (c_level c) (c_offx c) (c_offy c) (c_wgs84 c).
(** header.go:103, 109, 117. *)
Definition set_py (c : composite T) v : composite T :=
  mk_composite (c_product c) (c_capture c) (c_forecast c) (c_interval c) (c_unit c) (c_plain c) (c_px c) v (c_dataz c) (c_data c) (c_dx c) (c_dy c) (c_dz c) (c_rx c) (c_ry c) (c_has_projection c) (c_format c) (c_data_length c) (c_precision c) (c_level c) (c_offx c) (c_offy c) (c_wgs84 c).
(** data.go:67-72. *)
Definition set_dataz (c : composite T) v : composite T :=
  mk_composite (c_product c) (c_capture c) (c_forecast c) (c_interval c) (c_unit c) (c_plain c) (c_px c) (c_py c) v (c_data c) (c_dx c) (c_dy c) (c_dz c) (c_rx c) (c_ry c) (c_has_projection c) (c_format c) (c_data_length c) (c_precision c) (c_level c) (c_offx c) (c_offy c) (c_wgs84 c).
(** data.go:76. *)
Definition set_data (c : composite T) v : composite T :=
  mk_composite (c_product c) (c_capture c) (c_forecast c) (c_interval c) (c_unit c) (c_plain c) (c_px c) (c_py c) (c_dataz c) v (c_dx c) (c_dy c) (c_dz c) (c_rx c) (c_ry c) (c_has_projection c) (c_format c) (c_data_length c) (c_precision c) (c_level c) (c_offx c) (c_offy c) (c_wgs84 c).
(** header.go:100, 106, 118. *)
Definition set_dx (c : composite T) v : composite T :=
  mk_composite (c_product c) (c_capture c) (c_forecast c) (c_interval c) (c_unit c) (c_plain c) (c_px c) (c_py c) (c_dataz c) (c_data c) v (c_dy c) (c_dz c) (c_rx c) (c_ry c) (c_has_projection c) (c_format c) (c_data_length c) (c_precision c) (c_level c) (c_offx c) (c_offy c) (c_wgs84 c).
(** header.go:100, 106, 118. *)
Definition set_dy (c : composite T) v : composite T :=
  mk_composite (c_product c) (c_capture c) (c_forecast c) (c_interval c) (c_unit c) (c_plain c) (c_px c) (c_py c) (c_dataz c) (c_data c) (c_dx c) v (c_dz c) (c_rx c) (c_ry c) (c_has_projection c) (c_format c) (c_data_length c) (c_precision c) (c_level c) (c_offx c) (c_offy c) (c_wgs84 c).
(** data.go:75. *)
Definition set_dz (c : composite T) v : composite T :=
  mk_composite (c_product c) (c_capture c) (c_forecast c) (c_interval c) (c_unit c) (c_plain c) (c_px c) (c_py c) (c_dataz c) (c_data c) (c_dx c) (c_dy c) v (c_rx c) (c_ry c) (c_has_projection c) (c_format c) (c_data_length c) (c_precision c) (c_level c) (c_offx c) (c_offy c) (c_wgs84 c).
(** header.go:119, projection.go:93, 118, 128. *)
Definition set_rx (c : composite T) v : composite T :=
  mk_composite (c_product c) (c_capture c) (c_forecast c) (c_interval c) (c_unit c) (c_plain c) (c_px c) (c_py c) (c_dataz c) (c_data c) (c_dx c) (c_dy c) (c_dz c) v (c_ry c) (c_has_projection c) (c_format c) (c_data_length c) (c_precision c) (c_level c) (c_offx c) (c_offy c) (c_wgs84 c).
(** header.go:119, projection.go:94, 119, 129. *)
Definition set_ry (c : composite T) v : composite T :=
  mk_composite (c_product c) (c_capture c) (c_forecast c) (c_interval c) (c_unit c) (c_plain c) (c_px c) (c_py c) (c_dataz c) (c_data c) (c_dx c) (c_dy c) (c_dz c) (c_rx c) v (c_has_projection c) (c_format c) (c_data_length c) (c_precision c) (c_level c) (c_offx c) (c_offy c) (c_wgs84 c).
(** projection.go:115. *)
Definition set_has_projection (c : composite T) v : composite T :=
  mk_composite (c_product c) (c_capture c) (c_forecast c) (c_interval c) (c_unit c) (c_plain c) (c_px c) (c_py c) (c_dataz c) (c_data c) (c_dx c) (c_dy c) (c_dz c) (c_rx c) (c_ry c) v (c_format c) (c_data_length c) (c_precision c) (c_level c) (c_offx c) (c_offy c) (c_wgs84 c).
(** header.go:156. *)
Definition set_format (c : composite T) v : composite T :=
  mk_composite (c_product c) (c_capture c) (c_forecast c) (c_interval c) (c_unit c) (c_plain c) (c_px c) (c_py c) (c_dataz c) (c_data c) (c_dx c) (c_dy c) (c_dz c) (c_rx c) (c_ry c) (c_has_projection c) v (c_data_length c) (c_precision c) (c_level c) (c_offx c) (c_offy c) (c_wgs84 c).
(** header.go:62, 65. *)
Definition set_data_length (c : composite T) v : composite T :=
  mk_composite (c_product c) (c_capture c) (c_forecast c) (c_interval c) (c_unit c) (c_plain c) (c_px c) (c_py c) (c_dataz c) (c_data c) (c_dx c) (c_dy c) (c_dz c) (c_rx c) (c_ry c) (c_has_projection c) (c_format c) v (c_precision c) (c_level c) (c_offx c) (c_offy c) (c_wgs84 c).
(** header.go:124. *)
Definition set_precision (c : composite T) v : composite T :=
  mk_composite (c_product c) (c_capture c) (c_forecast c) (c_interval c) (c_unit c) (c_plain c) (c_px c) (c_py c) (c_dataz c) (c_data c) (c_dx c) (c_dy c) (c_dz c) (c_rx c) (c_ry c) (c_has_projection c) (c_format c) (c_data_length c) v (c_level c) (c_offx c) (c_offy c) (c_wgs84 c).
(** header.go:145-148. *)
Definition set_level (c : composite T) v : composite T :=
  mk_composite (c_product c) (c_capture c) (c_forecast c) (c_interval c) (c_unit c) (c_plain c) (c_px c) (c_py c) (c_dataz c) (c_data c) (c_dx c) (c_dy c) (c_dz c) (c_rx c) (c_ry c) (c_has_projection c) (c_format c) (c_data_length c) (c_precision c) v (c_offx c) (c_offy c) (c_wgs84 c).
(** projection.go:95, 120, 124. *)
Definition set_offx (c : composite T) v : composite T :=
  mk_composite (c_product c) (c_capture c) (c_forecast c) (c_interval c) (c_unit c) (c_plain c) (c_px c) (c_py c) (c_dataz c) (c_data c) (c_dx c) (c_dy c) (c_dz c) (c_rx c) (c_ry c) (c_has_projection c) (c_format c) (c_data_length c) (c_precision c) (c_level c) v (c_offy c) (c_wgs84 c).
(** projection.go:96, 121, 124. *)
Definition set_offy (c : composite T) v : composite T :=
  mk_composite (c_product c) (c_capture c) (c_forecast c) (c_interval c) (c_unit c) (c_plain c) (c_px c) (c_py c) (c_dataz c) (c_data c) (c_dx c) (c_dy c) (c_dz c) (c_rx c) (c_ry c) (c_has_projection c) (c_format c) (c_data_length c) (c_precision c) (c_level c) (c_offx c) v (c_wgs84 c).
(** projection.go:108. *)
Definition set_wgs84 (c : composite T) v : composite T :=
  mk_composite (c_product c) (c_capture c) (c_forecast c) (c_interval c) (c_unit c) (c_plain c) (c_px c) (c_py c) (c_dataz c) (c_data c) (c_dx c) (c_dy c) (c_dz c) (c_rx c) (c_ry c) (c_has_projection c) (c_format c) (c_data_length c) (c_precision c) (c_level c) (c_offx c) (c_offy c) v.
End Setters.
