(** A writer of header texts in the DWD layout, for the round-trip property. *)
From Verif Require Import GoBase GoUtf8 GoScan GoFloat Catalog Composite Header Spec SpecHeader.
From Coq Require String. Import String.StringSyntax.

Definition digit (n : Z) : byte := to_byte (48 + n).
Definition space : byte := Byte.x20.

(** Decimal digits of 0 <= n < 10^20, without leading zeros. *)
Fixpoint digits_fuel (fuel : nat) (n : Z) : list byte :=
  match fuel with
  | O => []
  | S f => (if n <? 10 then [] else digits_fuel f (n / 10)) ++ [digit (n mod 10)]
  end.
Definition digits (n : Z) : list byte := digits_fuel 20 n.

(** Like %d, %4d: left-padded with blanks to the given width. *)
Definition pad (w : nat) (s : list byte) : list byte := repeat space (w - length s) ++ s.
Definition number (w : nat) (n : Z) : list byte :=
  pad w ((if n <? 0 then [Byte.x2d] else []) ++ digits (Z.abs n)).
(** Like %02d, %03d (for numbers that fit). *)
Definition two (n : Z) : list byte := [digit (n / 10); digit (n mod 10)].
Definition three (n : Z) : list byte := [digit (n / 100); digit (n / 10 mod 10); digit (n mod 10)].
(** Like %+03d. *)
Definition signed (n : Z) : list byte := (if n <? 0 then Byte.x2d else Byte.x2b) :: two (Z.abs n).
(** Like %5.1f, for a number of tenths. *)
Definition tenths (n : Z) : list byte :=
  pad 5 ((if n <? 0 then [Byte.x2d] else []) ++ digits (Z.abs n / 10) ++ Byte.x2e :: [digit (Z.abs n mod 10)]).

Inductive size := Size_GP (rows cols : Z) | Size_BG (rows cols : Z) | Size_local.

Record header_data := mk_header {
  h_label : list byte;                 (* two characters *)
  h_year : Z; h_month : Z; h_day : Z; h_hour : Z; h_minute : Z;
  h_total : Z;                         (* total length in bytes *)
  h_version : option Z;
  h_levels : option (list Z);          (* tenths *)
  h_precision : option Z;
  h_interval : option Z;
  h_size : size;
  h_offset : option Z;                 (* forecast offset, minutes *)
  h_other : list (list byte * list byte)  (* further fields *)
}.

Definition opt_field {X} (k : list byte) (f : X -> list byte) (o : option X) : list (list byte * list byte) :=
  match o with Some x => [(k, f x)] | None => [] end.

Definition header_fields (h : header_data) : list (list byte * list byte) :=
  (bs "BY", number 7 (h_total h)) ::
  opt_field (bs "VS") (number 2) (h_version h) ++
  opt_field (bs "LV") (fun ls => number 2 (len ls) ++ concat (map tenths ls)) (h_levels h) ++
  match h_precision h with Some p => [(bs "PR", [space]); (bs "E", signed p)] | None => [] end ++
  opt_field (bs "INT") (number 4) (h_interval h) ++
  match h_size h with
  | Size_GP r c => [(bs "GP", number 4 r ++ Byte.x78 :: number 4 c)]
  | Size_BG r c => [(bs "BG", three r ++ three c)]
  | Size_local => []
  end ++
  opt_field (bs "VV") (number 4) (h_offset h) ++
  h_other h.

(** "RW" "282105" "10000" "0716" "BY..." ... *)
Definition header_text (h : header_data) : list byte :=
  h_label h ++ (two (h_day h) ++ two (h_hour h) ++ two (h_minute h)) ++ bs "10000" ++
  (two (h_month h) ++ two (h_year h mod 100)) ++ join_fields (header_fields h).

Definition reserved : list (list byte) :=
  [bs "BY"; bs "VS"; bs "LV"; bs "E"; bs "INT"; bs "GP"; bs "BG"; bs "VV"].

Definition opt_range (o : option Z) (lo hi : Z) : Prop := forall n, o = Some n -> lo <= n <= hi.

(** Data a header can carry: a label of a capital letter and a capital letter
    or digit that does not look like another field, a calendar minute of 1969
    to 2068, numbers within their field, other fields that are none of ours and do not
    contain the delimiter. *)
Record writable (h : header_data) : Prop := {
  w_label : exists a b, h_label h = [a; b] /\ capital a /\
      ((capital b /\ ~ In (h_label h) reserved) \/ (48 <= bz b <= 57 /\ a <> Byte.x45));
  w_year : 1969 <= h_year h <= 2068;
  w_minute : calendar_minute (h_year h) (h_month h) (h_day h) (h_hour h) (h_minute h);
  w_total : 0 <= h_total h <= int_max;
  w_version : opt_range (h_version h) 0 int_max;
  w_levels : forall ls, h_levels h = Some ls -> len ls <= 99 /\ Forall (fun n => -999 <= n <= 9999) ls;
  w_precision : opt_range (h_precision h) (-99) 99;
  w_interval : opt_range (h_interval h) 0 15372286;
  w_size : match h_size h with
           | Size_GP r c => 0 < r <= int_max /\ 0 < c <= int_max
           | Size_BG r c => 0 < r <= 999 /\ 0 < c <= 999
           | Size_local => lookup dimension_catalog (h_label h) <> None
           end;
  w_offset : opt_range (h_offset h) 0 153722867;
  w_text : len (header_text h) < int_max;
  w_other : field_list (h_other h) /\ forall k v, In (k, v) (h_other h) -> ~ In k reserved;
  w_delimiter : ~ In Byte.x03 (join_fields (h_other h))
}.

(** The dimensions Px, Py, Dx, Dy of the data. *)
Definition written_size (h : header_data) (px py dx dy : Z) : Prop :=
  match h_size h with
  | Size_GP r c | Size_BG r c => px = c /\ dx = c /\ py = r /\ dy = r
  | Size_local => exists v, lookup dimension_catalog (h_label h) = Some v /\
      px = s_px v /\ py = s_py v /\ dx = s_dx v /\ dy = s_dy v
  end.

(** What a composite read from such a header must contain. *)
Definition written {T} (h : header_data) (c : composite T) : Prop :=
  c_product c = h_label h /\
  c_capture c = epoch_minute (h_year h) (h_month h) (h_day h) (h_hour h) (h_minute h) * ns_per_minute /\
  c_forecast c = c_capture c + (match h_offset h with Some n => n | None => 0 end) * ns_per_minute /\
  c_interval c = (match h_interval h with Some n => n | None => 0 end) * ns_per_minute *
                 (if existsb (str_eqb (h_label h)) [bs "W1"; bs "W2"; bs "W3"; bs "W4"] then 10 else 1) /\
  written_size h (c_px c) (c_py c) (c_dx c) (c_dy c) /\
  c_precision c = (match h_precision h with Some n => n | None => 0 end) /\
  c_format c = (match h_version h with Some n => n | None => 0 end) /\
  c_level c = option_map (map (fun n => f32_lit n (-1))) (h_levels h) /\
  c_data_length c = h_total h - (len (header_text h) + 1).
