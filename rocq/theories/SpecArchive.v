(** Vocabulary of C67: archives of written files. *)
From Verif Require Import GoBase GoFloat Catalog Composite Header Spec SpecHeader SpecWriter.

(** An entry of an archive: its bytes, the header they were written from and the
    values they store (rows from the top). *)
Record entry := mk_entry { e_bytes : list byte; e_header : header_data; e_values : list (list f32) }.

Definition or_zero (o : option Z) : Z := match o with Some n => n | None => 0 end.

(** The unit the catalog gives for the label of the header. *)
Definition label_unit (h : header_data) : unit_t :=
  match lookup unit_catalog (h_label h) with Some u => u | None => Unit_unknown end.

(** The entry was written in one of the three encodings, followed by [tail]. *)
Inductive well_written : entry -> list byte -> Prop :=
| written_two_byte h px py dx dy cells tail :
    writable h -> label_unit h <> Unit_unknown -> written_size h px py dx dy -> px * 4 <= 2 ^ 48 -> py * 24 <= 2 ^ 48 ->
    h_levels h = None -> h_total h = len (header_text h) + 1 + 2 * (px * py) ->
    grid_of (fun o => match o with Some v => - 4095 <= v <= 4095 | None => True end) px py cells ->
    well_written (mk_entry (header_text h ++ Byte.x03 :: encode_grid encode_cell cells ++ tail) h
      (map (map (cell_value (or_zero (h_precision h)) (label_unit h))) cells)) tail
| written_one_byte h px py dx dy cells tail :
    writable h -> label_unit h <> Unit_unknown -> written_size h px py dx dy -> px * 4 <= 2 ^ 48 -> py * 24 <= 2 ^ 48 ->
    h_levels h = None -> h_total h = len (header_text h) + 1 + px * py ->
    grid_of (fun o => match o with Some v => 0 <= v <= 255 /\ v <> 250 | None => True end) px py cells ->
    well_written (mk_entry (header_text h ++ Byte.x03 :: encode_grid encode_byte_cell cells ++ tail) h
      (map (map (cell_value (or_zero (h_precision h)) (label_unit h))) cells)) tail
| written_runlength h px py dx dy ls lines tail :
    writable h -> label_unit h <> Unit_unknown -> written_size h px py dx dy -> px * 4 <= 2 ^ 48 -> py * 24 <= 2 ^ 48 ->
    h_levels h = Some ls -> grid_of (fun v => 0 <= v < 16) px py (map snd lines) -> ~ In Byte.x0a (map fst lines) ->
    well_written (mk_entry (header_text h ++ Byte.x03 :: encode_lines lines ++ tail) h
      (map (map (level_value (map (fun n => f32_lit n (-1)) ls))) (map snd lines))) tail.

(** The minute an entry is about: the date of its header plus the forecast offset. *)
Definition shown_at (e : entry) : Z :=
  let h := e_header e in
  epoch_minute (h_year h) (h_month h) (h_day h) (h_hour h) (h_minute h) + or_zero (h_offset h).

(** The composite holds what the entry stores. *)
Definition holds {T} (e : entry) (c : composite T) : Prop :=
  written (e_header e) c /\ c_unit c = label_unit (e_header e) /\ c_plain c = e_values e.

(** In order of time; strictly: no two entries about the same minute. *)
Definition in_time (l : list entry) : Prop :=
  forall i j a b, (i < j)%nat -> nth_error l i = Some a -> nth_error l j = Some b -> shown_at a <= shown_at b.
Definition strictly_in_time (l : list entry) : Prop :=
  forall i j a b, (i < j)%nat -> nth_error l i = Some a -> nth_error l j = Some b -> shown_at a < shown_at b.
