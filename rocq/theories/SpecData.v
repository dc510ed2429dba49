(** What can be wrong with the data section of a file with a sound header. *)
From Verif Require Import GoBase GoFloat Catalog Composite Header Spec SpecHeader.
From Coq Require String. Import String.StringSyntax.

(** A runlength line with an offset byte below 16. *)
Definition bad_offset (line : list byte) : Prop :=
  match line with
  | [] => False
  | _ :: body => exists b, In b (fst (split_offsets body)) /\ bz b < 16
  end.

(** Row and column counts that can be allocated (2^48 bytes; 4 bytes per value,
    24 bytes per row). *)
Definition possible_size (px py : Z) : Prop :=
  0 < px /\ 0 < py /\ px * 4 <= 2 ^ 48 /\ py * 24 <= 2 ^ 48.

(** [data_defect E text data px py e]: behind the header [text], which
    announces px columns and py rows, the data section [data] has the defect
    that is reported as [e].  The announced length of the data is compared in
    64-bit integers. *)
Inductive data_defect (E : goenv) (text data : list byte) (px py : Z) : error -> Prop :=
(* there are no cells at all *)
| defect_empty : px = 0 \/ py = 0 -> data_defect E text data px py ENoHeader
(* the announced length fits no encoding *)
| defect_encoding n : possible_size px py -> field E text (bs "LV") = None -> announced_payload E text n ->
    int_wrap n <> int_wrap (2 * (px * py)) -> int_wrap n <> int_wrap (px * py) ->
    data_defect E text data px py EUnknownEncoding
(* fewer bytes than the encoding needs *)
| defect_two_bytes n : possible_size px py -> field E text (bs "LV") = None -> announced_payload E text n ->
    int_wrap n = int_wrap (2 * (px * py)) -> len data < 2 * (px * py) ->
    data_defect E text data px py EReadLittleEndian
| defect_one_byte n : possible_size px py -> field E text (bs "LV") = None -> announced_payload E text n ->
    int_wrap n <> int_wrap (2 * (px * py)) -> int_wrap n = int_wrap (px * py) -> len data < px * py ->
    data_defect E text data px py EReadSingleByte
(* runlength: fewer lines than rows, all of them valid *)
| defect_lines lv levels lines tail : possible_size px py -> field E text (bs "LV") = Some lv -> level_table E lv levels ->
    split_lines data lines tail -> ~ In Byte.x0a tail -> len lines < py ->
    Forall (fun l => line_meaning levels (Z.to_nat px) l <> None) lines ->
    data_defect E text data px py EReadRunlength
(* runlength: the first invalid line, within the rows, has a bad offset *)
| defect_offset lv levels lines line tail : possible_size px py -> field E text (bs "LV") = Some lv -> level_table E lv levels ->
    split_lines data (lines ++ [line]) tail -> len lines < py ->
    Forall (fun l => line_meaning levels (Z.to_nat px) l <> None) lines ->
    line_meaning levels (Z.to_nat px) line = None -> bad_offset line ->
    data_defect E text data px py EOffsetValue
(* runlength: the first invalid line, within the rows, is too long *)
| defect_long lv levels lines line tail : possible_size px py -> field E text (bs "LV") = Some lv -> level_table E lv levels ->
    split_lines data (lines ++ [line]) tail -> len lines < py ->
    Forall (fun l => line_meaning levels (Z.to_nat px) l <> None) lines ->
    line_meaning levels (Z.to_nat px) line = None -> ~ bad_offset line ->
    data_defect E text data px py EDestination.
