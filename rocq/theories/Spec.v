(** Vocabulary of the property statements.  Nothing here mentions how the code
    works: what a caller of the API gets back, and how an input file is laid
    out. *)
From Verif Require Import GoBase GoUtf8 GoScan GoFloat Catalog Composite Header Data Projection Radolan.

Section Spec.
Variable A : arith.
Variable E : goenv.
Notation T := (num A).

(** NewComposite completed: it returned (c, nil) or (c, ErrUnknownUnit). *)
Definition parsed (input : list byte) (c : composite T) : Prop :=
  new_composite A E input = Value c \/ new_composite A E input = Failure ErrUnknownUnit c.

(** NewComposite returned c, with whatever error. *)
Definition returned (input : list byte) (c : composite T) : Prop :=
  new_composite A E input = Value c \/ exists e, new_composite A E input = Failure e c.

(** The composites an application can hold without building one by hand. *)
Definition obtainable (c : composite T) : Prop :=
  (exists input, returned input c) \/
  (exists product format dx dy, c = new_dummy A product format dx dy).

(** An input file: header text, the delimiter ETX, data section. *)
Definition file_layout (input text data : list byte) : Prop :=
  input = text ++ Byte.x03 :: data /\ ~ In Byte.x03 text.
End Spec.

(** Coordinates inside a box. *)
Definition inside (x y z dx dy dz : Z) : Prop := 0 <= x < dx /\ 0 <= y < dy /\ 0 <= z < dz.

(** The element v is at position i of the list. *)
Definition nth_is {X} (l : list X) (i : Z) (v : X) : Prop := 0 <= i /\ nth_error l (Z.to_nat i) = Some v.

(** Value of a two-dimensional table at row y, column x. *)
Definition cell2 {X} (d : list (list X)) (y x : Z) (v : X) : Prop :=
  exists r, nth_is d y r /\ nth_is r x v.
(** Value of a three-dimensional table. *)
Definition cell3 {X} (d : list (list (list X))) (z y x : Z) (v : X) : Prop :=
  exists l, nth_is d z l /\ cell2 l y x v.

(** Every row has the given width. *)
Definition all_of_width {X} (rows : list (list X)) (w : Z) : Prop := forall r, In r rows -> len r = w.

(** * Header fields by name.

    A header text is a sequence of alternating blocks of upper-case characters
    (keys) and of other characters (values).  A character is what Go's
    "for i, c := range text" yields: its position i and its code point c. *)

(** The characters of a list in maximal blocks of the same kind. *)
Fixpoint blocks {X} (kind : X -> bool) (l : list X) : list (list X) :=
  match l with
  | [] => []
  | x :: t =>
      match blocks kind t with
      | (y :: g) :: gs => if Bool.eqb (kind x) (kind y) then (x :: y :: g) :: gs else [x] :: (y :: g) :: gs
      | _ => [[x]]
      end
  end.

(** The bytes of a block: from its first character up to the first byte of its
    last character (which is all of it for ASCII characters). *)
Definition block_text (text : list byte) (block : list (Z * Z)) : list byte :=
  match block with
  | [] => []
  | (first, _) :: _ =>
      let final := fst (last block (first, 0)) in
      firstn (Z.to_nat (final + 1 - first)) (skipn (Z.to_nat first) text)
  end.

(** Keys with the values following them.  A key at the end, without a value,
    gets the value of the key before it (see C23). *)
Fixpoint keys_and_values (text : list byte) (previous : list byte) (bl : list (list (Z * Z)))
  : list (list byte * list byte) :=
  match bl with
  | key :: value :: rest =>
      (block_text text key, block_text text value) :: keys_and_values text (block_text text value) rest
  | [key] => [(block_text text key, previous)]
  | [] => []
  end.

Definition fields_of_text (E : goenv) (text : list byte) : list (list byte * list byte) :=
  let upper ic := is_upper (upper_hi E) (snd ic) in
  match range_string text with
  | [] => [([], [])]
  | c :: _ => if upper c then keys_and_values text [] (blocks upper (range_string text)) else []
  end.

(** The value written last for a key. *)
Fixpoint last_value (fields : list (list byte * list byte)) (k : list byte) : option (list byte) :=
  match fields with
  | [] => None
  | (k', v) :: t =>
      match last_value t k with
      | Some w => Some w
      | None => if list_eq_dec Byte.byte_eq_dec k k' then Some v else None
      end
  end.

Definition field (E : goenv) (text : list byte) (k : list byte) : option (list byte) :=
  last_value (fields_of_text E text) k.

(** Value of a stored number n: n * 10^precision, for dBZ products mapped by
    x/2 - 32.5; all in float32 arithmetic. *)
Definition scaled_value (precision : Z) (u : unit_t) (n : Z) : f32 :=
  let v := f32_mul (f32_of_int n) (f32_of_f64 (pow10 precision)) in
  match u with
  | Unit_dBZ => f32_sub (f32_div v (f32_of_int 2)) (f32_lit 325 (-1))
  | _ => v
  end.

(** A two-byte record: bit 5 of the high byte is the no-data flag, bit 6 the
    sign, the low nibble and the low byte are the magnitude. *)
Definition two_byte_value (precision : Z) (u : unit_t) (lo hi : byte) : f32 :=
  if Z.testbit (bz hi) 5 then NaN32
  else scaled_value precision u
         ((if Z.testbit (bz hi) 6 then -1 else 1) * ((bz hi mod 16) * 256 + bz lo)).

(** A single-byte record: 250 is no-data. *)
Definition one_byte_value (precision : Z) (u : unit_t) (b : byte) : f32 :=
  if bz b =? 250 then NaN32 else scaled_value precision u (bz b).

(** The data section consists of the given newline-terminated lines and a rest. *)
Definition split_lines (data : list byte) (lines : list (list byte)) (tail : list byte) : Prop :=
  data = concat (map (fun l => l ++ [Byte.x0a]) lines) ++ tail /\ Forall (fun l => ~ In Byte.x0a l) lines.

(** Runlength lines.  After the line number come offset bytes (each adds its
    value minus 16; 255 announces another offset byte) and then run bytes
    (high nibble: count, low nibble: level index, 0 and indices above the
    level count meaning no-data). *)
Fixpoint split_offsets (l : list byte) : list byte * list byte :=
  match l with
  | [] => ([], [])
  | b :: t => if bz b =? 255 then let '(o, r) := split_offsets t in (b :: o, r) else ([b], t)
  end.
Definition total_offset (offs : list byte) : Z := fold_right (fun b s => (bz b - 16) + s) 0 offs.
Definition expand_runs (runs : list byte) : list Z :=
  flat_map (fun b => repeat (bz b mod 16) (Z.to_nat (bz b / 16))) runs.
Definition level_value (level : list f32) (v : Z) : f32 :=
  if v =? 0 then NaN32
  else match nth_error level (Z.to_nat (v - 1)) with Some f => f | None => NaN32 end.

(** Meaning of a line for a row of [w] cells: [None] if it is invalid. *)
Definition line_meaning (level : list f32) (w : nat) (line : list byte) : option (list f32) :=
  match line with
  | [] => Some (repeat NaN32 w)
  | _ :: body =>
      let '(offs, runs) := split_offsets body in
      if existsb (fun b => bz b <? 16) offs then None
      else
        let start := Z.to_nat (total_offset offs) in
        let vals := map (level_value level) (expand_runs runs) in
        match vals with
        | [] => Some (repeat NaN32 w)
        | _ => if (start + length vals <=? w)%nat
               then Some (repeat NaN32 start ++ vals ++ repeat NaN32 (w - start - length vals))
               else None
        end
  end.

(** The encoding of a row of level indices 0..15 (0 = no-data): leading
    no-data cells become offset bytes, the rest runs of at most 15 cells. *)
Fixpoint leading (cells : list Z) : nat * list Z :=
  match cells with
  | 0 :: t => let '(n, r) := leading t in (S n, r)
  | _ => (O, cells)
  end.
Definition to_byte (z : Z) : byte :=
  match Byte.of_N (Z.to_N z) with Some b => b | None => Byte.x00 end.
Definition encode_offset (n : nat) : list byte :=
  repeat (to_byte 255) (n / 239) ++ [to_byte (16 + Z.of_nat (n mod 239))].
(** [cnt] cells of value [v] are pending. *)
Fixpoint encode_runs (v : Z) (cnt : nat) (cells : list Z) : list byte :=
  match cells with
  | [] => [to_byte (Z.of_nat cnt * 16 + v)]
  | x :: t => if (x =? v) && (cnt <? 15)%nat then encode_runs v (S cnt) t
              else to_byte (Z.of_nat cnt * 16 + v) :: encode_runs x 1 t
  end.
Definition encode_line (number : byte) (cells : list Z) : list byte :=
  let '(n, rest) := leading cells in
  number :: encode_offset n ++
  match rest with [] => [] | v :: t => encode_runs v 1 t end.


(** The encoding of a two-byte record: magnitude in 12 bits, sign flag, or the
    no-data flag; [spare] are the two unused bits (4 and 7) of the high byte. *)
Definition encode_two_bytes (v : Z) (spare4 spare7 : bool) : list byte :=
  let m := Z.abs v in
  [ to_byte (m mod 256);
    to_byte (m / 256 + (if spare4 then 16 else 0) + (if v <? 0 then 64 else 0) + (if spare7 then 128 else 0)) ].

(** Grids: rows of cells, top row first; [None] is no-data.  The fixed-width
    encodings store the bottom row first. *)
Definition encode_cell (o : option Z) : list byte :=
  match o with
  | Some v => encode_two_bytes v false false
  | None => [to_byte 196; to_byte 41]            (* 2500 with the no-data flag *)
  end.
Definition encode_byte_cell (o : option Z) : list byte :=
  match o with Some v => [to_byte v] | None => [to_byte 250] end.
Definition encode_grid {X} (enc : X -> list byte) (rows : list (list X)) : list byte :=
  concat (map (fun r => concat (map enc r)) (rev rows)).
Definition cell_value (precision : Z) (u : unit_t) (o : option Z) : f32 :=
  match o with Some v => scaled_value precision u v | None => NaN32 end.
(** A grid of [w] columns and [h] rows whose cells satisfy [P]. *)
Definition grid_of {X} (P : X -> Prop) (w h : Z) (rows : list (list X)) : Prop :=
  len rows = h /\ all_of_width rows w /\ forall r x, In r rows -> In x r -> P x.
(** Runlength: each row becomes a newline-terminated line with a line number. *)
Definition encode_lines (rows : list (byte * list Z)) : list byte :=
  concat (map (fun nr => encode_line (fst nr) (snd nr) ++ [Byte.x0a]) rows).
