(** data.go, runlength.go, littleendian.go, singlebyte.go, conversion.go:
    the data section. *)
From Verif Require Import GoBase GoFloat Catalog Composite Header.

(** conversion.go:54-56 [toDBZ]: rvp6/2.0 - 32.5 in float32. *)
Definition f32_two : f32 := Eval vm_compute in f32_lit 2 0.
(** conversion.go:55: the constant 32.5. *)
Definition f32_32_5 : f32 := Eval vm_compute in f32_lit 325 (-1).
(** conversion.go:54-56 [toDBZ]. *)
Definition toDBZ (rvp6 : f32) : f32 := f32_sub (f32_div rvp6 f32_two) f32_32_5.

(** conversion.go:60-62 [toRVP6]: (dBZ + 32.5) * 2 in float32. *)
Definition toRVP6 (dBZ : f32) : f32 := f32_mul (f32_add dBZ f32_32_5) f32_two.

(** conversion.go:66-68 [rvp6Raw]: float32(value) * float32(math.Pow10(c.precision)). *)
Definition rvp6_raw (precision value : Z) : f32 :=
  f32_mul (f32_of_int value) (f32_of_f64 (pow10 precision)).

(** littleendian.go:54-77 [rvp6LittleEndian] on the tuple (t0, t1). *)
Definition rvp6_little_endian (precision : Z) (u : unit_t) (t0 t1 : byte) : f32 :=
  let value := Z.land 15 (bz t1) in
  let value := Z.shiftl value 8 + bz t0 in
  if negb (Z.land (bz t1) (Z.shiftl 1 5) =? 0) then NaN32
  else
    let value := if negb (Z.land (bz t1) (Z.shiftl 1 6) =? 0) then value * (-1) else value in
    let conv := rvp6_raw precision value in
    if negb (unit_eqb u Unit_dBZ) then conv else toDBZ conv.

(** singlebyte.go:54-67 [rvp6SingleByte]. *)
Definition rvp6_single_byte (precision : Z) (u : unit_t) (value : byte) : f32 :=
  if bz value =? 250 then NaN32
  else
    let conv := rvp6_raw precision (bz value) in
    if negb (unit_eqb u Unit_dBZ) then conv else toDBZ conv.

(** runlength.go:79-89 [rvp6Runlength]; [None] is an index panic. [value] is
    the byte after masking (0..15), [value--] cannot wrap. *)
Definition rvp6_runlength (level : list f32) (value : Z) : option f32 :=
  if value =? 0 then Some NaN32
  else
    let value := value - 1 in
    if len level <=? value then Some NaN32 else index level value.

(** runlength.go:63-70: the inner loop [for j := 0; j < runlength; j++]. *)
Inductive row_result :=
| RowOk (dst : list f32)
| RowErr (e : error) (dst : list f32)
| RowPanic.

(** runlength.go:63-70: the inner loop. *)
Fixpoint write_run (level : list f32) (value : Z) (n : nat) (dst : list f32) (dstpos : Z)
  : row_result * Z :=
  match n with
  | O => (RowOk dst, dstpos)
  | S n' =>
      if len dst <=? dstpos then (RowErr EDestination dst, dstpos)
      else match rvp6_runlength level value with
           | None => (RowPanic, dstpos)
           | Some f =>
               match assign dst dstpos f with
               | None => (RowPanic, dstpos)
               | Some dst' => write_run level value n' dst' (dstpos + 1)
               end
           end
  end.

(** runlength.go:46-74: the loop over the bytes of the line; [first] is
    [i == 0]. *)
Fixpoint runlength_loop (level : list f32) (line : list byte) (first offset : bool)
    (dst : list f32) (dstpos : Z) : row_result :=
  match line with
  | [] => RowOk dst
  | b :: t =>
      let value := bz b in
      if first then runlength_loop level t false offset dst dstpos
      else if offset then
        if value <? 16 then RowErr EOffsetValue dst
        else runlength_loop level t false (value =? 255) dst (dstpos + (value - 16))
      else
        let runlength := Z.shiftr value 4 in
        let value := Z.land value 15 in
        match write_run level value (Z.to_nat runlength) dst dstpos with
        | (RowOk dst', pos') => runlength_loop level t false offset dst' pos'
        | (r, _) => r
        end
  end.

(** runlength.go:40-75 [decodeRunlength]. *)
Definition decode_runlength (level : list f32) (dst : list f32) (line : list byte) : row_result :=
  runlength_loop level line true true (repeat NaN32 (length dst)) 0.

(** littleendian.go:44-47: the loop over the destination. *)
Fixpoint little_endian_values (f : byte -> byte -> f32) (n : nat) (line : list byte) : option (list f32) :=
  match n with
  | O => Some []
  | S n' =>
      match line with
      | a :: b :: t =>
          match little_endian_values f n' t with
          | Some r => Some (f a b :: r)
          | None => None
          end
      | _ => None
      end
  end.

(** littleendian.go:39-50 [decodeLittleEndian]. *)
Definition decode_little_endian (precision : Z) (u : unit_t) (dst : list f32) (line : list byte) : row_result :=
  if negb (len line mod 2 =? 0) || negb (len dst * 2 =? len line)
  then RowErr ESizeLittleEndian dst
  else match little_endian_values (rvp6_little_endian precision u) (length dst) line with
       | Some r => RowOk r
       | None => RowPanic
       end.

(** singlebyte.go:39-49 [decodeSingleByte]. *)
Definition decode_single_byte (precision : Z) (u : unit_t) (dst : list f32) (line : list byte) : row_result :=
  if negb (len dst =? len line) then RowErr ESizeSingleByte dst
  else RowOk (map (rvp6_single_byte precision u) line).

(** data.go:8-15 [encoding]. *)
Inductive encoding := runlength | littleEndian | singleByte | unknown.

Section DataSection.
Context {T : Type}.

(** data.go:31-45 [identifyEncoding]. *)
Definition identify_encoding (c : composite T) : encoding :=
  let values := int_wrap (c_px c * c_py c) in
  match c_level c with
  | Some _ => runlength
  | None =>
      if c_data_length c =? int_wrap (values * 2) then littleEndian
      else if c_data_length c =? values then singleByte
      else unknown
  end.

(** c.level of runlength.go:79-90, nil being empty. *)
Definition level_of (c : composite T) : list f32 :=
  match c_level c with Some l => l | None => [] end.

(** runlength.go:27-37 [readLineRunlength]: the line without the newline. *)
Definition read_line_runlength (s : list byte) : option (list byte * list byte) :=
  match read_until Byte.x0a s with
  | None => None
  | Some (line, rest) => Some (removelast line, rest)
  end.

(** The row loops.  [row i] is the index of the destination row in the i-th
    iteration: i itself (runlength.go:16) or last-i (littleendian.go:18,
    singlebyte.go:18).  Each iteration reads a line, then decodes it into the
    destination row. *)
Fixpoint row_loop (read : list byte -> option (list byte * list byte)) (eread : error)
    (decode : list f32 -> list byte -> row_result) (row : Z -> Z)
    (n : nat) (i : Z) (c : composite T) (s : list byte)
  : outcome T (composite T * list byte) :=
  match n with
  | O => Value (c, s)
  | S n' =>
      match read s with
      | None => Failure eread c
      | Some (line, s') =>
          match index (c_plain c) (row i) with
          | None => Panic
          | Some dst =>
              match decode dst line with
              | RowPanic => Panic
              | RowErr e dst' =>
                  match assign (c_plain c) (row i) dst' with
                  | None => Panic
                  | Some p => Failure e (set_plain c p)
                  end
              | RowOk dst' =>
                  match assign (c_plain c) (row i) dst' with
                  | None => Panic
                  | Some p => row_loop read eread decode row n' (i + 1) (set_plain c p) s'
                  end
              end
          end
      end
  end.

(** runlength.go:9-23 [parseRunlength]. *)
Definition parse_runlength (c : composite T) (s : list byte) : outcome T (composite T * list byte) :=
  row_loop read_line_runlength EReadRunlength (decode_runlength (level_of c)) (fun i => i)
    (length (c_plain c)) 0 c s.

(** littleendian.go:10-36 [parseLittleEndian], [readLineLittleEndian]; the
    buffer [make([]byte, c.Dx*2)] is allocated in every iteration. *)
Definition parse_little_endian (c : composite T) (s : list byte) : outcome T (composite T * list byte) :=
  let n := int_wrap (c_dx c * 2) in
  match c_plain c, make 1 Byte.x00 n with
  | _ :: _, None => Panic
  | _, _ =>
      row_loop (read_full n) EReadLittleEndian
        (decode_little_endian (c_precision c) (c_unit c))
        (fun i => len (c_plain c) - 1 - i) (length (c_plain c)) 0 c s
  end.

(** singlebyte.go:10-36 [parseSingleByte], [readLineSingleByte]. *)
Definition parse_single_byte (c : composite T) (s : list byte) : outcome T (composite T * list byte) :=
  let n := c_dx c in
  match c_plain c, make 1 Byte.x00 n with
  | _ :: _, None => Panic
  | _, _ =>
      row_loop (read_full n) EReadSingleByte
        (decode_single_byte (c_precision c) (c_unit c))
        (fun i => len (c_plain c) - 1 - i) (length (c_plain c)) 0 c s
  end.

(** data.go:17-26, 60: dispatch through the table [parse]; data.go:80-82
    [parseUnknown]. *)
Definition parse_encoding (e : encoding) (c : composite T) (s : list byte) : outcome T (composite T * list byte) :=
  match e with
  | runlength => parse_runlength c s
  | littleEndian => parse_little_endian c s
  | singleByte => parse_single_byte c s
  | unknown => Failure EUnknownEncoding c
  end.

(** data.go:49-61 [parseData].  A [][]float32 element is a 24-byte slice
    header, a float32 has 4 bytes. *)
Definition parse_data (c : composite T) (s : list byte) : outcome T (composite T * list byte) :=
  if (c_px c =? 0) || (c_py c =? 0) then Failure ENoHeader c else
  match make 24 ([] : list f32) (c_py c) with
  | None => Panic
  | Some rows =>
      match rows, make 4 (S754_zero false : f32) (c_px c) with
      | _ :: _, None => Panic
      | _, Some zs => let c := set_plain c (map (fun _ => zs) rows) in
                      parse_encoding (identify_encoding c) c s
      | [], None => let c := set_plain c [] in parse_encoding (identify_encoding c) c s
      end
  end.

(** data.go:65-77 [arrangeData]; [None] is a panic (division by zero, slice
    bounds, index).  Go's % and / truncate. *)
Fixpoint split_layers (plain : list (list f32)) (dy : Z) (n : nat) (i : Z) : option (list (list (list f32))) :=
  match n with
  | O => Some []
  | S n' =>
      match slice plain (dy * i) (dy * (i + 1)), split_layers plain dy n' (i + 1) with
      | Some l, Some r => Some (l :: r)
      | _, _ => None
      end
  end.

(** data.go:63-77 [arrangeData]. *)
Definition arrange_data (c : composite T) : option (composite T) :=
  if c_dy c =? 0 then None else
  let dataz :=
    if Z.rem (c_py c) (c_dy c) =? 0
    then match make 24 ([] : list (list f32)) (Z.quot (c_py c) (c_dy c)) with
         | None => None
         | Some zs => split_layers (c_plain c) (c_dy c) (length zs) 0
         end
    else match slice (c_plain c) (c_py c - c_dy c) (len (c_plain c)) with
         | None => None
         | Some l => Some [l]
         end in
  match dataz with
  | None => None
  | Some dz =>
      match index dz 0 with
      | None => None
      | Some d0 => Some (set_data (set_dz (set_dataz c dz) (len dz)) d0)
      end
  end.
End DataSection.
