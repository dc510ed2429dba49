(** The memory behind a composite.  Composite.v treats PlainData, DataZ and
    Data as values; here they are what they are in Go, slices of shared
    arrays, and NewComposite is a program that allocates and writes memory in
    single steps, so that several of them can run at the same time and the
    caller can write to the composites it holds.

    Simplifications.  A row ([]float32) is never resliced by the package, so
    its slice header is the address of its array.  A decoder writes some
    elements of its row twice (runlength.go:42-44 and 68); here only the
    final value of each element is stored, one step per element.  The array
    behind DataZ itself is a value: it is not shared.  Reading the input and parsing the header
    touch no shared memory and take no step.  Memory is sequentially consistent,
    which is what Go's memory model gives to programs without data races. *)
From Verif Require Import GoBase GoFloat Catalog Composite Header Data Projection Radolan.

(** An allocated array: of float32, or of []float32 (nil or the address of
    an array of float32). *)
Inductive block := Floats (l : list f32) | Rows (l : list (option nat)).
(** The memory: arrays by address (the slices of a composite: radolan.go:93-98). *)
Definition memory := nat -> option block.
(** Assignment of an array. *)
Definition upd (m : memory) (a : nat) (b : block) : memory :=
  fun a' => if Nat.eqb a' a then Some b else m a'.

(** Slice header of a [][]float32. *)
Record table := mk_table { t_arr : nat; t_off : Z; t_len : Z; t_cap : Z }.
(** A nil [][]float32. *)
Definition nil_table : table := mk_table 0 0 0 0.

(** Go slice expression t[a:b] on a slice: the upper limit is the capacity. *)
Definition subtable (t : table) (a b : Z) : option table :=
  if (0 <=? a) && (a <=? b) && (b <=? t_cap t)
  then Some (mk_table (t_arr t) (t_off t + a) (b - a) (t_cap t - a)) else None.

(** Programs over the memory. *)
Inductive prog (R : Type) :=
| Ret (r : R)
| Alloc (b : block) (k : nat -> prog R)                     (* make *)
| GetRow (a : nat) (i : Z) (k : option nat -> prog R)       (* array of rows: read element i *)
| SetRow (a : nat) (i : Z) (r : option nat) (k : prog R)    (* .. write element i *)
| GetFloats (a : nat) (k : list f32 -> prog R)              (* read an array of float32 *)
| SetFloat (a : nat) (i : Z) (v : f32) (k : prog R).        (* write element i *)
Arguments Ret {R}. Arguments Alloc {R}. Arguments GetRow {R}. Arguments SetRow {R}.
Arguments GetFloats {R}. Arguments SetFloat {R}.

(** Sequencing of programs. *)
Fixpoint pbind {R S} (p : prog R) (f : R -> prog S) : prog S :=
  match p with
  | Ret r => f r
  | Alloc b k => Alloc b (fun a => pbind (k a) f)
  | GetRow a i k => GetRow a i (fun r => pbind (k r) f)
  | SetRow a i r k => SetRow a i r (pbind k f)
  | GetFloats a k => GetFloats a (fun l => pbind (k l) f)
  | SetFloat a i v k => SetFloat a i v (pbind k f)
  end.

(** One step.  The allocator returns any address not in use.  There is no
    step for an access outside the allocated arrays. *)
Inductive pstep {R : Type} : memory -> prog R -> memory -> prog R -> Prop :=
| step_alloc m b k a : m a = None -> pstep m (Alloc b k) (upd m a b) (k a)
| step_get_row m a i k l r : m a = Some (Rows l) -> index l i = Some r ->
    pstep m (GetRow a i k) m (k r)
| step_set_row m a i r k l l' : m a = Some (Rows l) -> assign l i r = Some l' ->
    pstep m (SetRow a i r k) (upd m a (Rows l')) k
| step_get_floats m a k l : m a = Some (Floats l) -> pstep m (GetFloats a k) m (k l)
| step_set_float m a i v k l l' : m a = Some (Floats l) -> assign l i v = Some l' ->
    pstep m (SetFloat a i v k) (upd m a (Floats l')) k.

Section Heap.
Variable A : arith.
Variable E : goenv.
Notation T := (num A).

(** A composite in memory (radolan.go:84-120): the data fields are slices, all
    other fields are in [h_fields] (whose own data fields stay empty). *)
Record held := mk_held {
  h_fields : composite T;
  h_plain : table;          (* PlainData *)
  h_dataz : list table;     (* DataZ *)
  h_data : table            (* Data *)
}.

(** radolan.go:132 [NewComposite]: its results. *)
Inductive result :=
| Returned (h : held)                      (* (comp, nil) *)
| ReturnedErr (e : error) (h : held)       (* (comp, err) *)
| Panicked.

(** Result of the data parsers. *)
Inductive progress := Continue (rest : list byte) | Stop (e : error) | Crash.

(** data.go:56-58: the loop allocating the rows; false is a panic. *)
Fixpoint make_rows (t : table) (px : Z) (n : nat) (i : Z) : prog bool :=
  match n with
  | O => Ret true
  | S n' =>
      match make 4 (S754_zero false : f32) px with
      | None => Ret false
      | Some zs =>
          Alloc (Floats zs) (fun a =>
            SetRow (t_arr t) (t_off t + i) (Some a) (make_rows t px n' (i + 1)))
      end
  end.

(** Writing the elements of a row. *)
Fixpoint write_row (a : nat) (i : Z) (l : list f32) : prog unit :=
  match l with
  | [] => Ret tt
  | v :: l' => SetFloat a i v (write_row a (i + 1) l')
  end.

(** The row loops of runlength.go:10-20, littleendian.go:12-22 and
    singlebyte.go:12-22, as [Data.row_loop]. *)
Fixpoint mem_row_loop (read : list byte -> option (list byte * list byte)) (eread : error)
    (decode : list f32 -> list byte -> row_result) (row : Z -> Z)
    (t : table) (n : nat) (i : Z) (s : list byte) : prog progress :=
  match n with
  | O => Ret (Continue s)
  | S n' =>
      match read s with
      | None => Ret (Stop eread)
      | Some (line, s') =>
          if (0 <=? row i) && (row i <? t_len t) then
            GetRow (t_arr t) (t_off t + row i) (fun r =>
              match r with
              | None => Ret Crash
              | Some a =>
                  GetFloats a (fun dst =>
                    match decode dst line with
                    | RowPanic => Ret Crash
                    | RowErr e dst' => pbind (write_row a 0 dst') (fun _ => Ret (Stop e))
                    | RowOk dst' => pbind (write_row a 0 dst') (fun _ =>
                        mem_row_loop read eread decode row t n' (i + 1) s')
                    end)
              end)
          else Ret Crash
      end
  end.

(** runlength.go:9-23 *)
Definition mem_parse_runlength (c : composite T) (t : table) (s : list byte) : prog progress :=
  mem_row_loop read_line_runlength EReadRunlength (decode_runlength (level_of c)) (fun i => i)
    t (Z.to_nat (t_len t)) 0 s.

(** littleendian.go:10-36 *)
Definition mem_parse_little_endian (c : composite T) (t : table) (s : list byte) : prog progress :=
  let n := int_wrap (c_dx c * 2) in
  match (0 <? t_len t), make 1 Byte.x00 n with
  | true, None => Ret Crash
  | _, _ => mem_row_loop (read_full n) EReadLittleEndian
              (decode_little_endian (c_precision c) (c_unit c))
              (fun i => t_len t - 1 - i) t (Z.to_nat (t_len t)) 0 s
  end.

(** singlebyte.go:10-36 *)
Definition mem_parse_single_byte (c : composite T) (t : table) (s : list byte) : prog progress :=
  let n := c_dx c in
  match (0 <? t_len t), make 1 Byte.x00 n with
  | true, None => Ret Crash
  | _, _ => mem_row_loop (read_full n) EReadSingleByte
              (decode_single_byte (c_precision c) (c_unit c))
              (fun i => t_len t - 1 - i) t (Z.to_nat (t_len t)) 0 s
  end.

(** data.go:17-26, 60, 80-82 *)
Definition mem_parse_encoding (e : encoding) (c : composite T) (t : table) (s : list byte) : prog progress :=
  match e with
  | runlength => mem_parse_runlength c t s
  | littleEndian => mem_parse_little_endian c t s
  | singleByte => mem_parse_single_byte c t s
  | unknown => Ret (Stop EUnknownEncoding)
  end.

(** data.go:49-61 [parseData]; also the new value of PlainData. *)
Definition mem_parse_data (c : composite T) (s : list byte) : prog (table * progress) :=
  if (c_px c =? 0) || (c_py c =? 0) then Ret (nil_table, Stop ENoHeader) else
  match make 24 (None : option nat) (c_py c) with
  | None => Ret (nil_table, Crash)
  | Some rows =>
      Alloc (Rows rows) (fun a =>
        let t := mk_table a 0 (len rows) (len rows) in
        pbind (make_rows t (c_px c) (length rows) 0) (fun ok =>
          if ok then pbind (mem_parse_encoding (identify_encoding c) c t s) (fun r => Ret (t, r))
          else Ret (t, Crash)))
  end.

(** data.go:65-77 [arrangeData]: DataZ from PlainData, by slicing. *)
Fixpoint mem_split_layers (t : table) (dy : Z) (n : nat) (i : Z) : option (list table) :=
  match n with
  | O => Some []
  | S n' =>
      match subtable t (dy * i) (dy * (i + 1)), mem_split_layers t dy n' (i + 1) with
      | Some l, Some r => Some (l :: r)
      | _, _ => None
      end
  end.

(** data.go:63-77 [arrangeData]: slices of PlainData, no copies. *)
Definition mem_arrange_data (c : composite T) (t : table) : option (list table * table) :=
  if c_dy c =? 0 then None else
  let dataz :=
    if Z.rem (c_py c) (c_dy c) =? 0
    then match make 24 nil_table (Z.quot (c_py c) (c_dy c)) with
         | None => None
         | Some zs => mem_split_layers t (c_dy c) (length zs) 0
         end
    else match subtable t (c_py c - c_dy c) (t_len t) with
         | None => None
         | Some l => Some [l]
         end in
  match dataz with
  | None => None
  | Some dz => match index dz 0 with None => None | Some d0 => Some (dz, d0) end
  end.

(** radolan.go:132-154 [NewComposite] *)
Definition mem_new_composite (input : list byte) : prog result :=
  match parse_header (n_ofZ A) E (zero_composite (n_zero A)) input with
  | Panic => Ret Panicked
  | Failure e c => Ret (ReturnedErr e (mk_held c nil_table [] nil_table))
  | Value (c, rest) =>
      pbind (mem_parse_data c rest) (fun tr =>
        match tr with
        | (t, Crash) => Ret Panicked
        | (t, Stop e) => Ret (ReturnedErr e (mk_held c t [] nil_table))
        | (t, Continue _) =>
            match mem_arrange_data c t with
            | None => Ret Panicked
            | Some (dz, d0) =>
                let c := calibrate_projection A (set_dz c (len dz)) in
                let h := mk_held c t dz d0 in
                if unit_eqb (c_unit c) Unit_unknown
                then Ret (ReturnedErr ErrUnknownUnit h) else Ret (Returned h)
            end
        end)
  end.

(** What a caller sees in the fields of a composite at a given moment. *)
Definition view_row (m : memory) (r : option nat) : list f32 :=
  match r with
  | Some a => match m a with Some (Floats l) => l | _ => [] end
  | None => []
  end.
(** The rows of a [][]float32. *)
Definition view_table (m : memory) (t : table) : list (list f32) :=
  match m (t_arr t) with
  | Some (Rows l) => map (view_row m) (firstn (Z.to_nat (t_len t)) (skipn (Z.to_nat (t_off t)) l))
  | _ => []
  end.
(** The fields of a composite. *)
Definition view (m : memory) (h : held) : composite T :=
  set_data (set_dataz (set_plain (h_fields h) (view_table m (h_plain h)))
    (map (view_table m) (h_dataz h))) (view_table m (h_data h)).
(** A result of NewComposite. *)
Definition view_result (m : memory) (r : result) : outcome T (composite T) :=
  match r with
  | Returned h => Value (view m h)
  | ReturnedErr e h => Failure e (view m h)
  | Panicked => Panic
  end.

(** A caller's assignments c.PlainData[y][x] = v, c.DataZ[z][y][x] = v,
    c.Data[y][x] = v; [None] is an index panic. *)
Inductive path := InPlain (y x : Z) | InDataZ (z y x : Z) | InData (y x : Z).

(** The element [y][x] of a [][]float32. *)
Definition find_cell (m : memory) (t : table) (y x : Z) : option (nat * list f32) :=
  if (0 <=? y) && (y <? t_len t) then
    match m (t_arr t) with
    | Some (Rows l) =>
        match index l (t_off t + y) with
        | Some (Some a) =>
            match m a with
            | Some (Floats f) => if (0 <=? x) && (x <? len f) then Some (a, f) else None
            | _ => None
            end
        | _ => None
        end
    | _ => None
    end
  else None.
(** The last index of an assignment. *)
Definition column (p : path) : Z :=
  match p with InPlain _ x | InDataZ _ _ x | InData _ x => x end.
(** The array and cell an assignment refers to. *)
Definition resolve (m : memory) (h : held) (p : path) : option (nat * list f32) :=
  match p with
  | InPlain y x => find_cell m (h_plain h) y x
  | InData y x => find_cell m (h_data h) y x
  | InDataZ z y x =>
      match index (h_dataz h) z with Some t => find_cell m t y x | None => None end
  end.
(** The assignment. *)
Definition store (m : memory) (h : held) (p : path) (v : f32) : option memory :=
  match resolve m h p with
  | Some (a, f) => Some (upd m a (Floats (replace_nth f (Z.to_nat (column p)) v)))
  | None => None
  end.

(** The caller's append(t, row): in place as long as the capacity lasts,
    otherwise into a new array at the free address [fresh]. *)
Definition append_row (m : memory) (t : table) (r : option nat) (fresh : nat) : option (memory * table) :=
  if t_len t <? t_cap t then
    match m (t_arr t) with
    | Some (Rows l) =>
        match assign l (t_off t + t_len t) r with
        | Some l' => Some (upd m (t_arr t) (Rows l'), mk_table (t_arr t) (t_off t) (t_len t + 1) (t_cap t))
        | None => None
        end
    | _ => None
    end
  else
    let old := match m (t_arr t) with
               | Some (Rows l) => firstn (Z.to_nat (t_len t)) (skipn (Z.to_nat (t_off t)) l)
               | _ => []
               end in
    Some (upd m fresh (Rows (old ++ [r])), mk_table fresh 0 (len (old ++ [r])) (len (old ++ [r]))).

(** An application: calls of NewComposite running or finished, and the
    memory.  [writes] records what the application has assigned since. *)
Inductive activity :=
| Running (input : list byte) (p : prog result)
| Done (input : list byte) (r : result) (writes : list (path * f32)).
(** The state of the application. *)
Record world := mk_world { w_mem : memory; w_acts : list activity }.
(** Its beginning. *)
Definition empty_world : world := mk_world (fun _ => None) [].

(** The composite of a result. *)
Definition result_held (r : result) : option held :=
  match r with Returned h | ReturnedErr _ h => Some h | Panicked => None end.

(** What can happen next: a goroutine calls NewComposite, one of the running
    calls makes a step or returns, the application writes to a cell of a
    composite it has got. *)
Inductive wstep : world -> world -> Prop :=
| w_call m l input :
    wstep (mk_world m l) (mk_world m (l ++ [Running input (mem_new_composite input)]))
| w_run m l i input p m' p' : nth_error l i = Some (Running input p) -> pstep m p m' p' ->
    wstep (mk_world m l) (mk_world m' (replace_nth l i (Running input p')))
| w_return m l i input r : nth_error l i = Some (Running input (Ret r)) ->
    wstep (mk_world m l) (mk_world m (replace_nth l i (Done input r [])))
| w_write m l i input r ws h p v m' : nth_error l i = Some (Done input r ws) ->
    result_held r = Some h -> store m h p v = Some m' ->
    wstep (mk_world m l) (mk_world m' (replace_nth l i (Done input r (ws ++ [(p, v)])))).

(** The worlds that can arise. *)
Inductive reachable : world -> Prop :=
| reach_empty : reachable empty_world
| reach_step w w' : reachable w -> wstep w w' -> reachable w'.
End Heap.

Arguments mk_held {A}. Arguments h_fields {A}. Arguments h_plain {A}. Arguments h_dataz {A}. Arguments h_data {A}.
Arguments Returned {A}. Arguments ReturnedErr {A}. Arguments Panicked {A}.
Arguments view {A}. Arguments view_result {A}. Arguments resolve {A}. Arguments store {A}.
Arguments Running {A}. Arguments Done {A}. Arguments mk_world {A}. Arguments w_mem {A}. Arguments w_acts {A}.
Arguments result_held {A}.
