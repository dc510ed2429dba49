(** header.go: splitting and parsing of the composite header. *)
From Verif Require Import GoBase GoUtf8 GoScan GoTime GoFloat Catalog Composite.
From Coq Require String. Import String.StringSyntax.

(** Parameters of the Go environment (see GoUtf8.v, GoScan.v). *)
Record goenv := mk_goenv {
  upper_hi : Z -> bool;                     (* unicode.IsUpper above U+00FF *)
  exotic_float : list Z -> option f32       (* strconv.ParseFloat on unusual tokens *)
}.

(** header.go:12-39 [splitHeader]: the loop state is
    (m, beginKey, endKey, beginValue, endValue, dispatch). *)
Record split_state := mk_split {
  sp_map : gomap (list byte);
  sp_bk : Z; sp_ek : Z; sp_bv : Z; sp_ev : Z;
  sp_dispatch : bool }.

(** header.go:20, 36: [m[header[beginKey:endKey]] = header[beginValue:endValue]]. *)
Definition split_store (header : list byte) (s : split_state) : option (gomap (list byte)) :=
  match slice header (sp_bk s) (sp_ek s), slice header (sp_bv s) (sp_ev s) with
  | Some k, Some v => Some ((k, v) :: sp_map s)
  | _, _ => None
  end.

(** One pass through the loop body (header.go:18-34). *)
Inductive split_step_result :=
| SplitNext (s : split_state)
| SplitReturn (m : gomap (list byte))
| SplitPanic.

(** header.go:18-34: the loop body. *)
Definition split_step (E : goenv) (header : list byte) (s : split_state) (ic : Z * Z) : split_step_result :=
  let '(i, c) := ic in
  if is_upper (upper_hi E) c then
    if sp_dispatch s then
      match split_store header s with
      | None => SplitPanic
      | Some m => SplitNext (mk_split m i (i + 1) (sp_bv s) (sp_ev s) false)
      end
    else SplitNext (mk_split (sp_map s) (sp_bk s) (i + 1) (sp_bv s) (sp_ev s) false)
  else
    if i =? 0 then SplitReturn (sp_map s)
    else if sp_dispatch s
    then SplitNext (mk_split (sp_map s) (sp_bk s) (sp_ek s) (sp_bv s) (i + 1) true)
    else SplitNext (mk_split (sp_map s) (sp_bk s) (sp_ek s) i (i + 1) true).

(** header.go:17-38: the loop over the runes, and the last assignment. *)
Fixpoint split_loop (E : goenv) (header : list byte) (s : split_state) (l : list (Z * Z))
  : option (gomap (list byte)) :=
  match l with
  | [] => split_store header s
  | ic :: t =>
      match split_step E header s ic with
      | SplitPanic => None
      | SplitReturn m => Some m
      | SplitNext s' => split_loop E header s' t
      end
  end.

(** [None] is a run-time panic. *)
Definition split_header (E : goenv) (header : list byte) : option (gomap (list byte)) :=
  split_loop E header (mk_split [] 0 0 0 0 false) (range_string header).

(** header.go:62 [section["BY"]]: the zero value "" for a missing key. *)
Definition section_get (m : gomap (list byte)) (k : String.string) : list byte :=
  match lookup m (bs k) with Some v => v | None => [] end.

Arguments section_get _ _%string_scope.

Section Parse.
Context {T : Type}.
Variable ofZ : Z -> T.       (* conversion of the catalog resolutions to float64 *)
Variable E : goenv.

(** header.go:100, 106: Sscanf into (Dy, Dx); the fields scanned before an
    error keep their new value. *)
Definition set_dims (c : composite T) (vs : list Z) : composite T :=
  match vs with
  | [] => c
  | [y] => set_dy c y
  | y :: x :: _ => set_dx (set_dy c y) x
  end.

(** header.go:92-95: the products whose interval counts ten minutes. *)
Definition is_W (p : list byte) : bool :=
  str_eqb p (bs "W1") || str_eqb p (bs "W2") || str_eqb p (bs "W3") || str_eqb p (bs "W4").

(** header.go:55-59: unit lookup. *)
Definition lookup_unit (p : list byte) : unit_t :=
  match lookup unit_catalog p with Some u => u | None => Unit_unknown end.

(** header.go:146-151: the levels, five characters each starting at offset
    [n+2].  [None] panic; [Some (ls, ok)]: values stored so far. *)
Fixpoint parse_levels (lv : list byte) (cnt : nat) (n : Z) : option (list f32 * bool) :=
  match cnt with
  | O => Some ([], true)
  | S cnt' =>
      match slice lv (n + 2) (n + 7) with
      | None => None
      | Some w =>
          match sscanf_f (exotic_float E) w with
          | None => Some (repeat (S754_zero false) cnt, false)
          | Some f =>
              match parse_levels lv cnt' (n + 5) with
              | None => None
              | Some (fs, ok) => Some (f :: fs, ok)
              end
          end
      end
  end.

(** header.go:129-159: level and format version. *)
Definition parse_version (m : gomap (list byte)) (c : composite T) : outcome T (composite T) :=
  match lookup m (bs "VS") with
  | None => Value c
  | Some vs =>
      match sscanf_d vs with
      | None => Failure EFormat c
      | Some v => Value (set_format c v)
      end
  end.

(** header.go:129-152: the LV field. *)
Definition parse_level (m : gomap (list byte)) (c : composite T) : outcome T (composite T) :=
  match lookup m (bs "LV") with
  | None => Value c
  | Some lv =>
      if len lv <? 2 then Failure ELevelShort c else
      match slice lv 0 2 with
      | None => Panic
      | Some cs =>
          match sscanf_d cs with
          | None => Failure ELevelCount c
          | Some cnt =>
              if negb (len lv =? int_wrap (cnt * 5 + 2)) then Failure ELevelFormat c else
              match make 4 (S754_zero false : f32) cnt with
              | None => Panic
              | Some zs =>
                  match parse_levels lv (length zs) 0 with
                  | None => Panic
                  | Some (fs, true) => Value (set_level c (Some fs))
                  | Some (fs, false) => Failure ELevelValue (set_level c (Some fs))
                  end
              end
          end
      end
  end.

(** header.go:122-127: precision. *)
Definition parse_precision (m : gomap (list byte)) (c : composite T) : outcome T (composite T) :=
  match lookup m (bs "E") with
  | None => Value c
  | Some prec =>
      match sscanf_d prec with
      | None => Failure EPrecision c
      | Some v => Value (set_precision c v)
      end
  end.

(** header.go:98-120: dimensions. *)
Definition parse_dimensions (m : gomap (list byte)) (c : composite T) : outcome T (composite T) :=
  match lookup m (bs "GP") with
  | Some dim =>
      let '(vs, ok) := sscanf [Verb_d None; Lit 120; Verb_d None] (runes dim) in
      let c := set_dims c vs in
      if ok then Value (set_py (set_px c (c_dx c)) (c_dy c)) else Failure EDimGP c
  | None =>
  match lookup m (bs "BG") with
  | Some dim =>
      let '(vs, ok) := sscanf [Verb_d (Some 3%nat); Verb_d (Some 3%nat)] (runes dim) in
      let c := set_dims c vs in
      if ok then Value (set_py (set_px c (c_dx c)) (c_dy c)) else Failure EDimBG c
  | None =>
  match lookup dimension_catalog (c_product c) with
  | None => Failure ENoDimension c
  | Some v =>
      let c := set_py (set_px c (s_px v)) (s_py v) in
      let c := set_dy (set_dx c (s_dx v)) (s_dy v) in
      Value (set_ry (set_rx c (ofZ (s_rx v))) (ofZ (s_ry v)))
  end end end.

(** header.go:84-96: interval; time.Duration arithmetic is int64. *)
Definition parse_interval (m : gomap (list byte)) (c : composite T) : outcome T (composite T) :=
  match lookup m (bs "INT") with
  | None => Value c
  | Some intr =>
      match sscanf_d intr with
      | None => Failure EInterval c
      | Some min =>
          let d := minutes_dur min in
          Value (set_interval c (if is_W (c_product c) then int_wrap (d * 10) else d))
      end
  end.

(** header.go:74-82: forecast time. *)
Definition parse_forecast (m : gomap (list byte)) (c : composite T) : outcome T (composite T) :=
  let c := set_forecast c (c_capture c) in
  match lookup m (bs "VV") with
  | None => Value c
  | Some vv =>
      match sscanf_d vv with
      | None => Failure EForecastTime c
      | Some min => Value (set_forecast c (c_capture c + minutes_dur min))
      end
  end.

(** Sequencing: every "if err != nil { return }" of header.go:43-162. *)
Definition bind {A B : Type} (x : outcome T A) (f : A -> outcome T B) : outcome T B :=
  match x with Value a => f a | Failure e c => Failure e c | Panic => Panic end.

(** header.go:52-71: product, unit, data length, capture time. On a failing
    time.Parse, CaptureTime is set to the zero time (line 69). *)
Definition parse_identity (header : list byte) (m : gomap (list byte)) (c : composite T)
  : outcome T (composite T) :=
  match slice header 0 2 with
  | None => Panic
  | Some prod =>
      let c := set_unit (set_product c prod) (lookup_unit prod) in
      match sscanf_d (section_get m "BY") with
      | None => Failure EDataLength c
      | Some by_ =>
          let c := set_data_length c (int_wrap (by_ - len header)) in
          match slice header 2 8, slice header 13 17 with
          | Some d1, Some d2 =>
              match time_parse (d1 ++ d2) with
              | None => Failure ECaptureTime (set_capture c zero_time)
              | Some t => Value (set_capture c t)
              end
          | _, _ => Panic
          end
      end
  end.

(** The body of parseHeader once the header text (with delimiter) is read. *)
Definition parse_header_text (c : composite T) (header : list byte) : outcome T (composite T) :=
  if len header <? 22 then Failure EHeaderShort c else
  match slice header 0 (len header - 1) with
  | None => Panic
  | Some text =>
      match split_header E text with
      | None => Panic
      | Some m =>
          bind (parse_identity header m c) (fun c =>
          bind (parse_forecast m c) (fun c =>
          bind (parse_interval m c) (fun c =>
          bind (parse_dimensions m c) (fun c =>
          bind (parse_precision m c) (fun c =>
          bind (parse_level m c) (fun c =>
          parse_version m c))))))
      end
  end.

(** header.go:43-162 [parseHeader], reading from the remaining input. *)
Definition parse_header (c : composite T) (input : list byte)
  : outcome T (composite T * list byte) :=
  match read_until Byte.x03 input with
  | None => Failure EHeaderShort c
  | Some (header, rest) => bind (parse_header_text c header) (fun c => Value (c, rest))
  end.
End Parse.
