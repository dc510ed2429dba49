(** fmt.Sscanf as used by /repo/header.go: formats "%d" (lines 62, 78, 87,
    124, 137, 156), "%dx%d" (100), "%3d%3d" (106) and "%f" (148).
    The scanner works on the runes of the string (fmt/scan.go, readRune).
    Simplification: fmt's global limit of 2^30 runes per scan is not modelled. *)
From Verif Require Import GoBase GoUtf8 GoFloat.

(** (s *ss) SkipSpace for Sscanf: a newline is an error. *)
Fixpoint skip_space (l : list Z) : option (list Z) :=
  match l with
  | [] => Some []
  | r :: t => if r =? 10 then None else if is_space r then skip_space t else Some l
  end.

(** fmt/scan.go [decimalDigits]. *)
Definition is_dec (r : Z) : bool := between 48 r 57.
(** fmt/scan.go [sign]. *)
Definition is_sign (r : Z) : bool := (r =? 43) || (r =? 45).

(** Longest prefix of accepted runes (a loop [for s.accept(set) {}]). *)
Fixpoint accept_many (p : Z -> bool) (l : list Z) : list Z * list Z :=
  match l with
  | r :: t => if p r then let '(a, b) := accept_many p t in (r :: a, b) else ([], l)
  | [] => ([], [])
  end.

(** [s.accept(set)]. *)
Definition accept_one (p : Z -> bool) (l : list Z) : list Z * list Z :=
  match l with
  | r :: t => if p r then ([r], t) else ([], l)
  | [] => ([], [])
  end.

(** The value of decimal digits. *)
Definition dec_value (ds : list Z) : Z := fold_left (fun a d => a * 10 + (d - 48)) ds 0.

(** strconv.ParseInt(tok, 10, 64) on a token [sign] digits+. *)
Definition parse_int (sgn ds : list Z) : option Z :=
  let v := dec_value ds in
  let v := match sgn with [s] => if s =? 45 then - v else v | _ => v end in
  if in_int v then Some v else None.

(** (s *ss) scanInt for verb 'd' inside the current width window. *)
Definition scan_int (l : list Z) : option (Z * list Z) :=
  match skip_space l with
  | None => None
  | Some [] => None                                  (* notEOF *)
  | Some l =>
      let '(sgn, l) := accept_one is_sign l in
      let '(ds, l) := accept_many is_dec l in
      match ds with
      | [] => None                                   (* expected integer *)
      | _ => match parse_int sgn ds with
             | None => None
             | Some v => Some (v, l)
             end
      end
  end.

(** Items of the format strings. *)
Inductive fmt_item :=
| Verb_d (width : option nat)      (* %d, %3d *)
| Lit (r : Z).                     (* a literal rune *)

(** (s *ss) doScanf: values assigned so far, and whether it finished without
    error. Left-over input is not an error. *)
Fixpoint sscanf (items : list fmt_item) (l : list Z) : list Z * bool :=
  match items with
  | [] => ([], true)
  | Lit r :: rest =>
      match l with
      | x :: t => if x =? r then sscanf rest t else ([], false)
      | [] => ([], false)
      end
  | Verb_d w :: rest =>
      match skip_space l with
      | None => ([], false)
      | Some l =>
          let '(win, out) := match w with
                             | None => (l, [])
                             | Some n => (firstn n l, skipn n l)
                             end in
          match scan_int win with
          | None => ([], false)
          | Some (v, win') =>
              let '(vs, ok) := sscanf rest (win' ++ out) in (v :: vs, ok)
          end
      end
  end.

(** fmt.Sscanf(s, "%d", &x). *)
Definition sscanf_d (s : list byte) : option Z :=
  match sscanf [Verb_d None] (runes s) with
  | ([v], true) => Some v
  | _ => None
  end.

(** (s *ss) floatToken (fmt/scan.go). *)
Definition oneof (a b : Z) (r : Z) : bool := (r =? a) || (r =? b).
(** fmt/scan.go [hexadecimalDigits]. *)
Definition is_hexdigit (r : Z) : bool := is_dec r || between 97 r 102 || between 65 r 70.
(** fmt/scan.go [floatToken]. *)
Definition float_token (l : list Z) : list Z :=
  let '(n1, l) := accept_one (oneof 110 78) l in
  let '(n2, l) := match n1 with [] => ([], l) | _ => accept_one (oneof 97 65) l end in
  let '(n3, l) := match n2 with [] => ([], l) | _ => accept_one (oneof 110 78) l end in
  match n3 with
  | _ :: _ => n1 ++ n2 ++ n3
  | [] =>
  let buf := n1 ++ n2 in
  let '(sg, l) := accept_one is_sign l in
  let '(i1, l) := accept_one (oneof 105 73) l in
  let '(i2, l) := match i1 with [] => ([], l) | _ => accept_one (oneof 110 78) l end in
  let '(i3, l) := match i2 with [] => ([], l) | _ => accept_one (oneof 102 70) l end in
  let buf := buf ++ sg ++ i1 ++ i2 ++ i3 in
  match i3 with
  | _ :: _ => buf
  | [] =>
  let '(z, l) := accept_one (Z.eqb 48) l in
  let '(x, l) := match z with [] => ([], l) | _ => accept_one (oneof 120 88) l end in
  let hex := match x with [] => false | _ => true end in
  let dig := fun r => (if hex then is_hexdigit r else is_dec r) || (r =? 95) in
  let ex := fun r => if hex then oneof 112 80 r else oneof 101 69 r || oneof 112 80 r in
  let '(d1, l) := accept_many dig l in
  let '(p, l) := accept_one (Z.eqb 46) l in
  let '(d2, l) := match p with [] => ([], l) | _ => accept_many dig l end in
  let '(e, l) := accept_one ex l in
  let '(es, l) := match e with [] => ([], l) | _ => accept_one is_sign l end in
  let '(ed, l) := match e with [] => ([], l) | _ => accept_many (fun r => is_dec r || (r =? 95)) l end in
  buf ++ z ++ x ++ d1 ++ p ++ d2 ++ e ++ es ++ ed
  end end.

(** strconv.ParseFloat(tok, 32) on tokens over "0-9 + - . e E" (the nearest
    float32; a syntax or range error is [None]). *)
Definition plain_float (tok : list Z) : option f32 :=
  let '(sg, l) := accept_one is_sign tok in
  let neg := match sg with [s] => s =? 45 | _ => false end in
  let '(d1, l) := accept_many is_dec l in
  let '(p, l) := accept_one (Z.eqb 46) l in
  let '(d2, l) := match p with [] => ([], l) | _ => accept_many is_dec l end in
  match d1 ++ d2 with
  | [] => None
  | ds =>
      let '(e, l) := accept_one (oneof 101 69) l in
      let '(es, l) := match e with [] => ([], l) | _ => accept_one is_sign l end in
      let '(ed, l) := match e with [] => ([], l) | _ => accept_many is_dec l end in
      match l with
      | _ :: _ => None
      | [] =>
          match e, ed with
          | _ :: _, [] => None
          | _, _ =>
              let ev := dec_value ed in
              let ev := match es with [s] => if s =? 45 then - ev else ev | _ => ev end in
              match of_decimal prec32 emax32 neg (dec_value ds) (ev - len d2) with
              | S754_infinity _ => None              (* value out of range *)
              | f => Some f
              end
          end
      end
  end.

(** The characters of a plain decimal token. *)
Definition is_plain (r : Z) : bool :=
  is_dec r || is_sign r || (r =? 46) || oneof 101 69 r.
(** ASCII lower case, for the words inf and nan. *)
Definition lower (r : Z) : Z := if between 65 r 90 then r + 32 else r.

(** (s *ss) convertFloat(tok, 32): plain decimals and nan / inf are modelled
    exactly; any other token (hexadecimal, underscores, binary exponent,
    partial "n"/"i" prefixes) is answered by the parameter [exotic]. *)
Definition convert_float (exotic : list Z -> option f32) (tok : list Z) : option f32 :=
  if forallb is_plain tok then plain_float tok
  else match map lower tok with
       | [110; 97; 110] => Some S754_nan
       | [105; 110; 102] => Some (S754_infinity false)
       | [43; 105; 110; 102] => Some (S754_infinity false)
       | [45; 105; 110; 102] => Some (S754_infinity true)
       | _ => exotic tok
       end.

(** fmt.Sscanf(s, "%f", &x) with x a float32. *)
Definition sscanf_f (exotic : list Z -> option f32) (s : list byte) : option f32 :=
  match skip_space (runes s) with
  | None => None
  | Some [] => None                                  (* notEOF *)
  | Some l => convert_float exotic (float_token l)
  end.
