(** Go string iteration and the character classes the code relies on. *)
From Verif Require Import GoBase.

(** Facts about the Go runtime that the model leaves open; every theorem is
    stated for all of them.
    - [upper_hi]: [unicode.IsUpper] above U+00FF (depends on the Unicode
      version of the Go release). *)
Definition rune_error : Z := 65533.

(** utf8.go: a continuation byte. *)
Definition is_cont (b : Z) : bool := (128 <=? b) && (b <=? 191).
(** lo <= x <= hi. *)
Definition between (lo b hi : Z) : bool := (lo <=? b) && (b <=? hi).

(** unicode/utf8.DecodeRune on a non-empty string starting with [b0]: rune
    and width; invalid encodings give (RuneError, 1). *)
Definition decode_rune (b0 : byte) (rest : list byte) : Z * nat :=
  let x := bz b0 in
  if x <? 128 then (x, 1%nat)
  else if between 194 x 223 then
    match rest with
    | b1 :: _ =>
        if is_cont (bz b1) then ((x - 192) * 64 + (bz b1 - 128), 2%nat) else (rune_error, 1%nat)
    | _ => (rune_error, 1%nat)
    end
  else if between 224 x 239 then
    match rest with
    | b1 :: b2 :: _ =>
        let lo := if x =? 224 then 160 else 128 in
        let hi := if x =? 237 then 159 else 191 in
        if between lo (bz b1) hi && is_cont (bz b2)
        then ((x - 224) * 4096 + (bz b1 - 128) * 64 + (bz b2 - 128), 3%nat)
        else (rune_error, 1%nat)
    | _ => (rune_error, 1%nat)
    end
  else if between 240 x 244 then
    match rest with
    | b1 :: b2 :: b3 :: _ =>
        let lo := if x =? 240 then 144 else 128 in
        let hi := if x =? 244 then 143 else 191 in
        if between lo (bz b1) hi && is_cont (bz b2) && is_cont (bz b3)
        then ((x - 240) * 262144 + (bz b1 - 128) * 4096 + (bz b2 - 128) * 64 + (bz b3 - 128), 4%nat)
        else (rune_error, 1%nat)
    | _ => (rune_error, 1%nat)
    end
  else (rune_error, 1%nat).

(** [for i, c := range s]: the list of (i, c).  [skip] counts bytes already
    consumed by the previous multi-byte rune. *)
Fixpoint range_from (i : Z) (skip : nat) (s : list byte) : list (Z * Z) :=
  match s with
  | [] => []
  | b :: t =>
      match skip with
      | S k => range_from (i + 1) k t
      | O => let '(r, w) := decode_rune b t in
             (i, r) :: range_from (i + 1) (w - 1) t
      end
  end.
(** header.go:17: for i, c := range header. *)
Definition range_string (s : list byte) : list (Z * Z) := range_from 0 0 s.

(** The runes of a string, as read by fmt's scanner. *)
Definition runes (s : list byte) : list Z := map snd (range_string s).

(** unicode.IsUpper. *)
Definition is_upper (upper_hi : Z -> bool) (r : Z) : bool :=
  if r <=? 255
  then between 65 r 90 || between 192 r 214 || between 216 r 222
  else upper_hi r.

(** fmt.isSpace (fmt/scan.go, table [space]). *)
Definition is_space (r : Z) : bool :=
  between 9 r 13 || (r =? 32) || (r =? 133) || (r =? 160) || (r =? 5760)
  || between 8192 r 8202 || between 8232 r 8233 || (r =? 8239) || (r =? 8287)
  || (r =? 12288).
