(** Vocabulary of the header properties: numbers as fmt.Sscanf reads them, and
    what the fields of a header text say.  Independent of the scanner model. *)
From Verif Require Import GoBase GoUtf8 GoScan GoFloat Catalog Composite Header Spec.
From Coq Require String. Import String.StringSyntax.

(** White space in front of a number: anything fmt counts as space except the
    newline. *)
Definition blank_rune (r : Z) : Prop := is_space r = true /\ r <> 10.
Definition digit_rune (r : Z) : Prop := 48 <= r <= 57.

(** Value of decimal digits, most significant first. *)
Fixpoint decimal (ds : list Z) : Z :=
  match ds with
  | [] => 0
  | d :: t => (d - 48) * 10 ^ len t + decimal t
  end.

(** [l] starts with the number [v] in the text form "blanks, optional sign,
    digits" and continues with [rest] (which does not start with a digit). *)
Inductive number_prefix (l : list Z) (v : Z) (rest : list Z) : Prop :=
| number_prefix_intro blanks sg ds :
    l = blanks ++ sg ++ ds ++ rest ->
    Forall blank_rune blanks ->
    sg = [] \/ sg = [43] \/ sg = [45] ->
    ds <> [] -> Forall digit_rune ds ->
    (forall d t, rest = d :: t -> ~ digit_rune d) ->
    v = (if list_eq_dec Z.eq_dec sg [45] then - decimal ds else decimal ds) ->
    int_min <= v <= int_max ->
    number_prefix l v rest.

(** A string whose first number is [v]. *)
Definition number_text (s : list byte) (v : Z) : Prop := exists rest, number_prefix (runes s) v rest.

(** A dimension text "rows x columns" (field GP). *)
Definition times_text (s : list byte) (rows cols : Z) : Prop :=
  exists r1 r2, number_prefix (runes s) rows (120 :: r1) /\ number_prefix r1 cols r2.

(** The first number of [l], of at most three characters after blanks, and
    what follows it. *)
Definition number3_prefix (l : list Z) (v : Z) (rest : list Z) : Prop :=
  exists blanks body r, l = blanks ++ body /\ Forall blank_rune blanks /\
    (forall c t, body = c :: t -> is_space c = false) /\
    number_prefix (firstn 3 body) v r /\ rest = r ++ skipn 3 body.

(** A dimension text of two 3-digit numbers (field BG). *)
Definition pair_text (s : list byte) (rows cols : Z) : Prop :=
  exists r1 r2, number3_prefix (runes s) rows r1 /\ number3_prefix r1 cols r2.

(** Calendar. *)
Definition leap_year (y : Z) : bool := ((y mod 4 =? 0) && negb (y mod 100 =? 0)) || (y mod 400 =? 0).
Definition month_length (y m : Z) : Z :=
  if m =? 2 then (if leap_year y then 29 else 28)
  else if (m =? 4) || (m =? 6) || (m =? 9) || (m =? 11) then 30 else 31.
Definition year_length (y : Z) : Z := if leap_year y then 366 else 365.

(** Sum of f a, f (a+1), ..., f (b-1). *)
Definition sum_from (f : Z -> Z) (a b : Z) : Z :=
  fold_right Z.add 0 (map (fun k => f (a + Z.of_nat k)) (seq 0 (Z.to_nat (b - a)))).

(** Days from 1 January 1900 to the given date, and the minute of the Unix
    epoch at which the given UTC calendar minute starts. *)
Definition days_since_1900 (y m d : Z) : Z :=
  sum_from year_length 1900 y + sum_from (month_length y) 1 m + (d - 1).
Definition epoch_minute (y m d h mi : Z) : Z :=
  ((days_since_1900 y m d - days_since_1900 1970 1 1) * 24 + h) * 60 + mi.

Definition calendar_minute (y m d h mi : Z) : Prop :=
  1 <= m <= 12 /\ 1 <= d <= month_length y m /\ 0 <= h <= 23 /\ 0 <= mi <= 59.

(** Two ASCII digits. *)
Definition two_digits (s : list byte) (v : Z) : Prop :=
  exists a b, s = [a; b] /\ 48 <= bz a <= 57 /\ 48 <= bz b <= 57 /\ v = (bz a - 48) * 10 + (bz b - 48).

(** The year field: two digits (69..99 are 19xx, 00..68 are 20xx), or a sign
    and one digit (an artefact of time.Parse: the year 2000+n or 2000-n). *)
Definition year_text (s : list byte) (y : Z) : Prop :=
  (exists v, two_digits s v /\ y = if v <? 69 then 2000 + v else 1900 + v) \/
  (exists a b, s = [a; b] /\ 48 <= bz b <= 57 /\
     ((bz a = 43 /\ y = 2000 + (bz b - 48)) \/ (bz a = 45 /\ y = 2000 - (bz b - 48)))).

(** The time (nanoseconds since the epoch) written as ddHHMM, mmYY. *)
Definition time_text (ddHHMM mmYY : list byte) (t : Z) : Prop :=
  exists sd sh smi sm sy y m d h mi,
    ddHHMM = sd ++ sh ++ smi /\ mmYY = sm ++ sy /\
    two_digits sd d /\ two_digits sh h /\ two_digits smi mi /\ two_digits sm m /\ year_text sy y /\
    calendar_minute y m d h mi /\
    t = epoch_minute y m d h mi * 60 * 1000000000.

(** Dimensions: from GP (rows x columns), else from BG (rows, columns), else
    from the catalog of local products. *)
Inductive announced (E : goenv) (text : list byte) (px py dx dy : Z) : Prop :=
| announced_gp dim : field E text (bs "GP") = Some dim -> times_text dim dy dx ->
    px = dx -> py = dy -> announced E text px py dx dy
| announced_bg dim : field E text (bs "GP") = None -> field E text (bs "BG") = Some dim ->
    pair_text dim dy dx -> px = dx -> py = dy -> announced E text px py dx dy
| announced_local v : field E text (bs "GP") = None -> field E text (bs "BG") = None ->
    lookup dimension_catalog (firstn 2 text) = Some v ->
    px = s_px v -> py = s_py v -> dx = s_dx v -> dy = s_dy v -> announced E text px py dx dy.

(** The level table: a two-character count, then five characters per level. *)
Definition level_table (E : goenv) (lv : list byte) (levels : list f32) : Prop :=
  exists words, number_text (firstn 2 lv) (len words) /\ (2 <= length lv)%nat /\
    skipn 2 lv = concat words /\ Forall (fun w => length w = 5%nat) words /\
    Forall2 (fun w f => sscanf_f (exotic_float E) w = Some f) words levels.

Definition ns_per_minute : Z := 60 * 1000000000.

(** Everything the header text (without the delimiter) says about a composite.
    Durations are int64 nanoseconds, lengths are ints. *)
Record header_meaning {T} (E : goenv) (text : list byte) (c : composite T) : Prop := {
  hm_length : 21 <= len text;
  hm_product : c_product c = firstn 2 text;
  hm_unit : c_unit c = match lookup unit_catalog (firstn 2 text) with Some u => u | None => Unit_unknown end;
  hm_total : exists n,
      number_text (match field E text (bs "BY") with Some s => s | None => [] end) n /\
      c_data_length c = int_wrap (n - (len text + 1));
  hm_capture : time_text (firstn 6 (skipn 2 text)) (firstn 4 (skipn 13 text)) (c_capture c);
  hm_forecast : match field E text (bs "VV") with
                | None => c_forecast c = c_capture c
                | Some s => exists n, number_text s n /\ c_forecast c = c_capture c + int_wrap (n * ns_per_minute)
                end;
  hm_interval : match field E text (bs "INT") with
                | None => c_interval c = 0
                | Some s => exists n, number_text s n /\
                    c_interval c =
                      if existsb (str_eqb (firstn 2 text)) [bs "W1"; bs "W2"; bs "W3"; bs "W4"]
                      then int_wrap (n * ns_per_minute * 10) else int_wrap (n * ns_per_minute)
                end;
  hm_dims : announced E text (c_px c) (c_py c) (c_dx c) (c_dy c);
  hm_precision : match field E text (bs "E") with
                 | None => c_precision c = 0
                 | Some s => number_text s (c_precision c)
                 end;
  hm_level : match field E text (bs "LV") with
             | None => c_level c = None
             | Some s => exists levels, level_table E s levels /\ c_level c = Some levels
             end;
  hm_format : match field E text (bs "VS") with
              | None => c_format c = 0
              | Some s => number_text s (c_format c)
              end
}.

(** The length of the data section announced by the header: the BY field
    (total length) minus the length of the header with its delimiter. *)
Definition announced_payload (E : goenv) (text : list byte) (n : Z) : Prop :=
  exists v, number_text (match field E text (bs "BY") with Some s => s | None => [] end) v /\ n = v - (len text + 1).

(** Row and column counts NewComposite can allocate (2^48 bytes at most; a row
    header has 24 bytes, a value 4). *)
Definition possible_dims {T} (c : composite T) : Prop :=
  0 < c_px c /\ 0 < c_py c /\ c_px c * 4 <= 2 ^ 48 /\ c_py c * 24 <= 2 ^ 48.

(** * Texts made of fields *)

(** ASCII capital letters; other ASCII characters. *)
Definition capital (b : byte) : Prop := 65 <= bz b <= 90.
Definition plain_char (b : byte) : Prop := bz b < 128 /\ ~ capital b.

(** Keys of capital letters, each followed by a value without capitals. *)
Definition field_list (fields : list (list byte * list byte)) : Prop :=
  Forall (fun kv => fst kv <> [] /\ Forall capital (fst kv) /\ snd kv <> [] /\ Forall plain_char (snd kv)) fields.
Definition join_fields (fields : list (list byte * list byte)) : list byte :=
  concat (map (fun kv => fst kv ++ snd kv) fields).

(** * Defective headers *)

(** What can be wrong with a header text, in the order in which it is
    reported. *)
Definition bad_number (E : goenv) (text key : list byte) : Prop :=
  exists s, field E text key = Some s /\ ~ exists n, number_text s n.
Definition header_defects (E : goenv) (text : list byte) : list (error * Prop) :=
  [ (EHeaderShort, len text < 21);
    (EDataLength, ~ exists n, number_text (match field E text (bs "BY") with Some s => s | None => [] end) n);
    (ECaptureTime, ~ exists t, time_text (firstn 6 (skipn 2 text)) (firstn 4 (skipn 13 text)) t);
    (EForecastTime, bad_number E text (bs "VV"));
    (EInterval, bad_number E text (bs "INT"));
    (EDimGP, exists s, field E text (bs "GP") = Some s /\ ~ exists rows cols, times_text s rows cols);
    (EDimBG, field E text (bs "GP") = None /\
             exists s, field E text (bs "BG") = Some s /\ ~ exists rows cols, pair_text s rows cols);
    (ENoDimension, field E text (bs "GP") = None /\ field E text (bs "BG") = None /\
                   lookup dimension_catalog (firstn 2 text) = None);
    (EPrecision, bad_number E text (bs "E"));
    (ELevelShort, exists s, field E text (bs "LV") = Some s /\ len s < 2);
    (ELevelCount, exists s, field E text (bs "LV") = Some s /\ ~ exists n, number_text (firstn 2 s) n);
    (ELevelFormat, exists s n, field E text (bs "LV") = Some s /\ number_text (firstn 2 s) n /\ len s <> 5 * n + 2);
    (ELevelValue, exists s, field E text (bs "LV") = Some s /\ ~ exists levels, level_table E s levels);
    (EFormat, bad_number E text (bs "VS")) ].

(** [e] is the first defect of the list that is present. *)
Definition first_defect (defects : list (error * Prop)) (e : error) : Prop :=
  exists before d after, defects = before ++ (e, d) :: after /\ Forall (fun x => ~ snd x) before /\ d.
