(** Properties of the header (C21-C27, C49) and of archives (C30). *)
From Coq Require Import Lia Sorting.Permutation Sorting.Sorted.
From Verif Require Import GoBase GoUtf8 GoScan GoTime GoFloat Catalog Composite Header Data Projection Radolan
  Spec SpecHeader SpecWriter BaseFacts FieldFacts HeaderSafe HeaderFacts DataFacts ParseFacts CompositeFacts ScanFacts CalendarFacts HeaderMeaning
  ApiFacts RecordFacts FileFacts RunFacts FileComplete SplitFacts DefectFacts WriterFacts PropFile RoundTrip.
From Coq Require String. Import String.StringSyntax.
#[local] Arguments bs : simpl never.
#[local] Arguments lookup : simpl never.

(** * C22: splitting into fields *)

(** No text makes the splitting panic, and for every text, of whatever bytes,
    the map it returns is that of the fields written in the text. *)
Theorem C22_total E text : exists m, split_header E text = Some m /\ forall k, lookup m k = field E text k.
Proof.
  exists (rev (fields_of_text E text)). split; [apply split_header_fields|]. intros k. apply lookup_rev_last.
Qed.

(** A text of fields has exactly these fields, the last one winning. *)
Theorem C22_fields E fields : fields <> [] -> field_list fields ->
  exists m, split_header E (join_fields fields) = Some m /\ forall k, lookup m k = last_value fields k.
Proof.
  intros Hn Hf. exists (rev fields). split; [now apply split_fields|]. intros k. apply lookup_rev_last.
Qed.

(** A text not starting with a key has no fields. *)
Theorem C22_no_key E b text : plain_char b -> split_header E (b :: text) = Some [].
Proof. apply split_no_key. Qed.

(** These, and a key at the end (C23), are all ASCII texts. *)
Theorem C22_exhaustive text : Forall (fun b => bz b < 128) text ->
  exists pre fields key, text = pre ++ join_fields fields ++ key /\
    Forall plain_char pre /\ field_list fields /\ Forall capital key.
Proof. exact (text_form text). Qed.

(** So this is the value of every key in every ASCII text. *)
Theorem C22_ascii E pre fields key : Forall plain_char pre -> field_list fields -> Forall capital key ->
  exists m, split_header E (pre ++ join_fields fields ++ key) = Some m /\ forall k, lookup m k =
    match pre, rev fields, key with
    | _ :: _, _, _ => None
    | [], [], _ => if list_eq_dec Byte.byte_eq_dec k key then Some [] else None
    | [], _, [] => last_value fields k
    | [], (_, v) :: _, _ => last_value (fields ++ [(key, v)]) k
    end.
Proof.
  intros Hp Hf Hk. destruct pre as [|b pre].
  2:{ inversion Hp; subst. exists []. split; [now apply C22_no_key|reflexivity]. }
  cbn [app]. destruct (rev fields) as [|[k1 v1] rf] eqn:Hr.
  - apply (f_equal (@rev _)) in Hr. rewrite rev_involutive in Hr. subst fields. cbn [join_fields map concat app rev].
    eexists. split; [now apply split_key_only|]. intros k. unfold lookup. destruct (list_eq_dec _ k key) as [->|Hn].
    + now rewrite str_eqb_refl.
    + apply str_eqb_neq in Hn. now rewrite Hn.
  - destruct key as [|b key].
    + rewrite app_nil_r. apply C22_fields; [|assumption]. intros ->. discriminate.
    + apply (f_equal (@rev _)) in Hr. rewrite rev_involutive in Hr. cbn [rev] in Hr. subst fields.
      eexists. split; [apply split_trailing; auto; discriminate|]. intros k. rewrite <- lookup_rev_last.
      rewrite !rev_app_distr. cbn [rev app]. reflexivity.
Qed.
Print Assumptions C22_total.
Print Assumptions C22_ascii.
Print Assumptions C22_fields.
Print Assumptions C22_no_key.
Print Assumptions C22_exhaustive.

(** Beyond ASCII: a key of "A" and a two-byte letter (U+00C4) is cut inside
    that letter, and so is a value ending in such a character (U+00E4). *)
Example C22_beyond_ascii E :
  fields_of_text E [Byte.x41; Byte.xc3; Byte.x84; Byte.x31; Byte.xc3; Byte.xa4; Byte.x42; Byte.x32] =
    [([Byte.x41; Byte.xc3], [Byte.x31; Byte.xc3]); ([Byte.x42], [Byte.x32])].
Proof. vm_compute. reflexivity. Qed.

Example C22_case : field_list [(bs "RW", bs "282105100000716"); (bs "BY", bs "1620130"); (bs "VS", bs " 3"); (bs "BY", bs " 12")] /\
  last_value [(bs "RW", bs "282105100000716"); (bs "BY", bs "1620130"); (bs "VS", bs " 3"); (bs "BY", bs " 12")] (bs "BY") = Some (bs " 12").
Proof.
  split; [|vm_compute; reflexivity].
  repeat (apply Forall_cons; [split; [discriminate|]; split; [|split; [discriminate|]];
    match goal with |- Forall ?P (_ ?k) => let k' := eval vm_compute in k in change k with k'; cbn [fst snd] end;
    repeat (apply Forall_cons; [unfold plain_char, capital; vm_compute; intuition congruence|]); constructor|]). constructor.
Qed.

(** * C23 (refuted): a key without value *)
(** It silently takes over the value of the field before it. *)
Theorem C23_trailing_key_inherits E fields k v key :
  key <> [] -> Forall capital key -> field_list (fields ++ [(k, v)]) ->
  exists m, split_header E (join_fields (fields ++ [(k, v)]) ++ key) = Some m /\ lookup m key = Some v.
Proof.
  intros H1 H2 H3. eexists. split; [now apply split_trailing|]. unfold lookup. now rewrite str_eqb_refl.
Qed.

(** So a header ending in "INT   5VV" has a forecast offset of five minutes. *)
Theorem C23_empty_value_is_false A E : exists c,
  new_composite A E (file (bs "WX282105100000716BY    60VS 3PR E+00BG002003INT   5VV") one_byte_data) = Value c /\
  c_forecast c - c_capture c = 5 * ns_per_minute.
Proof. eexists. split; [vm_compute; reflexivity|]. vm_compute. reflexivity. Qed.
Print Assumptions C23_trailing_key_inherits.
Print Assumptions C23_empty_value_is_false.

(** * The header of a parsed file *)
Lemma parsed_meaning A E input text data c : parsed A E input c -> file_layout input text data -> header_meaning E text c.
Proof.
  intros H Hfl.
  apply (parsed_fields A E) in H as (text' & rest & tail & ch & p & dz & d0 & H1 & H2 & H3 & H4 & H5 & H6 & H7 & H8 &
    F1 & F2 & F3 & F4 & F5 & F6 & F7 & F8 & F9 & F10 & F11 & F12 & F13 & F14 & F15 & F16 & F17).
  destruct (file_layout_unique _ _ _ _ _ Hfl H1) as [<- <-].
  destruct (header_meaning_sound _ _ _ _ _ H2) as [l pr u t cap f i d prec lv fo].
  constructor; rewrite ?F1, ?F2, ?F3, ?F4, ?F5, ?F7, ?F8, ?F11, ?F12, ?F14, ?F15, ?F16, ?F17; assumption.
Qed.

(** Every parsed file has this layout. *)
Lemma parsed_layout A E input c : parsed A E input c -> exists text data, file_layout input text data.
Proof. intros H. destruct (parsed_inv A E input c H) as (text & data & _ & _ & _ & _ & _ & Hf & _). eauto. Qed.

(** * C49: which header errors are reported *)

(** The data section reports none of the header's errors. *)
Definition data_error (e : error) : Prop :=
  In e [ENoHeader; EUnknownEncoding; EReadRunlength; EOffsetValue; EDestination;
        EReadLittleEndian; ESizeLittleEndian; EReadSingleByte; ESizeSingleByte].

Lemma row_loop_errors {T} read eread decode row (P : error -> Prop) :
  P eread -> (forall dst line e d, decode dst line = RowErr e d -> P e) ->
  forall n i (c : composite T) s e c', row_loop read eread decode row n i c s = Failure e c' -> P e.
Proof.
  intros H1 H2. induction n as [|n IH]; intros i c s e c'; cbn [row_loop]; [discriminate|].
  destruct (read s) as [[line s1]|]; [|congruence].
  destruct (index _ _) as [dst|]; [|discriminate].
  destruct (decode dst line) as [d|e1 d|] eqn:Hd; [| |discriminate].
  - destruct (assign _ _ _); [apply IH|discriminate].
  - destruct (assign _ _ _); [|discriminate]. intros [= <- _]. eauto.
Qed.

Lemma parse_encoding_errors {T} enc (c : composite T) s e c' : parse_encoding enc c s = Failure e c' -> data_error e.
Proof.
  destruct enc; cbn [parse_encoding].
  - unfold data_error. intros H. apply parse_runlength_errors in H. cbn [In]. intuition.
  - unfold parse_little_endian. cbv zeta. intros H.
    assert (H' : row_loop (read_full (int_wrap (c_dx c * 2))) EReadLittleEndian (decode_little_endian (c_precision c) (c_unit c))
        (fun i => len (c_plain c) - 1 - i) (length (c_plain c)) 0 c s = Failure e c').
    { revert H. destruct (c_plain c); destruct (make 1 Byte.x00 (int_wrap (c_dx c * 2))); [auto|auto|auto|discriminate]. }
    revert H'. apply (row_loop_errors _ _ _ _ data_error); unfold data_error; [cbn [In]; auto 10|]. intros dst line e1 d.
    unfold decode_little_endian. destruct (_ || _); [intros [= <- _]; cbn [In]; auto 10|].
    destruct (little_endian_values _ _ _); discriminate.
  - unfold parse_single_byte. cbv zeta. intros H.
    assert (H' : row_loop (read_full (c_dx c)) EReadSingleByte (decode_single_byte (c_precision c) (c_unit c))
        (fun i => len (c_plain c) - 1 - i) (length (c_plain c)) 0 c s = Failure e c').
    { revert H. destruct (c_plain c); destruct (make 1 Byte.x00 (c_dx c)); [auto|auto|auto|discriminate]. }
    revert H'. apply (row_loop_errors _ _ _ _ data_error); unfold data_error; [cbn [In]; auto 10|]. intros dst line e1 d.
    unfold decode_single_byte. destruct (negb _); [intros [= <- _]; cbn [In]; auto 10|discriminate].
  - unfold data_error. intros [= <- _]. cbn [In]. auto 10.
Qed.

Lemma parse_data_errors {T} (c : composite T) s e c' : parse_data c s = Failure e c' -> data_error e.
Proof.
  rewrite parse_data_eq. destruct (_ || _); [intros [= <- _]; cbn; auto|].
  destruct (_ && _); [|discriminate]. apply parse_encoding_errors.
Qed.

(** An error of the header is reported exactly if it is the first defect of
    the header text; the data does not matter. *)
Theorem C49_header_error A E input text data e : file_layout input text data -> In e (map fst (header_defects E text)) ->
  (exists c, new_composite A E input = Failure e c) <-> first_defect (header_defects E text) e.
Proof.
  intros [-> Hnin] He. rewrite <- (header_error_iff (n_ofZ A) (n_zero A)) by assumption.
  unfold new_composite, parse_header. rewrite read_until_app by assumption.
  destruct (parse_header_text _ _ _ _) as [ch|e1 ch|] eqn:Hh; cbn [bind].
  - split; intros [c Hc]; [|discriminate]. exfalso. revert Hc.
    destruct (parse_data ch data) as [[c1 t1]|e1 c1|] eqn:Hd.
    + destruct (arrange_data c1); [|discriminate]. cbv zeta. destruct (unit_eqb _ _); [|discriminate].
      intros [= <- _]. cbn in He. intuition discriminate.
    + intros [= -> ->]. apply parse_data_errors in Hd. unfold data_error in Hd. cbn in He, Hd. intuition (subst; discriminate).
    + discriminate.
  - reflexivity.
  - split; intros [c Hc]; discriminate.
Qed.

(** A stream without delimiter is too short. *)
Theorem C49_no_delimiter A E input : ~ In Byte.x03 input -> exists c, new_composite A E input = Failure EHeaderShort c.
Proof.
  intros H. unfold new_composite, parse_header. rewrite (proj2 (read_until_none _ _)) by assumption. eauto.
Qed.

(** Any other result means that the header is free of defects. *)
Theorem C49_otherwise_sound A E input text data : file_layout input text data ->
  (forall e c, In e (map fst (header_defects E text)) -> new_composite A E input <> Failure e c) ->
  exists c0 : composite (num A), header_meaning E text c0.
Proof.
  intros [-> Hnin] H.
  destruct (parse_header_text (n_ofZ A) E (zero_composite (n_zero A)) (text ++ [Byte.x03])) as [ch|e ch|] eqn:Hh.
  - exists ch. eapply header_meaning_sound. exact Hh.
  - exfalso. pose proof (header_first_defect _ _ _ _ _ _ Hnin Hh) as Hf. apply first_defect_in in Hf as (d & Hin & _).
    eapply (H e ch); [apply in_map_iff; exists (e, d); auto|].
    unfold new_composite, parse_header. rewrite read_until_app by assumption. now rewrite Hh.
  - exfalso. revert Hh. apply parse_header_text_safe.
Qed.
Print Assumptions C49_header_error.
Print Assumptions C49_no_delimiter.
Print Assumptions C49_otherwise_sound.

(** Two defects: the forecast offset is reported, not the interval. *)
Example C49_case E : first_defect (header_defects E (bs "RW282105100000716BY    60VV abINT xyz")) EForecastTime.
Proof. apply (header_error_iff (fun _ => tt) tt). { vm_compute. intuition discriminate. } eexists. vm_compute. reflexivity. Qed.

(** * C24: capture time *)
Theorem C24_capture_time A E input text data c : parsed A E input c -> file_layout input text data ->
  time_text (firstn 6 (skipn 2 text)) (firstn 4 (skipn 13 text)) (c_capture c).
Proof. intros H1 H2. exact (hm_capture _ _ _ (parsed_meaning A E _ _ _ _ H1 H2)). Qed.

(** A date that is no calendar minute is reported. *)
Theorem C24_bad_time A E input text data n : file_layout input text data -> 21 <= len text ->
  number_text (match field E text (bs "BY") with Some s => s | None => [] end) n ->
  (exists c, new_composite A E input = Failure ECaptureTime c) <->
  ~ exists t, time_text (firstn 6 (skipn 2 text)) (firstn 4 (skipn 13 text)) t.
Proof.
  intros Hl Hlen Hby. rewrite (C49_header_error A E _ _ _ _ Hl) by (cbn; auto 10). unfold header_defects.
  rewrite first_defect_cons. split.
  - intros [[[=] _]|[_ H]]. rewrite first_defect_cons in H. destruct H as [[[=] _]|[_ H]].
    rewrite first_defect_cons in H. destruct H as [[_ H]|[_ H]]; [assumption|].
    exfalso. apply first_defect_in in H as (d & Hin & _). cbn [In] in Hin. intuition discriminate.
  - intros H. right. split; [lia|]. rewrite first_defect_cons. right. split; [intros Hx; apply Hx; eauto|].
    rewrite first_defect_cons. left. auto.
Qed.
Print Assumptions C24_capture_time.
Print Assumptions C24_bad_time.

(** 29 February exists in a leap year only. *)
Example C24_case : time_text (bs "292359") (bs "0216") (24279839 * ns_per_minute) /\
  (~ exists t, time_text (bs "290000") (bs "0217") t).
Proof.
  split.
  - apply time_parse_text; [reflexivity|reflexivity|]. vm_compute. reflexivity.
  - intros [t Ht]. apply time_parse_text in Ht; [|reflexivity|reflexivity]. vm_compute in Ht. discriminate.
Qed.

(** * C25: forecast time *)
Theorem C25_forecast_time A E input text data c : parsed A E input c -> file_layout input text data ->
  match field E text (bs "VV") with
  | None => c_forecast c = c_capture c
  | Some s => exists n, number_text s n /\
      (Z.abs n <= 153722867 -> c_forecast c = c_capture c + n * ns_per_minute)
  end.
Proof.
  intros H1 H2. pose proof (hm_forecast _ _ _ (parsed_meaning A E _ _ _ _ H1 H2)) as H. revert H.
  destruct (field E text (bs "VV")); [|auto]. intros (n & Hn & ->). exists n. split; [assumption|].
  intros Hb. f_equal. apply int_wrap_id. unfold int_min, int_max, ns_per_minute. lia.
Qed.
Print Assumptions C25_forecast_time.

(** The bound is sharp: one minute more and the forecast lies before the capture. *)
Example C25_case A E : exists c,
  new_composite A E (file (bs "WX282105100000716BY    63VS 3PR E+00BG002003VV 153722867") one_byte_data) = Value c /\
  c_forecast c = c_capture c + 153722867 * ns_per_minute.
Proof. eexists. split; vm_compute; reflexivity. Qed.
Example C25_sharp A E : exists c,
  new_composite A E (file (bs "WX282105100000716BY    63VS 3PR E+00BG002003VV 153722868") one_byte_data) = Value c /\
  c_forecast c < c_capture c.
Proof. eexists. split; vm_compute; reflexivity. Qed.

(** * C26: interval *)
Theorem C26_interval A E input text data c : parsed A E input c -> file_layout input text data ->
  match field E text (bs "INT") with
  | None => c_interval c = 0
  | Some s => exists n, number_text s n /\
      let factor := if existsb (str_eqb (firstn 2 text)) [bs "W1"; bs "W2"; bs "W3"; bs "W4"] then 10 else 1 in
      (Z.abs n * factor <= 153722867 -> c_interval c = n * factor * ns_per_minute)
  end.
Proof.
  intros H1 H2. pose proof (hm_interval _ _ _ (parsed_meaning A E _ _ _ _ H1 H2)) as H. revert H.
  destruct (field E text (bs "INT")); [|auto]. intros (n & Hn & ->). exists n. split; [assumption|].
  destruct (existsb _ _); cbv zeta; intros Hb; rewrite int_wrap_id; unfold int_min, int_max, ns_per_minute; lia.
Qed.
Print Assumptions C26_interval.

Example C26_case A E : exists c,
  new_composite A E (file (bs "W3282105100000716BY    58VS 3PR E+00BG002003INT 144") one_byte_data) = Value c /\
  c_interval c = 1440 * ns_per_minute.
Proof. eexists. split; vm_compute; reflexivity. Qed.

(** * C27: dimensions *)
Theorem C27_dimensions A E input text data c : parsed A E input c -> file_layout input text data ->
  announced E text (c_px c) (c_py c) (c_dx c) (c_dy c).
Proof. intros H1 H2. exact (hm_dims _ _ _ (parsed_meaning A E _ _ _ _ H1 H2)). Qed.

(** Without a source of dimensions there is no composite. *)
Theorem C27_no_dimensions A E input text data c : file_layout input text data ->
  field E text (bs "GP") = None -> field E text (bs "BG") = None -> lookup dimension_catalog (firstn 2 text) = None ->
  ~ parsed A E input c.
Proof.
  intros Hl H1 H2 H3 Hp. pose proof (C27_dimensions A E _ _ _ _ Hp Hl) as [? G|? G0 G|? G0 G1 G2]; congruence.
Qed.
Print Assumptions C27_dimensions.
Print Assumptions C27_no_dimensions.

(** GP wins over BG, and both over the catalog. *)
Example C27_case E :
  announced E (bs "OL282105100000716BY    60BG002003GP   4x   5") 5 4 5 4 /\
  announced E (bs "OL282105100000716BY    60BG002003") 3 2 3 2 /\
  announced E (bs "OL282105100000716BY    60") 200 224 200 200.
Proof.
  split; [|split].
  - eapply announced_gp; [vm_compute; reflexivity|apply sscanf_times; vm_compute; reflexivity|reflexivity|reflexivity].
  - eapply announced_bg; [vm_compute; reflexivity|vm_compute; reflexivity|apply sscanf_pair; vm_compute; reflexivity|reflexivity|reflexivity].
  - eapply announced_local; try (vm_compute; reflexivity).
Qed.

(** * C21: header round trip *)
Definition composite_of {T} (zero : T) (h : header_data) : composite T :=
  let c := zero_composite zero in
  let cap := epoch_minute (h_year h) (h_month h) (h_day h) (h_hour h) (h_minute h) * ns_per_minute in
  let '(px, py, dx, dy) :=
    match h_size h with
    | Size_GP r k | Size_BG r k => (k, r, k, r)
    | Size_local => match lookup dimension_catalog (h_label h) with
                    | Some v => (s_px v, s_py v, s_dx v, s_dy v) | None => (0, 0, 0, 0) end
    end in
  mk_composite (h_label h) cap
    (cap + (match h_offset h with Some n => n | None => 0 end) * ns_per_minute)
    ((match h_interval h with Some n => n | None => 0 end) * ns_per_minute *
                 (if existsb (str_eqb (h_label h)) [bs "W1"; bs "W2"; bs "W3"; bs "W4"] then 10 else 1))
    (match lookup unit_catalog (h_label h) with Some u => u | None => Unit_unknown end)
    [] px py [] [] dx dy 0 zero zero false
    (match h_version h with Some n => n | None => 0 end)
    (h_total h - (len (header_text h) + 1))
    (match h_precision h with Some n => n | None => 0 end)
    (option_map (map (fun n => f32_lit n (-1))) (h_levels h)) zero zero false.

Lemma composite_of_written {T} (zero : T) h : writable h -> written h (composite_of zero h).
Proof.
  intros W. pose proof (w_size _ W) as Hs. unfold written, written_size, composite_of. cbv zeta.
  destruct (h_size h) as [r k|r k|]; cbn [c_product c_capture c_forecast c_interval c_px c_py c_dx c_dy c_precision c_format c_level c_data_length].
  - auto 20.
  - auto 20.
  - destruct (lookup dimension_catalog (h_label h)) as [v|]; [|contradiction].
    cbn [c_product c_capture c_forecast c_interval c_px c_py c_dx c_dy c_precision c_format c_level c_data_length].
    repeat (split; [reflexivity|]). split; [exists v; auto 8|]. auto 8.
Qed.

Lemma written_same {T} h (a b : composite T) : same_header a b -> written h b -> written h a.
Proof.
  unfold same_header, written. intros (-> & -> & -> & -> & _ & -> & -> & -> & -> & -> & -> & -> & ->). auto.
Qed.

Definition written_unit (h : header_data) : unit_t :=
  match lookup unit_catalog (h_label h) with Some u => u | None => Unit_unknown end.

Lemma composite_of_meaning {T} E (zero : T) h : writable h -> header_meaning E (header_text h) (composite_of zero h).
Proof.
  intros W. apply written_meaning; [assumption|now apply composite_of_written|].
  unfold composite_of. cbv zeta. destruct (h_size h); try reflexivity. now destruct (lookup dimension_catalog _).
Qed.

(** Whatever the data section is: a composite read behind a written header
    carries the written values. *)
Theorem C21_header_round_trip A E h data c : writable h ->
  parsed A E (header_text h ++ Byte.x03 :: data) c -> written h c /\ c_unit c = written_unit h.
Proof.
  intros W H.
  assert (Hl : file_layout (header_text h ++ Byte.x03 :: data) (header_text h) data)
    by (split; [reflexivity|now apply header_text_clean]).
  pose proof (composite_of_meaning E (n_zero A) h W) as Hm.
  pose proof (parsed_header _ _ _ _ _ _ _ H Hl Hm) as Hs.
  split; [eapply written_same; [exact Hs|now apply composite_of_written]|].
  pose proof (hm_unit _ _ _ (parsed_meaning A E _ _ _ _ H Hl)) as Hu. rewrite Hu.
  pose proof (hm_product _ _ _ Hm) as Hp. unfold written_unit. rewrite <- Hp. 
  unfold composite_of. cbv zeta. destruct (h_size h); try reflexivity. now destruct (lookup dimension_catalog _).
Qed.

Lemma written_dims {T} (zero : T) h px py dx dy : writable h -> written_size h px py dx dy ->
  let c0 := composite_of zero h in c_px c0 = px /\ c_py c0 = py /\ 0 < px /\ 0 < py.
Proof.
  intros W Hsz c0. pose proof (composite_of_written zero h W : written h c0) as Hw.
  destruct Hw as (_ & _ & _ & _ & Hw & _). pose proof (w_size _ W) as Hs. clear -Hw Hsz Hs. revert Hw Hsz Hs. unfold written_size. destruct (h_size h).
  - intuition lia.
  - intuition lia.
  - intros (v & H1 & H2 & H3 & H4 & H5) (v' & H1' & H2' & H3' & H4' & H5') _. rewrite H1 in H1'. injection H1' as <-.
    assert (Hpos : 0 < s_px v /\ 0 < s_py v).
    { clear -H1. revert H1. unfold lookup.
      assert (Hall : Forall (fun kv => 0 < s_px (snd kv) /\ 0 < s_py (snd kv)) dimension_catalog).
      { unfold dimension_catalog. repeat (apply Forall_cons; [vm_compute; split; reflexivity|]). constructor. }
      induction Hall as [|[k w] l Hk _ IH]; [discriminate|].
      destruct (str_eqb (h_label h) k); [intros [= <-]; exact Hk|exact IH]. }
    lia.
Qed.

(** Together with C47: a file with a written header and a written grid is
    read back completely. *)
Theorem C21_two_byte_file A E h px py dx dy rows tail : writable h -> written_size h px py dx dy ->
  px * 4 <= 2 ^ 48 -> py * 24 <= 2 ^ 48 -> h_levels h = None ->
  h_total h = len (header_text h) + 1 + 2 * (px * py) ->
  grid_of (fun o => match o with Some v => - 4095 <= v <= 4095 | None => True end) px py rows ->
  exists c, parsed A E (header_text h ++ Byte.x03 :: encode_grid encode_cell rows ++ tail) c /\ written h c /\
    c_plain c = map (map (cell_value (match h_precision h with Some n => n | None => 0 end) (written_unit h))) rows.
Proof.
  intros W Hsz Hb1 Hb2 Hlv Htot Hg.
  pose proof (composite_of_meaning E (n_zero A) h W) as Hm. pose proof (composite_of_written (n_zero A) h W) as Hw.
  set (c0 := composite_of (n_zero A) h) in *.
  pose proof (written_dims (n_zero A) h _ _ _ _ W Hsz) as Hdim. cbv zeta in Hdim. fold c0 in Hdim.
  destruct Hdim as (E1 & E2 & P1 & P2).
  destruct (C47_two_byte_file A E (header_text h) c0 rows tail) as (c & Hp & Hs & Hpl).
  - now apply header_text_clean.
  - assumption.
  - unfold possible_dims. lia.
  - rewrite field_LV by assumption. now rewrite Hlv.
  - exists (h_total h). rewrite field_BY by assumption. pose proof (w_total _ W). split; [apply number_reads; lia|]. rewrite E1, E2. lia.
  - now rewrite E1, E2.
  - destruct (C21_header_round_trip A E h _ c W Hp) as [Hwc Hu]. exists c. split; [assumption|]. split; [assumption|].
    rewrite Hpl. f_equal. f_equal. pose proof Hs as (_ & _ & _ & _ & Su & _ & _ & _ & _ & _ & _ & Sp & _).
    rewrite <- Su, <- Sp, Hu. destruct Hwc as (_ & _ & _ & _ & _ & -> & _). reflexivity.
Qed.
Theorem C21_one_byte_file A E h px py dx dy rows tail : writable h -> written_size h px py dx dy ->
  px * 4 <= 2 ^ 48 -> py * 24 <= 2 ^ 48 -> h_levels h = None ->
  h_total h = len (header_text h) + 1 + px * py ->
  grid_of (fun o => match o with Some v => 0 <= v <= 255 /\ v <> 250 | None => True end) px py rows ->
  exists c, parsed A E (header_text h ++ Byte.x03 :: encode_grid encode_byte_cell rows ++ tail) c /\ written h c /\
    c_plain c = map (map (cell_value (match h_precision h with Some n => n | None => 0 end) (written_unit h))) rows.
Proof.
  intros W Hsz Hb1 Hb2 Hlv Htot Hg.
  pose proof (composite_of_meaning E (n_zero A) h W) as Hm. pose proof (composite_of_written (n_zero A) h W) as Hw.
  set (c0 := composite_of (n_zero A) h) in *.
  pose proof (written_dims (n_zero A) h _ _ _ _ W Hsz) as Hdim. cbv zeta in Hdim. fold c0 in Hdim.
  destruct Hdim as (E1 & E2 & P1 & P2).
  destruct (C47_one_byte_file A E (header_text h) c0 rows tail) as (c & Hp & Hs & Hpl).
  - now apply header_text_clean.
  - assumption.
  - unfold possible_dims. lia.
  - rewrite field_LV by assumption. now rewrite Hlv.
  - exists (h_total h). rewrite field_BY by assumption. pose proof (w_total _ W). split; [apply number_reads; lia|]. rewrite E1, E2. lia.
  - now rewrite E1, E2.
  - destruct (C21_header_round_trip A E h _ c W Hp) as [Hwc Hu]. exists c. split; [assumption|]. split; [assumption|].
    rewrite Hpl. f_equal. f_equal. pose proof Hs as (_ & _ & _ & _ & Su & _ & _ & _ & _ & _ & _ & Sp & _).
    rewrite <- Su, <- Sp, Hu. destruct Hwc as (_ & _ & _ & _ & _ & -> & _). reflexivity.
Qed.
(** The same for a file in the runlength encoding: each cell is 0 (no data) or
    the number of a level; [rows] gives the line numbers, too. *)
Theorem C21_runlength_file A E h px py dx dy ls rows tail : writable h -> written_size h px py dx dy ->
  px * 4 <= 2 ^ 48 -> py * 24 <= 2 ^ 48 -> h_levels h = Some ls ->
  grid_of (fun v => 0 <= v < 16) px py (map snd rows) -> ~ In Byte.x0a (map fst rows) ->
  exists c, parsed A E (header_text h ++ Byte.x03 :: encode_lines rows ++ tail) c /\ written h c /\
    c_plain c = map (map (level_value (map (fun n => f32_lit n (-1)) ls))) (map snd rows).
Proof.
  intros W Hsz Hb1 Hb2 Hlv Hg Hnl.
  pose proof (composite_of_meaning E (n_zero A) h W) as Hm. pose proof (composite_of_written (n_zero A) h W) as Hw.
  set (c0 := composite_of (n_zero A) h) in *.
  pose proof (written_dims (n_zero A) h _ _ _ _ W Hsz) as Hdim. cbv zeta in Hdim. fold c0 in Hdim.
  destruct Hdim as (E1 & E2 & P1 & P2).
  assert (HL : exists lv, field E (header_text h) (bs "LV") = Some lv /\ level_table E lv (map (fun n => f32_lit n (-1)) ls)).
  { pose proof (hm_level _ _ _ Hm) as Hl. rewrite field_LV in * by assumption. rewrite Hlv in Hl |- *. cbn [option_map] in *.
    destruct Hl as (fs & Hfs & He). destruct Hw as (_ & _ & _ & _ & _ & _ & _ & Hw & _). rewrite Hlv in Hw. cbn [option_map] in Hw.
    eexists. split; [reflexivity|]. rewrite He in Hw. injection Hw as <-. exact Hfs. }
  destruct HL as (lv & F1 & F2).
  destruct (C47_runlength_file A E (header_text h) c0 lv (map (fun n => f32_lit n (-1)) ls) rows tail) as (c & Hp & Hs & Hpl).
  - now apply header_text_clean.
  - assumption.
  - unfold possible_dims. lia.
  - exact F1.
  - exact F2.
  - now rewrite E1, E2.
  - assumption.
  - destruct (C21_header_round_trip A E h _ c W Hp) as [Hwc _]. exists c. auto.
Qed.

Print Assumptions C21_header_round_trip.
Print Assumptions C21_two_byte_file.
Print Assumptions C21_one_byte_file.
Print Assumptions C21_runlength_file.

(** A concrete header. *)
Definition sample_header : header_data :=
  mk_header (bs "RW") 2016 7 28 21 5 95 (Some 3) None (Some (-1)) (Some 60) (Size_GP 2 3) (Some 0)
    [(bs "SW", bs "   2.13.1"); (bs "MS", bs " 10<boo>")].
Example C21_case : writable sample_header /\ len (header_text sample_header) = 82.
Proof.
  assert (Hl : len (header_text sample_header) = 82) by (vm_compute; reflexivity).
  split; [|assumption]. constructor.
  - exists Byte.x52, Byte.x57. split; [reflexivity|]. unfold capital.
    split; [split; discriminate|left; split; [split; discriminate|vm_compute; intuition discriminate]].
  - cbn. lia.
  - unfold calendar_minute. cbn. lia.
  - cbn. unfold int_max. lia.
  - intros n [= <-]. unfold int_max. lia.
  - discriminate.
  - intros n [= <-]. lia.
  - intros n [= <-]. lia.
  - cbn. unfold int_max. lia.
  - intros n [= <-]. lia.
  - rewrite Hl. unfold int_max. lia.
  - cbn [h_other sample_header]. split.
    + repeat (apply Forall_cons; [split; [discriminate|]; split; [|split; [discriminate|]];
        match goal with |- Forall ?P (_ ?k) => let k' := eval vm_compute in k in change k with k'; cbn [fst snd] end;
        repeat (apply Forall_cons; [unfold plain_char, capital; vm_compute; intuition congruence|]); constructor|]). constructor.
    + intros k v [[= <- _]|[[= <- _]|[]]]; vm_compute; intuition discriminate.
  - vm_compute. intuition discriminate.
Qed.

(** * C30: archives *)
Section Archive.
Variable A : arith.
Variable E : goenv.
Variable sort : (composite (num A) -> composite (num A) -> bool) -> list (composite (num A)) -> list (composite (num A)).
(** The contract of sort.Slice: the result is a permutation in which no
    element is less than one before it, provided that less is a strict weak
    order. *)
Definition sorted_by {X} (less : X -> X -> bool) (l : list X) : Prop :=
  forall i j a b, (i < j)%nat -> nth_error l i = Some a -> nth_error l j = Some b -> less b a = false.
Definition strict_weak_order {X} (less : X -> X -> bool) : Prop :=
  (forall a, less a a = false) /\ (forall a b c, less a b = true -> less b c = true -> less a c = true) /\
  (forall a b c, less a b = false -> less b c = false -> less a c = false).
Definition sort_contract : Prop := forall less l, strict_weak_order less ->
  Permutation (sort less l) l /\ sorted_by less (sort less l).

Lemma read_entries_ok clean : forall entries cs cs', read_entries A E entries clean cs = ArchiveOk cs' <->
  clean = true /\ exists new, cs' = cs ++ new /\ Forall2 (fun e c => new_composite A E e = Value c) entries new.
Proof.
  induction entries as [|e l IH]; intros cs cs'; cbn [read_entries].
  - split.
    + destruct clean; [|discriminate]. intros [= <-]. split; [reflexivity|]. exists []. split; [now rewrite app_nil_r|constructor].
    + intros (-> & new & -> & H). inversion H. now rewrite app_nil_r.
  - split.
    + destruct (new_composite A E e) as [c|err c|] eqn:He; [|discriminate|discriminate].
      rewrite IH. intros (-> & new & -> & H). split; [reflexivity|]. exists (c :: new). split; [now rewrite <- app_assoc|]. now constructor.
    + intros (-> & new & -> & H). inversion H as [|? c ? new' He Hl]; subst. rewrite He. apply IH. split; [reflexivity|].
      exists new'. split; [now rewrite <- app_assoc|assumption].
Qed.

Lemma read_entries_err clean : forall entries cs e, read_entries A E entries clean cs = ArchiveErr e ->
  (exists before x after c, entries = before ++ x :: after /\ new_composite A E x = Failure e c /\
     Forall (fun y => exists c, new_composite A E y = Value c) before) \/
  (clean = false /\ e = EArchive /\ Forall (fun y => exists c, new_composite A E y = Value c) entries).
Proof.
  induction entries as [|x l IH]; intros cs e; cbn [read_entries].
  - destruct clean; [discriminate|]. intros [= <-]. right. auto.
  - destruct (new_composite A E x) as [c|err c|] eqn:Hx; [| |discriminate].
    + intros H. destruct (IH _ _ H) as [(before & y & after & c' & -> & Hy & Hb)|(Hc & He & Hf)].
      * left. exists (x :: before), y, after, c'. split; [reflexivity|]. split; [assumption|]. constructor; eauto.
      * right. repeat split; auto. constructor; eauto.
    + intros [= <-]. left. exists [], x, l, c. auto.
Qed.

(** Success: every entry parsed without any error, and the result holds
    exactly these composites, ordered by forecast time. *)
Theorem C30_archive_complete a cs : sort_contract -> new_composites A E sort a = ArchiveOk cs ->
  ar_clean_end a = true /\
  (exists ps, Forall2 (fun e c => new_composite A E e = Value c) (ar_entries a) ps /\ Permutation cs ps) /\
  (forall i j c d, (i < j)%nat -> nth_error cs i = Some c -> nth_error cs j = Some d -> c_forecast c <= c_forecast d).
Proof.
  intros Hs H. unfold new_composites in H. destruct (read_entries _ _ _ _ _) as [ps|e|] eqn:Hr; [|discriminate|discriminate].
  injection H as <-. apply read_entries_ok in Hr as (Hc & new & -> & Hf). cbn [app] in *.
  assert (Ho : strict_weak_order (before A)).
  { unfold strict_weak_order, before. repeat split; intros; rewrite ?Z.ltb_lt, ?Z.ltb_ge in *; lia. }
  destruct (Hs (before A) new Ho) as [Hp Hso]. split; [assumption|]. split; [eauto|].
  intros i j c d Hij H1 H2. specialize (Hso i j c d Hij H1 H2). unfold before in Hso. apply Z.ltb_ge in Hso. lia.
Qed.

(** Failure: all-or-nothing. *)
Theorem C30_archive_fails a : 
  (exists e c x, In x (ar_entries a) /\ new_composite A E x = Failure e c) \/ ar_clean_end a = false ->
  forall cs, new_composites A E sort a <> ArchiveOk cs.
Proof.
  intros H cs Hc. unfold new_composites in Hc. destruct (read_entries _ _ _ _ _) as [ps|e|] eqn:Hr; [|discriminate|discriminate].
  apply read_entries_ok in Hr as (Hcl & new & _ & Hf). destruct H as [(e & c & x & Hin & Hx)|H]; [|congruence].
  clear -Hf Hin Hx. induction Hf as [|y d l l' H _ IH]; [destruct Hin|]. destruct Hin as [->|Hin]; [congruence|auto].
Qed.

(** The error reported is that of the first failing entry, or the archive's. *)
Theorem C30_archive_error a e : new_composites A E sort a = ArchiveErr e ->
  (exists before x after c, ar_entries a = before ++ x :: after /\ new_composite A E x = Failure e c /\
     Forall (fun y => exists c, new_composite A E y = Value c) before) \/
  (ar_clean_end a = false /\ e = EArchive).
Proof.
  unfold new_composites. destruct (read_entries _ _ _ _ _) as [ps|e'|] eqn:Hr; [discriminate| |discriminate].
  intros [= ->]. apply read_entries_err in Hr as [H|(H1 & H2 & _)]; auto.
Qed.

(** An archive whose entries all parse, and which ends properly, is accepted. *)
Theorem C30_archive_accepted a : ar_clean_end a = true ->
  Forall (fun x => exists c, new_composite A E x = Value c) (ar_entries a) ->
  exists cs, new_composites A E sort a = ArchiveOk cs.
Proof.
  intros Hc Hf. assert (Hn : exists new, Forall2 (fun e c => new_composite A E e = Value c) (ar_entries a) new).
  { induction Hf as [|x l [c Hx] _ [new IH]]; [exists []; constructor|]. exists (c :: new). now constructor. }
  destruct Hn as [new Hn]. unfold new_composites.
  assert (Hr : read_entries A E (ar_entries a) (ar_clean_end a) [] = ArchiveOk new) by (apply read_entries_ok; split; [assumption|exists new; split; [reflexivity|assumption]]).
  rewrite Hr. eauto.
Qed.
End Archive.
Print Assumptions C30_archive_complete.
Print Assumptions C30_archive_fails.
Print Assumptions C30_archive_error.
Print Assumptions C30_archive_accepted.

(** Insertion sort meets the contract; an archive of two parsable entries. *)
Fixpoint insert {X} (less : X -> X -> bool) (x : X) (l : list X) : list X :=
  match l with [] => [x] | y :: t => if less y x then y :: insert less x t else x :: l end.
Definition insertion_sort {X} (less : X -> X -> bool) (l : list X) : list X := fold_right (insert less) [] l.

Lemma insert_perm {X} less (x : X) l : Permutation (insert less x l) (x :: l).
Proof.
  induction l as [|y t IH]; cbn [insert]; [reflexivity|]. destruct (less y x); [|reflexivity].
  rewrite IH. apply perm_swap.
Qed.
Definition sorted_all {X} (less : X -> X -> bool) := StronglySorted (fun a b => less b a = false).
Lemma sorted_all_by {X} less (l : list X) : sorted_all less l -> sorted_by less l.
Proof.
  unfold sorted_all, sorted_by. induction 1 as [|a l H IH Hf]; intros i j x y Hij H1 H2.
  - destruct i; discriminate.
  - destruct j as [|j]; [lia|]. cbn in H2. destruct i as [|i]; cbn in H1.
    + injection H1 as <-. rewrite Forall_forall in Hf. apply Hf. eapply nth_error_In; eassumption.
    + apply (IH i j); [lia|assumption|assumption].
Qed.
Lemma insert_sorted {X} less (x : X) l : strict_weak_order less -> sorted_all less l -> sorted_all less (insert less x l).
Proof.
  intros (O1 & O2 & O3) H. unfold sorted_all in *. induction H as [|y t H IH Hf]; cbn [insert]; [repeat constructor|].
  destruct (less y x) eqn:Hyx.
  - constructor; [assumption|]. rewrite Forall_forall in *. intros z Hz.
    apply (Permutation_in _ (insert_perm less x t)) in Hz. destruct Hz as [<-|Hz]; [|auto].
    destruct (less x y) eqn:Hxy; [|reflexivity]. specialize (O2 _ _ _ Hyx Hxy). rewrite O1 in O2. discriminate.
  - constructor; [constructor; assumption|]. constructor; [assumption|]. rewrite Forall_forall in *. intros z Hz.
    specialize (Hf z Hz). exact (O3 z y x Hf Hyx).
Qed.
Lemma insertion_sort_contract A : sort_contract A insertion_sort.
Proof.
  intros less l Ho. split.
  - induction l as [|x l IH]; cbn; [constructor|]. rewrite insert_perm. now constructor.
  - apply sorted_all_by. induction l as [|x l IH]; cbn; [constructor|]. now apply insert_sorted.
Qed.

Definition forecast_file (minutes : list byte) : list byte :=
  file (bs "WX282105100000716BY    57VS 3PR E+00BG002003VV " ++ minutes) one_byte_data.
Example C30_case A E : exists c d,
  new_composites A E insertion_sort (mk_archive [forecast_file (bs " 60"); forecast_file (bs "  5")] true) = ArchiveOk [c; d] /\
  c_forecast d - c_forecast c = 55 * ns_per_minute.
Proof. do 2 eexists. split; vm_compute; reflexivity. Qed.
