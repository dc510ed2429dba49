(** Properties of NewComposite, At and AtZ on whole files (C01-C11, C15-C19,
    C28, C45, C46).  [A] is the float64 arithmetic, [E] the unspecified parts
    of the Go library; every theorem holds for all of them. *)
From Coq Require Import Lia.
From Verif Require Import GoBase GoUtf8 GoScan GoFloat Catalog Composite Header Data Projection Radolan
  Spec SpecHeader BaseFacts HeaderSafe HeaderFacts DataFacts ParseFacts CompositeFacts ScanFacts HeaderMeaning
  ApiFacts RecordFacts FileFacts RunFacts FileComplete.
From Coq Require String. Import String.StringSyntax.
#[local] Arguments bs : simpl never.
#[local] Arguments lookup : simpl never.

(** * Concrete files *)

(** A 2x3 two-byte file (RW: mm, precision -1), a 2x3 single-byte file (WX:
    dBZ), a 2x4 runlength file (PG) with three levels. *)
Definition two_byte_text := bs "RW282105100000716BY    67VS 3PR E-01INT  60GP   2x   3".
Definition two_byte_data := [Byte.x01; Byte.x00; Byte.x02; Byte.x00; Byte.x03; Byte.x40;
                             Byte.xff; Byte.x0f; Byte.xc4; Byte.x29; Byte.x06; Byte.x90].
Definition one_byte_text := bs "WX282105100000716BY    58VS 3PR E+00INT   5BG002003".
Definition one_byte_data := [Byte.x00; Byte.x01; Byte.xfa; Byte.x41; Byte.xff; Byte.x64].
Definition run_text := bs "PG262115100000616BY    82LV 3  1.0 19.0-28.0CS0MX 0BG002004".
Definition run_data := [Byte.x01; Byte.x11; Byte.x21; Byte.x13; Byte.x0a; Byte.x02; Byte.x12; Byte.x1f; Byte.x12; Byte.x0a; Byte.x41].
Definition file (text data : list byte) : list byte := text ++ Byte.x03 :: data.

Example two_byte_parsed A E : exists c, parsed A E (file two_byte_text two_byte_data) c /\
  c_dx c = 3 /\ c_dy c = 2 /\ c_px c = 3 /\ c_py c = 2 /\ c_unit c = Unit_mm.
Proof. eexists. split; [left; vm_compute; reflexivity|]. repeat split. Qed.
Example one_byte_parsed A E : exists c, parsed A E (file one_byte_text one_byte_data) c /\
  c_dx c = 3 /\ c_dy c = 2 /\ c_px c = 3 /\ c_py c = 2 /\ c_unit c = Unit_dBZ.
Proof. eexists. split; [left; vm_compute; reflexivity|]. repeat split. Qed.
Example run_parsed A E : exists c, parsed A E (file run_text run_data) c /\
  c_dx c = 4 /\ c_dy c = 2 /\ c_px c = 4 /\ c_py c = 2 /\
  c_plain c = [[NaN32; f32_lit 1 0; f32_lit 1 0; f32_lit (-28) 0]; [NaN32; NaN32; NaN32; f32_lit 19 0]].
Proof. eexists. split; [left; vm_compute; reflexivity|]. repeat split. Qed.
Example two_byte_layout : file_layout (file two_byte_text two_byte_data) two_byte_text two_byte_data.
Proof. split; [reflexivity|]. vm_compute. intuition discriminate. Qed.
Example one_byte_layout : file_layout (file one_byte_text one_byte_data) one_byte_text one_byte_data.
Proof. split; [reflexivity|]. vm_compute. intuition discriminate. Qed.
Example run_layout : file_layout (file run_text run_data) run_text run_data.
Proof. split; [reflexivity|]. vm_compute. intuition discriminate. Qed.

(** The headers of the project's own tests. *)
Definition pg_text := bs "PG262115100000616BY22205LV 6  1.0 19.0 28.0 37.0 46.0 55.0CS0MX 0MS 88<boo,ros,emd,hnr,umd,pro,ess,fld,drs,neu,nhb,oft,eis,tur,isn,fbg,mem> are used, BG460460".
Definition fz_text := bs "FZ282105100000716BY 405160VS 3SW   2.13.1PR E-01INT   5GP 450x 450VV 100MF 00000002MS 66<boo,ros,emd,hnr,umd,pro,ess,drs,neu,nhb,oft,eis,tur,isn,fbg,mem>".

Lemma meaning_of_text {T} (zero : T) E text c :
  parse_header_text (fun _ => zero) E (zero_composite zero) (text ++ [Byte.x03]) = Value c -> header_meaning E text c.
Proof. apply header_meaning_sound. Qed.

Example pg_meaning E : exists c : composite unit, header_meaning E pg_text c /\
  c_product c = bs "PG" /\ c_px c = 460 /\ c_py c = 460 /\ c_data_length c = 22046 /\
  c_level c = Some (map (fun n => f32_lit n 0) [1; 19; 28; 37; 46; 55]).
Proof. eexists. split; [apply (meaning_of_text tt); vm_compute; reflexivity|]. repeat split; vm_compute; reflexivity. Qed.
Example fz_meaning E : exists c : composite unit, header_meaning E fz_text c /\
  c_product c = bs "FZ" /\ c_px c = 450 /\ c_py c = 450 /\ c_data_length c = 405006 /\ c_format c = 3 /\
  c_precision c = -1 /\ c_interval c = 5 * ns_per_minute /\ c_forecast c - c_capture c = 100 * ns_per_minute.
Proof. eexists. split; [apply (meaning_of_text tt); vm_compute; reflexivity|]. repeat split; vm_compute; reflexivity. Qed.

Example two_byte_meaning E : exists c : composite unit, header_meaning E two_byte_text c /\ possible_dims c.
Proof. eexists. split; [apply (meaning_of_text tt); vm_compute; reflexivity|]. vm_compute; intuition congruence. Qed.

Example two_byte_payload E : announced_payload E two_byte_text (2 * (3 * 2)).
Proof. exists 67. split; [|vm_compute; reflexivity]. apply sscanf_d_number. vm_compute. reflexivity. Qed.
Example one_byte_payload E : announced_payload E one_byte_text (3 * 2).
Proof. exists 58. split; [|vm_compute; reflexivity]. apply sscanf_d_number. vm_compute. reflexivity. Qed.
Example run_levels E : exists lv, field E run_text (bs "LV") = Some lv /\
  level_table E lv [f32_lit 1 0; f32_lit 19 0; f32_lit (-28) 0].
Proof.
  eexists. split; [vm_compute; reflexivity|]. exists [bs "  1.0"; bs " 19.0"; bs "-28.0"].
  split; [apply sscanf_d_number; vm_compute; reflexivity|]. split; [vm_compute; repeat constructor|]. split; [vm_compute; reflexivity|].
  split; [repeat constructor|]. repeat constructor; vm_compute; reflexivity.
Qed.

(** * C01: panics *)

(** NewComposite panics exactly for files whose header is well-formed and
    announces, in its GP or BG field, non-zero dimensions that are negative or
    beyond what can be allocated. *)
Theorem C01_panic_iff A E input :
  new_composite A E input = Panic <->
  exists text data (c : composite (num A)), file_layout input text data /\ header_meaning E text c /\
    (field E text (bs "GP") <> None \/ field E text (bs "BG") <> None) /\
    c_px c <> 0 /\ c_py c <> 0 /\
    (c_px c < 0 \/ c_py c < 0 \/ 2 ^ 48 < c_px c * 4 \/ 2 ^ 48 < c_py c * 24).
Proof.
  split.
  - intros H. pose proof (new_composite_inv A E input) as Hi. rewrite H in Hi.
    destruct Hi as (text & rest & ch & -> & Hn & Hh & Hx & Hy & Ha). exists text, rest, ch.
    pose proof (header_meaning_sound _ _ _ _ _ Hh) as Hm.
    split; [now split|]. split; [assumption|].
    assert (Hbad : c_px ch < 0 \/ c_py ch < 0 \/ 2 ^ 48 < c_px ch * 4 \/ 2 ^ 48 < c_py ch * 24).
    { unfold alloc_ok, max_alloc in Ha. lia. }
    split; [|auto].
    destruct (hm_dims _ _ _ Hm) as [dim H1 | dim _ H1 | v H0 H1 H2 Hpx Hpy Hdx Hdy].
    + left; congruence.
    + right; congruence.
    + exfalso. destruct (catalog_dims _ _ H2) as (C1 & _ & _ & C2). lia.
  - intros (text & data & c & [-> Hn] & Hm & _ & Hx & Hy & Hbad).
    destruct (header_enters A E text c Hm) as (ch & Hh & Hsame).
    destruct Hsame as (_ & _ & _ & _ & _ & Ex & Ey & _).
    rewrite (new_composite_header A E text data ch Hn Hh), parse_data_eq, Ex, Ey.
    apply Z.eqb_neq in Hx, Hy. rewrite Hx, Hy. cbn [orb].
    replace (_ && _ && _ && _) with false; [reflexivity|]. symmetry.
    apply not_true_is_false. rewrite !andb_true_iff, !Z.ltb_lt, !Z.leb_le. unfold max_alloc. lia.
Qed.

(** Otherwise it returns. *)
Theorem C01_returns A E input :
  (forall text data (c : composite (num A)), file_layout input text data -> header_meaning E text c -> c_px c = 0 \/ c_py c = 0 \/ possible_dims c) ->
  exists c, returned A E input c.
Proof.
  intros H. unfold returned. destruct (new_composite A E input) as [c|e c|] eqn:En.
  - exists c. auto.
  - exists c. right. eauto.
  - exfalso. apply C01_panic_iff in En. destruct En as (text & data & c & Hf & Hm & _ & Hx & Hy & Hbad).
    destruct (H text data c Hf Hm) as [?|[?|(? & ? & ? & ?)]]; lia.
Qed.
Print Assumptions C01_panic_iff.
Print Assumptions C01_returns.

(** * C02: refuted by a header with a negative row count *)
Definition negative_text := bs "FZ282105100000716BY 405160VS 3SW   2.13.1PR E-01INT   5GP  -1x   1VV 100MF 00000002".

Theorem C02_negative_dimension_panics A E data : new_composite A E (file negative_text data) = Panic.
Proof. vm_compute. reflexivity. Qed.

Theorem C02_errors_only_is_false A E : ~ (forall input, exists c, returned A E input c).
Proof.
  intros H. destruct (H (file negative_text [])) as [c Hc]. unfold returned in Hc.
  rewrite C02_negative_dimension_panics in Hc. destruct Hc as [Hc|[e Hc]]; discriminate.
Qed.
Print Assumptions C02_errors_only_is_false.

(** * C03: shape *)
Theorem C03_shape A E input c : parsed A E input c ->
  (0 < c_px c /\ 0 < c_py c /\ 0 < c_dx c /\ 0 < c_dy c /\ 0 < c_dz c) /\
  (len (c_plain c) = c_py c /\ all_of_width (c_plain c) (c_px c)) /\
  (len (c_dataz c) = c_dz c /\ forall l, In l (c_dataz c) -> len l = c_dy c /\ all_of_width l (c_dx c)) /\
  nth_is (c_dataz c) 0 (c_data c).
Proof. exact (parsed_shape A E input c). Qed.
Print Assumptions C03_shape.

(** * C04: At and AtZ *)
Theorem C04_at_total A E c x y z : obtainable A E c ->
  (~ inside x y z (c_dx c) (c_dy c) (c_dz c) -> at_z A c x y z = Some NaN32) /\
  (inside x y z (c_dx c) (c_dy c) (c_dz c) -> exists v, cell3 (c_dataz c) z y x v /\ at_z A c x y z = Some v) /\
  at_ A c x y = at_z A c x y 0.
Proof.
  intros H. destruct (at_z_spec A E c x y z H) as [H1 H2]. split; [exact H1|]. split; [exact H2|reflexivity].
Qed.

Theorem C04_at_is_data A E input c x y : parsed A E input c -> 0 <= x < c_dx c -> 0 <= y < c_dy c ->
  exists v, cell2 (c_data c) y x v /\ at_ A c x y = Some v.
Proof. exact (at_data A E c x y input). Qed.
Print Assumptions C04_at_total.
Print Assumptions C04_at_is_data.

Example C04_case A E : exists c, obtainable A E c /\ inside 2 1 0 (c_dx c) (c_dy c) (c_dz c).
Proof.
  destruct (one_byte_parsed A E) as (c & Hp & Hx & Hy & _). exists c.
  split. { left. exists (file one_byte_text one_byte_data). destruct Hp as [Hp|Hp]; [now left|right; eauto]. }
  destruct (C03_shape A E _ c Hp) as ((_ & _ & _ & _ & Hz) & _). unfold inside. lia.
Qed.

(** * C05: layers *)
Theorem C05_layers A E input c : parsed A E input c ->
  (c_py c mod c_dy c = 0 ->
     c_dz c = c_py c / c_dy c /\
     forall z y, 0 <= z < c_dz c -> 0 <= y < c_dy c ->
       exists l r, nth_is (c_dataz c) z l /\ nth_is l y r /\ nth_is (c_plain c) (z * c_dy c + y) r) /\
  (c_py c mod c_dy c <> 0 ->
     c_dz c = 1 /\ c_dy c < c_py c /\
     forall y, 0 <= y < c_dy c ->
       exists l r, nth_is (c_dataz c) 0 l /\ nth_is l y r /\ nth_is (c_plain c) (c_py c - c_dy c + y) r).
Proof.
  intros H. destruct (parsed_shape A E input c H) as ((_ & Hy & _ & Hdy & _) & _).
  pose proof (parsed_layers A E input c H) as Hl. rewrite Z.rem_mod_nonneg in Hl by lia.
  split; intros Hm.
  - rewrite Hm, Z.eqb_refl in Hl. destruct Hl as [Hn Hl]. split; [|exact Hl].
    rewrite <- Hn. rewrite Z.div_mul by lia. reflexivity.
  - apply Z.eqb_neq in Hm. rewrite Hm in Hl. exact Hl.
Qed.

(** Every plain row is shown at exactly one (z, y) when it divides. *)
Theorem C05_every_row_once A E input c Y : parsed A E input c -> c_py c mod c_dy c = 0 -> 0 <= Y < c_py c ->
  exists z y, 0 <= z < c_dz c /\ 0 <= y < c_dy c /\ Y = z * c_dy c + y /\
    forall z' y', 0 <= y' < c_dy c -> Y = z' * c_dy c + y' -> z' = z /\ y' = y.
Proof.
  intros H Hm HY. destruct (parsed_shape A E input c H) as ((_ & Hy & _ & Hdy & _) & _).
  destruct (C05_layers A E input c H) as [Hl _]. destruct (Hl Hm) as [Hz _].
  pose proof (Z.div_mod Y (c_dy c) ltac:(lia)) as Hd. pose proof (Z.mod_pos_bound Y (c_dy c) Hdy) as Hb.
  exists (Y / c_dy c), (Y mod c_dy c). split.
  { split; [apply Z.div_pos; lia|]. rewrite Hz. apply Z.div_lt_upper_bound; [lia|].
    pose proof (Z.div_mod (c_py c) (c_dy c) ltac:(lia)). lia. }
  split; [assumption|]. split; [lia|]. intros z' y' Hy' He.
  assert (z' = Y / c_dy c). { apply (Z.div_unique Y (c_dy c) z' y'); lia. }
  subst z'. lia.
Qed.
Print Assumptions C05_layers.
Print Assumptions C05_every_row_once.

(** Local products: 12 layers of 200 rows (PZ), and the bottom 200 of 224 rows (PX). *)
Lemma parsed_check A E input (b : composite (num A) -> bool) :
  match new_composite A E input with Value c | Failure ErrUnknownUnit c => b c | _ => false end = true ->
  exists c, parsed A E input c /\ b c = true.
Proof. unfold parsed. destruct (new_composite A E input) as [c|[] c|]; try discriminate; eauto. Qed.
Example C05_layers_case A E : exists c, parsed A E (file (bs "PZ262115100000616BY22205LV 1  1.0CS0MX 0") (repeat Byte.x0a 2400)) c /\
  c_dz c = 12 /\ c_py c mod c_dy c = 0.
Proof.
  destruct (parsed_check A E (file (bs "PZ262115100000616BY22205LV 1  1.0CS0MX 0") (repeat Byte.x0a 2400))
    (fun c => (c_dz c =? 12) && (c_py c mod c_dy c =? 0))) as (c & H & Hb).
  - vm_compute. reflexivity.
  - exists c. split; [exact H|]. clear H. lia.
Qed.
Example C05_bottom_case A E : exists c, parsed A E (file (bs "PX262115100000616BY22205LV 1  1.0CS0MX 0") (repeat Byte.x0a 224)) c /\
  c_dz c = 1 /\ c_py c mod c_dy c <> 0.
Proof.
  destruct (parsed_check A E (file (bs "PX262115100000616BY22205LV 1  1.0CS0MX 0") (repeat Byte.x0a 224))
    (fun c => (c_dz c =? 1) && negb (c_py c mod c_dy c =? 0))) as (c & H & Hb).
  - vm_compute. reflexivity.
  - exists c. split; [exact H|]. clear H. lia.
Qed.

(** * C06, C07: fixed-width files *)
Theorem C06_two_byte_pixels A E input text data c x y z :
  parsed A E input c -> file_layout input text data ->
  field E text (bs "LV") = None -> announced_payload E text (2 * (c_px c * c_py c)) ->
  inside x y z (c_dx c) (c_dy c) (c_dz c) ->
  let k := ((c_dz c - z) * c_dy c - 1 - y) * c_dx c + x in
  exists lo hi, nth_is data (2 * k) lo /\ nth_is data (2 * k + 1) hi /\
    at_z A c x y z = Some (two_byte_value (c_precision c) (c_unit c) lo hi).
Proof. intros H1 H2 H3 H4. apply (two_byte_pixels A E input text data c x y z H1 H2 H3). now apply payload_iff. Qed.

Theorem C07_one_byte_pixels A E input text data c x y z :
  parsed A E input c -> file_layout input text data ->
  field E text (bs "LV") = None -> announced_payload E text (c_px c * c_py c) ->
  inside x y z (c_dx c) (c_dy c) (c_dz c) ->
  let k := ((c_dz c - z) * c_dy c - 1 - y) * c_dx c + x in
  exists b, nth_is data k b /\ at_z A c x y z = Some (one_byte_value (c_precision c) (c_unit c) b).
Proof. intros H1 H2 H3 H4. apply (one_byte_pixels A E input text data c x y z H1 H2 H3). now apply payload_iff. Qed.
Print Assumptions C06_two_byte_pixels.
Print Assumptions C07_one_byte_pixels.

Example C06_case A E : exists c, parsed A E (file two_byte_text two_byte_data) c /\
  announced_payload E two_byte_text (2 * (c_px c * c_py c)) /\ field E two_byte_text (bs "LV") = None /\
  inside 1 1 0 (c_dx c) (c_dy c) (c_dz c).
Proof.
  destruct (two_byte_parsed A E) as (c & Hp & Hx & Hy & Hpx & Hpy & _). exists c. rewrite Hpx, Hpy.
  split; [assumption|]. split; [apply two_byte_payload|]. split; [vm_compute; reflexivity|].
  destruct (C03_shape A E _ c Hp) as ((_ & _ & _ & _ & Hz) & _). unfold inside. lia.
Qed.
Example C07_case A E : exists c, parsed A E (file one_byte_text one_byte_data) c /\
  announced_payload E one_byte_text (c_px c * c_py c) /\ field E one_byte_text (bs "LV") = None /\
  inside 1 1 0 (c_dx c) (c_dy c) (c_dz c).
Proof.
  destruct (one_byte_parsed A E) as (c & Hp & Hx & Hy & Hpx & Hpy & _). exists c. rewrite Hpx, Hpy.
  split; [assumption|]. split; [apply one_byte_payload|]. split; [vm_compute; reflexivity|].
  destruct (C03_shape A E _ c Hp) as ((_ & _ & _ & _ & Hz) & _). unfold inside. lia.
Qed.

(** * C08: runlength files *)
Theorem C08_runlength_rows A E input text data lv levels c :
  parsed A E input c -> file_layout input text data ->
  field E text (bs "LV") = Some lv -> level_table E lv levels ->
  exists lines tail, split_lines data lines tail /\ len lines = c_py c /\
    Forall2 (fun line row => line_meaning levels (Z.to_nat (c_px c)) line = Some row) lines (c_plain c).
Proof. exact (runlength_parsed A E input text data lv levels c). Qed.
Print Assumptions C08_runlength_rows.

(** * C09, C10, C11: records *)
Theorem C09_two_byte_record p u lo hi :
  (Z.testbit (bz hi) 5 = true -> rvp6_little_endian p u lo hi = NaN32) /\
  (Z.testbit (bz hi) 5 = false ->
     rvp6_little_endian p u lo hi =
     scaled_value p u ((if Z.testbit (bz hi) 6 then -1 else 1) * ((bz hi mod 16) * 256 + bz lo))).
Proof. rewrite rvp6_little_endian_eq. unfold two_byte_value. split; intros ->; reflexivity. Qed.

(** Bits 4 and 7 of the high byte do not matter. *)
Theorem C09_spare_bits p u lo hi hi' :
  bz hi mod 16 = bz hi' mod 16 -> Z.testbit (bz hi) 5 = Z.testbit (bz hi') 5 ->
  Z.testbit (bz hi) 6 = Z.testbit (bz hi') 6 ->
  rvp6_little_endian p u lo hi = rvp6_little_endian p u lo hi'.
Proof. intros H1 H2 H3. rewrite !rvp6_little_endian_eq. unfold two_byte_value. now rewrite H1, H2, H3. Qed.
Print Assumptions C09_two_byte_record.
Print Assumptions C09_spare_bits.

Theorem C10_two_byte_round_trip p u v spare4 spare7 : - 4095 <= v <= 4095 ->
  exists lo hi, encode_two_bytes v spare4 spare7 = [lo; hi] /\ rvp6_little_endian p u lo hi = scaled_value p u v.
Proof.
  intros H. destruct (encode_two_bytes_value p u v spare4 spare7 H) as (lo & hi & H1 & H2).
  exists lo, hi. now rewrite rvp6_little_endian_eq.
Qed.
Print Assumptions C10_two_byte_round_trip.

(** No-data, as DWD writes it (2500 with the no-data flag), and as a byte. *)
Theorem C10_no_data p u :
  (exists lo hi, encode_cell None = [lo; hi] /\ rvp6_little_endian p u lo hi = NaN32) /\
  (exists b, encode_byte_cell None = [b] /\ rvp6_single_byte p u b = NaN32).
Proof.
  split.
  - eexists _, _. split; [reflexivity|]. rewrite rvp6_little_endian_eq. reflexivity.
  - eexists. split; [reflexivity|]. rewrite rvp6_single_byte_eq. reflexivity.
Qed.
Print Assumptions C10_no_data.

Theorem C11_one_byte_record p u b :
  (bz b = 250 -> rvp6_single_byte p u b = NaN32) /\
  (bz b <> 250 -> rvp6_single_byte p u b = scaled_value p u (bz b)).
Proof.
  rewrite rvp6_single_byte_eq. unfold one_byte_value. split.
  - intros ->. reflexivity.
  - intros H. apply Z.eqb_neq in H. now rewrite H.
Qed.
Print Assumptions C11_one_byte_record.

(** * C15, C16, C17: runlength lines *)
Theorem C15_runlength_round_trip level number cells dst :
  Forall (fun x => 0 <= x < 16) cells -> length dst = length cells ->
  decode_runlength level dst (encode_line number cells) = RowOk (map (level_value level) cells).
Proof.
  intros H Hl. pose proof (decode_runlength_spec level dst (encode_line number cells)) as Hs.
  rewrite Hl, encode_line_meaning in Hs by assumption. exact Hs.
Qed.
Print Assumptions C15_runlength_round_trip.

Theorem C16_runlength_errors level dst line :
  match line_meaning level (length dst) line with
  | Some row => decode_runlength level dst line = RowOk row
  | None => exists e d, decode_runlength level dst line = RowErr e d /\ (e = EOffsetValue \/ e = EDestination)
  end.
Proof. exact (decode_runlength_spec level dst line). Qed.
Print Assumptions C16_runlength_errors.

Theorem C17_values_from_table A E input text data lv levels c x y z v :
  parsed A E input c -> file_layout input text data ->
  field E text (bs "LV") = Some lv -> level_table E lv levels ->
  at_z A c x y z = Some v -> v = NaN32 \/ In v levels.
Proof.
  intros Hp Hf Hlv Ht Hat.
  destruct (runlength_parsed A E input text data lv levels c Hp Hf Hlv Ht) as (lines & tail & _ & Hlen & HF).
  assert (Hob : obtainable A E c). { left. exists input. destruct Hp as [Hp|Hp]; [now left|right; eauto]. }
  destruct (at_z_spec A E c x y z Hob) as [Hout Hin].
  assert (Hdec : inside x y z (c_dx c) (c_dy c) (c_dz c) \/ ~ inside x y z (c_dx c) (c_dy c) (c_dz c)) by (unfold inside; lia).
  destruct Hdec as [Hi|Ho]; [|left; specialize (Hout Ho); congruence].
  destruct (Hin Hi) as (v' & Hcell & Hat'). assert (v' = v) by congruence. subst v'.
  destruct Hi as (_ & Hy & Hz). destruct Hcell as (l & Hl & r & Hr & Hv).
  destruct (row_index A E input c z y Hp Hz Hy) as (l' & r' & Y & Hl' & Hr' & HY & _ & _).
  apply nth_is_index in Hl, Hl', Hr, Hr'. assert (l' = l) by congruence. subst l'. assert (r' = r) by congruence. subst r'.
  destruct HY as [_ HY]. apply nth_error_In in HY. destruct Hv as [_ Hv]. apply nth_error_In in Hv.
  clear - HF HY Hv. induction HF as [|line row lines rows Hm _ IH]; [destruct HY|].
  destruct HY as [->|HY]; [|auto]. eapply line_meaning_values; eassumption.
Qed.
Print Assumptions C17_values_from_table.

(** Level index 0, and indices above the level count (border markings), become
    NaN; the indices 1, 2, ... become the levels. *)
Theorem C17_indices level number cells dst i n : Forall (fun x => 0 <= x < 16) cells -> length dst = length cells ->
  nth_error cells i = Some n ->
  exists row v, decode_runlength level dst (encode_line number cells) = RowOk row /\ nth_error row i = Some v /\
    (n = 0 \/ len level < n -> v = NaN32) /\ (1 <= n <= len level -> nth_is level (n - 1) v).
Proof.
  intros H Hl Hn. exists (map (level_value level) cells), (level_value level n).
  split; [now apply C15_runlength_round_trip|]. split; [now apply map_nth_error|].
  pose proof (proj1 (Forall_forall _ _) H n (nth_error_In _ _ Hn)) as Hr. unfold level_value, nth_is, len in *. split.
  - intros Hb. destruct (Z.eqb_spec n 0); [reflexivity|].
    replace (nth_error level (Z.to_nat (n - 1))) with (@None f32); [reflexivity|].
    symmetry. apply nth_error_None. lia.
  - intros Hb. destruct (Z.eqb_spec n 0); [lia|]. split; [lia|].
    destruct (nth_error level (Z.to_nat (n - 1))) eqn:Q; [reflexivity|]. apply nth_error_None in Q. lia.
Qed.
Print Assumptions C17_indices.

(** * C18: encoding selection *)
Theorem C18_unknown_encoding A E input text data (c : composite (num A)) n :
  file_layout input text data -> header_meaning E text c -> possible_dims c ->
  announced_payload E text n -> - 2 ^ 63 <= n -> 2 * (c_px c * c_py c) < 2 ^ 63 ->
  (exists c', new_composite A E input = Failure EUnknownEncoding c') <->
  field E text (bs "LV") = None /\ n <> 2 * (c_px c * c_py c) /\ n <> c_px c * c_py c.
Proof.
  intros [-> Hn] Hm Hpos Hpay Hmin Hmax.
  destruct (header_enters A E text c Hm) as (ch & Hh & Hsame).
  pose proof (possible_same A _ _ Hsame Hpos) as Ha.
  pose proof Hsame as (_ & _ & _ & _ & _ & Ex & Ey & _).
  rewrite <- Ex, <- Ey in *. split.
  - intros [c' Hf]. destruct (field E text (bs "LV")) as [lv|] eqn:Hlv.
    + exfalso. rewrite (new_composite_header A E text data ch Hn Hh), (parse_data_alloc ch data Ha) in Hf.
      destruct (level_some A E _ _ _ Hh Hlv) as (levels & _ & Hl).
      assert (Henc : identify_encoding ch = runlength) by (unfold identify_encoding; now rewrite Hl).
      rewrite Henc in Hf. cbn [parse_encoding] in Hf.
      destruct (parse_runlength (set_plain ch (blank ch)) data) as [[c1 t1]|e c1|] eqn:Ep.
      * destruct (arrange_data c1); [|discriminate]. cbv zeta in Hf. destruct (unit_eqb _ _); discriminate.
      * apply parse_runlength_errors in Ep. injection Hf as -> _. intuition discriminate.
      * discriminate.
    + split; [reflexivity|]. split; intros ->.
      * pose proof (two_byte_result A E text data ch Hn Hh Ha Hlv Hpay) as Hr.
        destruct (_ <=? _); destruct Hr as [c1 Hr]; [destruct Hr|]; congruence.
      * pose proof (one_byte_result A E text data ch Hn Hh Ha Hlv Hpay) as Hr.
        destruct (_ <=? _); destruct Hr as [c1 Hr]; [destruct Hr|]; congruence.
  - intros (Hlv & N2 & N1). apply (other_result A E text data ch n); auto.
Qed.
Print Assumptions C18_unknown_encoding.

(** * C19: truncation and trailing data *)
Theorem C19_prefix A E input c : parsed A E input c ->
  exists used rest, input = used ++ rest /\
    (forall t, new_composite A E (used ++ t) = new_composite A E input) /\
    (forall k, (k < length used)%nat -> exists e c', new_composite A E (firstn k used) = Failure e c' /\
        (e = EHeaderShort \/ e = EReadRunlength \/ e = EReadLittleEndian \/ e = EReadSingleByte)).
Proof. exact (consumed_prefix A E input c). Qed.

Theorem C19_trailing_ignored A E input c t : parsed A E input c ->
  new_composite A E (input ++ t) = new_composite A E input.
Proof.
  intros H. destruct (consumed_prefix A E input c H) as (used & rest & -> & Hu & _).
  rewrite <- app_assoc, !Hu. reflexivity.
Qed.

(** Fixed-width: a file is complete iff the announced bytes are there. *)
Theorem C19_two_byte_truncated A E text data (c : composite (num A)) :
  file_layout (text ++ Byte.x03 :: data) text data -> header_meaning E text c -> possible_dims c ->
  field E text (bs "LV") = None -> announced_payload E text (2 * (c_px c * c_py c)) ->
  if 2 * (c_px c * c_py c) <=? len data
  then exists c', parsed A E (text ++ Byte.x03 :: data) c'
  else exists c', new_composite A E (text ++ Byte.x03 :: data) = Failure EReadLittleEndian c'.
Proof.
  intros [_ Hn] Hm Hpos Hlv Hpay. destruct (header_enters A E text c Hm) as (ch & Hh & Hsame).
  pose proof (possible_same A _ _ Hsame Hpos) as Ha. pose proof Hsame as (_ & _ & _ & _ & _ & Ex & Ey & _).
  rewrite <- Ex, <- Ey in *. now apply two_byte_result.
Qed.
Theorem C19_one_byte_truncated A E text data (c : composite (num A)) :
  file_layout (text ++ Byte.x03 :: data) text data -> header_meaning E text c -> possible_dims c ->
  field E text (bs "LV") = None -> announced_payload E text (c_px c * c_py c) ->
  if c_px c * c_py c <=? len data
  then exists c', parsed A E (text ++ Byte.x03 :: data) c'
  else exists c', new_composite A E (text ++ Byte.x03 :: data) = Failure EReadSingleByte c'.
Proof.
  intros [_ Hn] Hm Hpos Hlv Hpay. destruct (header_enters A E text c Hm) as (ch & Hh & Hsame).
  pose proof (possible_same A _ _ Hsame Hpos) as Ha. pose proof Hsame as (_ & _ & _ & _ & _ & Ex & Ey & _).
  rewrite <- Ex, <- Ey in *. now apply one_byte_result.
Qed.
Print Assumptions C19_prefix.
Print Assumptions C19_trailing_ignored.
Print Assumptions C19_two_byte_truncated.
Print Assumptions C19_one_byte_truncated.

(** * C28: ErrUnknownUnit *)
Lemma lookup_In {V} (m : gomap V) k v : lookup m k = Some v -> exists k', In (k', v) m.
Proof.
  induction m as [|[k' v'] m IH]; [discriminate|]. unfold lookup; fold (@lookup V). destruct (str_eqb k k').
  - intros [= <-]. exists k'. now left.
  - intros H. destruct (IH H) as [k'' Hk]. exists k''. now right.
Qed.
Lemma unit_catalog_known k u : lookup unit_catalog k = Some u -> u <> Unit_unknown.
Proof.
  intros H. apply lookup_In in H as [k' H].
  assert (Hall : forallb (fun kv => negb (unit_eqb (snd kv) Unit_unknown)) unit_catalog = true) by (vm_compute; reflexivity).
  rewrite forallb_forall in Hall. specialize (Hall _ H). intros ->. discriminate Hall.
Qed.

Theorem C28_unit A E input text data c : parsed A E input c -> file_layout input text data ->
  c_product c = firstn 2 text /\
  match lookup unit_catalog (firstn 2 text) with
  | Some u => c_unit c = u /\ u <> Unit_unknown /\ new_composite A E input = Value c
  | None => c_unit c = Unit_unknown /\ new_composite A E input = Failure ErrUnknownUnit c
  end.
Proof.
  intros Hp Hf. pose proof Hp as Hp0.
  apply (parsed_fields A E) in Hp0 as (text' & rest & tail & ch & p & dz & d0 & H1 & H2 & H3 & H4 & H5 & H6 & H7 & H8 &
    F1 & F2 & F3 & F4 & F5 & F6 & F7 & F8 & F9 & F10 & F11 & F12 & F13 & F14 & F15 & F16 & F17).
  destruct (file_layout_unique _ _ _ _ _ Hf H1) as [<- <-].
  pose proof (header_meaning_sound _ _ _ _ _ H2) as Hm.
  rewrite F1, (hm_product _ _ _ Hm). split; [reflexivity|].
  rewrite F5, (hm_unit _ _ _ Hm).
  pose proof (new_composite_inv A E input) as Hi.
  assert (Hcat : forall k u, lookup unit_catalog k = Some u -> u <> Unit_unknown).
  { exact unit_catalog_known. }
  destruct (lookup unit_catalog (firstn 2 text)) as [u|] eqn:El.
  - split; [reflexivity|]. split; [now apply Hcat in El|].
    destruct Hp as [Hp|Hp]; [assumption|]. rewrite Hp in Hi. exfalso.
    destruct Hi as [[Hi _]|(_ & Hi & _)]; [congruence|].
    rewrite F5, (hm_unit _ _ _ Hm), El in Hi. now apply Hcat in El.
  - split; [reflexivity|]. destruct Hp as [Hp|Hp]; [|assumption]. rewrite Hp in Hi. exfalso.
    destruct Hi as [Hi _]. apply Hi. now rewrite F5, (hm_unit _ _ _ Hm), El.
Qed.

Theorem C28_error_iff A E input :
  (exists c, new_composite A E input = Failure ErrUnknownUnit c) <->
  exists c text data, parsed A E input c /\ file_layout input text data /\ lookup unit_catalog (firstn 2 text) = None.
Proof.
  split.
  - intros [c Hc]. assert (Hp : parsed A E input c) by now right.
    destruct (parsed_inv A E input c Hp) as (text & data & _ & _ & _ & _ & _ & Hf & _).
    exists c, text, data. split; [assumption|]. split; [assumption|].
    destruct (C28_unit A E input text data c Hp Hf) as [_ Hu].
    destruct (lookup unit_catalog (firstn 2 text)); [|reflexivity]. destruct Hu as (_ & _ & Hu). congruence.
  - intros (c & text & data & Hp & Hf & Hl). destruct (C28_unit A E input text data c Hp Hf) as [_ Hu].
    rewrite Hl in Hu. destruct Hu as [_ Hu]. eauto.
Qed.
Print Assumptions C28_unit.
Print Assumptions C28_error_iff.

Example C28_unknown_case A E : exists c,
  new_composite A E (file (bs "ZZ282105100000716BY    58VS 3PR E+00INT   5BG002003") one_byte_data) = Failure ErrUnknownUnit c /\
  c_dz c = 1 /\ c_unit c = Unit_unknown.
Proof. eexists. split; [vm_compute; reflexivity|]. split; reflexivity. Qed.

(** * C45: unit names *)
Theorem C45_unit_names A E c : obtainable A E c -> exists name,
  unit_string (unit_code (c_unit c)) = Some name /\
  In (c_unit c, name) [(Unit_unknown, bs "unknown unit"); (Unit_mm, bs "mm"); (Unit_dBZ, bs "dBZ"); (Unit_km, bs "km"); (Unit_mps, bs "m/s")].
Proof. intros _. destruct (c_unit c); eexists; (split; [vm_compute; reflexivity|]); cbn; auto 8. Qed.

Theorem C45_names_distinct u v : unit_string (unit_code u) = unit_string (unit_code v) -> u = v.
Proof. destruct u, v; vm_compute; congruence. Qed.
Print Assumptions C45_unit_names.
Print Assumptions C45_names_distinct.

(** * C46: completeness *)
(** The complete description of the accepted inputs (without int overflow in
    the announced sizes). *)
Theorem C46_accepted_iff A E input :
  (exists c, parsed A E input c) <->
  exists text data (c : composite (num A)) n, file_layout input text data /\ header_meaning E text c /\ possible_dims c /\
    announced_payload E text n /\
    ((exists lv levels lines tail, field E text (bs "LV") = Some lv /\ level_table E lv levels /\
        split_lines data lines tail /\ len lines = c_py c /\
        Forall (fun line => line_meaning levels (Z.to_nat (c_px c)) line <> None) lines) \/
     (field E text (bs "LV") = None /\ int_wrap n = int_wrap (2 * (c_px c * c_py c)) /\ 2 * (c_px c * c_py c) <= len data) \/
     (field E text (bs "LV") = None /\ int_wrap n = int_wrap (c_px c * c_py c) /\
        int_wrap n <> int_wrap (2 * (c_px c * c_py c)) /\ c_px c * c_py c <= len data)).
Proof.
  split.
  - intros [c Hp].
    pose proof Hp as Hp0.
    apply (parsed_fields A E) in Hp0 as (text & data & tail & ch & p & dz & d0 & H1 & H2 & H3 & H4 & H5 & H6 & H7 & H8 &
      F1 & F2 & F3 & F4 & F5 & F6 & F7 & F8 & F9 & F10 & F11 & F12 & F13 & F14 & F15 & F16 & F17).
    destruct (payload_exists A E _ _ H2) as [n Hn]. exists text, data, ch, n.
    pose proof (header_meaning_sound _ _ _ _ _ H2) as Hm.
    split; [assumption|]. split; [assumption|]. split; [assumption|]. split; [now apply payload_iff|].
    rewrite (parse_data_alloc ch data H4) in H3.
    destruct (payload_data_length A E _ _ _ H2 Hn) as (Hdl & _ & _).
    destruct (field E text (bs "LV")) as [lv|] eqn:Hlv.
    + left. destruct (level_some A E _ _ _ H2 Hlv) as (levels & Ht & _).
      destruct (runlength_parsed A E input text data lv levels c Hp H1 Hlv Ht) as (lines & t & Hs & Hl & HF).
      exists lv, levels, lines, t. rewrite F7 in HF. rewrite F8 in Hl.
      do 4 (split; [assumption || reflexivity|]). clear - HF.
      induction HF; constructor; [congruence|assumption].
    + right. pose proof Hlv as Hlv'. apply (level_none A E _ _ H2) in Hlv'.
      unfold identify_encoding in H3. rewrite Hlv', Hdl, int_wrap_mul2 in H3.
      destruct (Z.eqb_spec (int_wrap n) (int_wrap (c_px ch * c_py ch * 2))) as [He|He].
      * left. split; [reflexivity|]. split; [rewrite He; f_equal; lia|]. cbn [parse_encoding] in H3.
        pose proof (parse_little_endian_spec (set_plain ch (blank ch)) data H6 (blank_ok ch H4)) as Hs.
        rewrite H3 in Hs. destruct Hs as (p' & _ & _ & _ & Hle & _). exact Hle.
      * destruct (Z.eqb_spec (int_wrap n) (int_wrap (c_px ch * c_py ch))) as [He1|He1]; [|discriminate H3].
        right. split; [reflexivity|]. split; [assumption|].
        split; [intros Hx; apply He; rewrite Hx; f_equal; lia|]. cbn [parse_encoding] in H3.
        pose proof (parse_single_byte_spec (set_plain ch (blank ch)) data H6 (blank_ok ch H4)) as Hs.
        rewrite H3 in Hs. destruct Hs as (p' & _ & _ & _ & Hle & _). exact Hle.
  - intros (text & data & c & n & [-> Hnin] & Hm & Hpos & Hpay & Hd).
    destruct (header_enters A E text c Hm) as (ch & Hh & Hsame).
    pose proof (possible_same A _ _ Hsame Hpos) as Ha. pose proof Hsame as (_ & _ & _ & _ & _ & Ex & Ey & _).
    rewrite <- Ex, <- Ey in *.
    pose proof (parse_header_text_dims _ _ _ _ _ Hh) as [Hdo _].
    pose proof (dims_pos_of ch Hdo Ha) as Hdp.
    apply payload_iff in Hpay. destruct (payload_data_length A E _ _ _ Hh Hpay) as (Hdl & _ & _).
    pose proof (parse_data_alloc ch data Ha) as Hpd. unfold identify_encoding in Hpd. rewrite Hdl, int_wrap_mul2 in Hpd.
    destruct Hd as [(lv & levels & lines & tail & Hlv & Ht & Hs & Hl & HF)|[(Hlv & He & Hle)|(Hlv & He & Hne & Hle)]].
    + eapply runlength_complete; eauto.
    + apply (level_none A E _ _ Hh) in Hlv. rewrite Hlv, He in Hpd.
      replace (2 * (c_px ch * c_py ch)) with (c_px ch * c_py ch * 2) in Hpd by lia. rewrite Z.eqb_refl in Hpd. cbn [parse_encoding] in Hpd.
      pose proof (parse_little_endian_spec (set_plain ch (blank ch)) data Hdp (blank_ok ch Ha)) as Hs.
      cbn [c_px c_py set_plain] in Hs. rewrite <- Hpd in Hs.
      destruct (parse_data ch data) as [[c' tl]|e c'|] eqn:Ep; [|lia|destruct Hs].
      eapply parse_data_parsed; eauto.
    + apply (level_none A E _ _ Hh) in Hlv. rewrite Hlv in Hpd.
      replace (2 * (c_px ch * c_py ch)) with (c_px ch * c_py ch * 2) in Hne by lia. apply Z.eqb_neq in Hne. rewrite Hne, He, Z.eqb_refl in Hpd. cbn [parse_encoding] in Hpd.
      pose proof (parse_single_byte_spec (set_plain ch (blank ch)) data Hdp (blank_ok ch Ha)) as Hs.
      cbn [c_px c_py set_plain] in Hs. rewrite <- Hpd in Hs.
      destruct (parse_data ch data) as [[c' tl]|e c'|] eqn:Ep; [|lia|destruct Hs].
      eapply parse_data_parsed; eauto.
Qed.
Print Assumptions C46_accepted_iff.
